(** C116: selectLinear of include/poppy/popcount.h. *)
From Verif Require Import Base Spec SpecPoppy Poppy PoppyLinear PoppyLinearFacts.

(** ** C116: selectLinear *)

(** With the call of select64_popcount_search that popcount.h line 191 leaves as
    a comment: the position, counted from word x and most significant bit of each
    word first, of the (k+1)-th one. *)
Theorem C116_other : forall ws x k p, words_ok ws -> zlen ws < 2 ^ 58 -> 0 <= x < zlen ws ->
  is_select (bits_msb (skipn (Z.to_nat x) ws)) k p ->
  select_linear_with (fun w r => Ok (select64_popcount_search w r)) ws (zlen ws) x (k + 1) = Ok p.
Proof. exact linear_other. Qed.
Print Assumptions C116_other.
Example C116_other_case : is_select (bits_msb (skipn 1 [7; 0; 5; 3])) 2 190 /\
  select_linear_with (fun w r => Ok (select64_popcount_search w r)) [7; 0; 5; 3] 4 1 3 = Ok 190.
Proof. repeat split; vm_compute; congruence. Qed.

(** As shipped: the next one of the same word, or the end of the word; undefined
    after the last bit of a full word. *)
Theorem C116_shipped : forall ws x k p, words_ok ws -> zlen ws < 2 ^ 58 -> 0 <= x < zlen ws ->
  is_select (bits_of_words (skipn (Z.to_nat x) ws)) k p ->
  if (zn 0 ws (x + p / 64) =? 2 ^ 64 - 1) && (p mod 64 =? 63) then select_linear ws (zlen ws) x (k + 1) = Ub UB_shift
  else exists q, select_linear ws (zlen ws) x (k + 1) = Ok q /\ next_in_word (skipn (Z.to_nat x) ws) k p q.
Proof. exact linear_shipped. Qed.
Print Assumptions C116_shipped.
Example C116_shipped_case : is_select (bits_of_words (skipn 1 [7; 0; 5; 2 ^ 64 - 1])) 1 66 /\
  select_linear [7; 0; 5; 2 ^ 64 - 1] 4 1 1 = Ok 66 /\ select_linear [7; 0; 5; 2 ^ 64 - 1] 4 1 2 = Ok 128 /\
  select_linear [7; 0; 5; 2 ^ 64 - 1] 4 1 66 = Ub UB_shift.
Proof. repeat split; vm_compute; congruence. Qed.

(** It never gives the position of the (k+1)-th one. *)
Theorem C116_never : forall ws x k p, words_ok ws -> zlen ws < 2 ^ 58 -> 0 <= x < zlen ws ->
  is_select (bits_of_words (skipn (Z.to_nat x) ws)) k p -> select_linear ws (zlen ws) x (k + 1) <> Ok p.
Proof. exact linear_never. Qed.
Print Assumptions C116_never.
Example C116_never_case : is_select (bits_of_words (skipn 2 [7; 0; 5; 3])) 0 0 /\ select_linear [7; 0; 5; 3] 4 2 1 = Ok 2.
Proof. repeat split; vm_compute; congruence. Qed.

(** Fewer than k ones from word x on: the answer is 2^64 - 1 when x is 0 or k
    exceeds the number of bits; otherwise a word after the array is read. Either
    of the two functions on words. *)
Theorem C116_missing : forall sel ws x k, words_ok ws -> zlen ws < 2 ^ 58 -> 0 <= x < zlen ws ->
  count_true (bits_msb (skipn (Z.to_nat x) ws)) < k < 2 ^ 64 ->
  select_linear_with sel ws (zlen ws) x k =
    if (x =? 0) || (64 * (zlen ws - x) <? k) then Ok (2 ^ 64 - 1) else Ub UB_bounds.
Proof. exact linear_missing. Qed.
Print Assumptions C116_missing.
Example C116_missing_case : count_true (bits_msb (skipn 1 [7; 0; 5; 3])) = 4 /\
  select_linear [7; 0; 5; 3] 4 0 8 = Ok (2 ^ 64 - 1) /\ select_linear [7; 0; 5; 3] 4 1 5 = Ub UB_bounds /\
  select_linear [7; 0; 5; 3] 4 1 193 = Ok (2 ^ 64 - 1).
Proof. repeat split; vm_compute; reflexivity. Qed.

(** So a request that cannot be met is not always answered. *)
Theorem C116_missing_refuted : exists ws x k, words_ok ws /\ 0 <= x < zlen ws /\ count_true (bits_msb (skipn (Z.to_nat x) ws)) < k /\
  select_linear ws (zlen ws) x k = Ub UB_bounds.
Proof. exists [1; 2], 1, 2. split; [repeat constructor; cbn; discriminate|]. repeat split; vm_compute; congruence. Qed.
Print Assumptions C116_missing_refuted.

(** k = 0: only word x is looked at; 64 when it is zero. *)
Theorem C116_zero : forall ws x, words_ok ws -> zlen ws < 2 ^ 58 -> 0 <= x < zlen ws ->
  if zn 0 ws x =? 0 then select_linear ws (zlen ws) x 0 = Ok 64
  else exists q, select_linear ws (zlen ws) x 0 = Ok q /\ is_select (bits_of_word (zn 0 ws x)) 0 q.
Proof. exact linear_zero. Qed.
Print Assumptions C116_zero.
Example C116_zero_case : select_linear [0; 12] 2 0 0 = Ok 64 /\ select_linear [0; 12] 2 1 0 = Ok 2.
Proof. repeat split; vm_compute; reflexivity. Qed.

(** A word number not below length: length - x wraps, so the test of the first
    line lets almost every k through and the array is overrun. *)
Theorem C116_beyond : forall sel ws x k, zlen ws < 2 ^ 58 -> zlen ws <= x < zlen ws + 2 ^ 58 -> 0 <= k < 2 ^ 64 ->
  select_linear_with sel ws (zlen ws) x k =
    if (x =? zlen ws) && (1 <=? k) || negb (x =? zlen ws) && (2 ^ 64 - 64 * (x - zlen ws) <? k) then Ok (2 ^ 64 - 1) else Ub UB_bounds.
Proof. exact linear_beyond. Qed.
Print Assumptions C116_beyond.
Example C116_beyond_case : select_linear [1; 2] 2 2 1 = Ok (2 ^ 64 - 1) /\ select_linear [1; 2] 2 3 1 = Ub UB_bounds.
Proof. split; vm_compute; reflexivity. Qed.
