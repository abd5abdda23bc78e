(** Properties C85-C87: the poppy index (include/poppy) on bitmaps of 2^32 bits
    and more. *)
From Verif Require Import Base Spec SpecPoppy SpecPoppyBig Words Poppy PoppyBigFacts3 PoppyBigProps PoppyBigProps2.

(** ** C85: construction, rank, count and space for 2^32 bits and more *)

(** The constructor succeeds when every piece of 2^32 bits has less than
    2^32 - 8191 ones, and writes out of bounds as soon as one has more. *)
Theorem C85_build : forall junk ws, big_ok ws ->
  ((forall i, 0 <= i < pieces ws -> piece_fits ws i) -> exists t, wrapper_build junk ws = Ok t) /\
  (forall i, 0 <= i < pieces ws -> ~ piece_fits ws i -> wrapper_build junk ws = Ub UB_bounds).
Proof. exact big_build. Qed.
Print Assumptions C85_build.
Example C85_build_case : big_ok far_one /\ pieces far_one = 2 /\ (forall i, 0 <= i < pieces far_one -> piece_fits far_one i).
Proof. destruct far_one_ok as (H & L & _ & F & _). split; [exact H|]. split; [unfold pieces; rewrite L; reflexivity|exact F]. Qed.

(** A bitmap of 2^32 ones cannot be indexed. *)
Theorem C85_build_refuted : exists ws, big_ok ws /\ forall junk, wrapper_build junk ws = Ub UB_bounds.
Proof. exact big_build_fails. Qed.
Print Assumptions C85_build_refuted.
Example C85_build_refuted_case : big_ok all_ones /\ pieces all_ones = 1 /\ piece_ones all_ones 0 = 2 ^ 32.
Proof. exact all_ones_ok. Qed.

(** rank: right in the whole pieces, out of bounds beyond them. *)
Theorem C85_rank : forall junk dbg ws t pos, big_ok ws -> wrapper_build junk ws = Ok t -> 0 <= pos <= 64 * zlen ws ->
  poppy_rank dbg t pos = if pos <? 2 ^ 32 * pieces ws then Ok (ones_before (bits_msb ws) pos) else Ub UB_bounds.
Proof. exact big_rank. Qed.
Print Assumptions C85_rank.
Example C85_rank_case : forall dbg, exists t, wrapper_build (fun i => i) far_one = Ok t /\
  poppy_rank dbg t (2 ^ 32 + 63) = Ok 0 /\ poppy_rank dbg t (2 ^ 33) = Ub UB_bounds.
Proof.
  intros dbg. destruct far_one_ok as (H & L & _ & F & (_ & _ & S) & _). revert H L F S. generalize far_one. intros ws H L F S.
  destruct (C85_build (fun i => i) ws H) as (B & _). destruct (B F) as (t & E). exists t. split; [exact E|].
  assert (P : pieces ws = 2) by (unfold pieces; rewrite L; reflexivity).
  rewrite !(C85_rank (fun i => i) dbg ws t) by (auto; rewrite L; split; discriminate). rewrite P.
  split; [|reflexivity]. rewrite S. reflexivity.
Qed.

Theorem C85_wrapper_rank : forall junk dbg ws t i, big_ok ws -> wrapper_build junk ws = Ok t -> 0 <= i < 64 * zlen ws ->
  wrapper_rank dbg t i = if i + 1 <? 2 ^ 32 * pieces ws then Ok (rank_spec (bits_msb ws) i) else Ub UB_bounds.
Proof. exact big_wrapper_rank. Qed.
Print Assumptions C85_wrapper_rank.
Example C85_wrapper_rank_case : (2 ^ 32 + 62) + 1 <? 2 ^ 32 * 2 = true /\ (2 ^ 33 - 1) + 1 <? 2 ^ 32 * 2 = false.
Proof. split; reflexivity. Qed.

(** The number of ones, the size and the space. *)
Theorem C85_counts : forall junk ws t, big_ok ws -> wrapper_build junk ws = Ok t ->
  p_count t = ones_before (bits_msb ws) (2 ^ 32 * pieces ws) /\ wrapper_size t = 64 * zlen ws /\
  wrapper_bytes t = 8 * zlen ws + 8 * (zlen ws / 32) + 12 * pieces ws + 4 * locations ws + 40.
Proof. exact big_counts. Qed.
Print Assumptions C85_counts.
Example C85_counts_case : forall junk, exists t, wrapper_build junk far_one = Ok t /\ wrapper_size t = 2 ^ 33.
Proof.
  intros junk. destruct far_one_ok as (H & L & _ & F & _). revert H L F. generalize far_one. intros ws H L F.
  destruct (C85_build junk ws H) as (B & _). destruct (B F) as (t & E). exists t. split; [exact E|].
  destruct (C85_counts junk ws t H E) as (_ & S & _). rewrite S, L. reflexivity.
Qed.

(** ** C86: select on several pieces *)

(** Ones of the first piece: as for small bitmaps (C50). *)
Theorem C86_first : forall junk dbg ws t k p, big_ok ws -> 2 <= pieces ws -> wrapper_build junk ws = Ok t ->
  0 <= k < piece_ones ws 0 -> is_select (bits_of_words ws) k p ->
  if (zn 0 ws (p / 64) =? 2 ^ 64 - 1) && (p mod 64 =? 63) then wrapper_select dbg t k = Ub UB_shift
  else exists q, wrapper_select dbg t k = Ok q /\ next_in_word ws k p q.
Proof. exact first_piece_exact. Qed.
Print Assumptions C86_first.
Example C86_first_case : big_ok (one_at (2 ^ 27) 5) /\ piece_ones (one_at (2 ^ 27) 5) 0 = 1 /\ is_select (bits_of_words (one_at (2 ^ 27) 5)) 0 (64 * 5).
Proof.
  split; [apply big_one_at; split; reflexivity || discriminate|]. split; [apply piece_one_at; try split; reflexivity || discriminate|].
  apply select_one_at_ordinary. split; [discriminate|reflexivity].
Qed.

(** With the other select64 of popcount.h line 191: the inverse of rank there. *)
Theorem C86_first_other : forall junk dbg ws t k p, big_ok ws -> 2 <= pieces ws -> wrapper_build junk ws = Ok t ->
  0 <= k < piece_ones ws 0 -> is_select (bits_msb ws) k p ->
  poppy_select_with (fun x k => Ok (select64_popcount_search x k)) dbg t (k + 1) = Ok p.
Proof. exact first_piece_other. Qed.
Print Assumptions C86_first_other.
Example C86_first_other_case : is_select (bits_msb (one_at (2 ^ 27) 5)) 0 (64 * 5 + 63).
Proof. apply select_one_at. split; [discriminate|reflexivity]. Qed.

(** Later pieces: the L2 entries of the first piece are searched.  When that has
    no one, the answer lies in the last 512 bits of the piece, wherever the one
    is, and whichever in-word select is used. *)
Theorem C86_later : forall sel junk dbg ws t k p q, (forall x i s, sel x i = Ok s -> -1 <= s <= 64) ->
  big_ok ws -> zlen ws mod 2 ^ 26 = 0 -> 64 * zlen ws <= 2 ^ 37 -> wrapper_build junk ws = Ok t ->
  piece_ones ws 0 = 0 -> is_select (bits_msb ws) k p ->
  poppy_select_with sel dbg t (k + 1) = Ok q -> 2 ^ 32 * (p / 2 ^ 32 + 1) - 513 <= q <= 2 ^ 32 * (p / 2 ^ 32 + 1).
Proof. exact later_piece. Qed.
Print Assumptions C86_later.
Example C86_later_case : big_ok far_one /\ zlen far_one = 2 ^ 27 /\ piece_ones far_one 0 = 0 /\ is_select (bits_msb far_one) 0 (2 ^ 32 + 63) /\
  forall x i s, select64 x i = Ok s -> -1 <= s <= 64.
Proof. destruct far_one_ok as (H & L & Z0 & _ & S & _). split; [exact H|]. split; [exact L|]. split; [exact Z0|]. split; [exact S|exact select64_answers]. Qed.

(** So select is not the inverse of rank on bitmaps of 2^33 bits, with any in-word select. *)
Theorem C86_select_refuted : forall junk dbg, exists ws t k p, big_ok ws /\ 64 * zlen ws = 2 ^ 33 /\ wrapper_build junk ws = Ok t /\
  is_select (bits_msb ws) k p /\
  forall sel, (forall x i s, sel x i = Ok s -> -1 <= s <= 64) -> poppy_select_with sel dbg t (k + 1) <> Ok p.
Proof. exact later_wrong. Qed.
Print Assumptions C86_select_refuted.

(** ** C87: select between 2^32 and 2^33 bits *)

(** Below the last L2 entry of the piece: as for small bitmaps. *)
Theorem C87_below : forall junk dbg ws t k p, big_ok ws -> pieces ws = 1 -> wrapper_build junk ws = Ok t ->
  0 <= k < ones_before (bits_msb ws) (2 ^ 32 - 2048) -> is_select (bits_of_words ws) k p ->
  if (zn 0 ws (p / 64) =? 2 ^ 64 - 1) && (p mod 64 =? 63) then wrapper_select dbg t k = Ub UB_shift
  else exists q, wrapper_select dbg t k = Ok q /\ next_in_word ws k p q.
Proof. exact below_last_exact. Qed.
Print Assumptions C87_below.
Theorem C87_below_other : forall junk dbg ws t k p, big_ok ws -> pieces ws = 1 -> wrapper_build junk ws = Ok t ->
  0 <= k < ones_before (bits_msb ws) (2 ^ 32 - 2048) -> is_select (bits_msb ws) k p ->
  poppy_select_with (fun x k => Ok (select64_popcount_search x k)) dbg t (k + 1) = Ok p.
Proof. exact below_last_other. Qed.
Print Assumptions C87_below_other.
Example C87_below_case : big_ok (one_at (2 ^ 26 + 32) 5) /\ is_select (bits_of_words (one_at (2 ^ 26 + 32) 5)) 0 (64 * 5) /\
  is_select (bits_msb (one_at (2 ^ 26 + 32) 5)) 0 (64 * 5 + 63).
Proof.
  split; [apply big_one_at; split; reflexivity || discriminate|].
  split; [apply select_one_at_ordinary|apply select_one_at]; split; reflexivity || discriminate.
Qed.

(** Ones of the last L2 entry, when the bitmap has at least 2048 bits more: the
    next entry was allocated and never written.  Right if its low half happens
    to exceed k. *)
Theorem C87_last_read : forall junk dbg ws t k p, big_ok ws -> pieces ws = 1 -> 2 ^ 32 + 2048 <= 64 * zlen ws -> wrapper_build junk ws = Ok t ->
  ones_before (bits_msb ws) (2 ^ 32 - 2048) <= k < piece_ones ws 0 -> k < Z.land (junk (2 ^ 21)) 0xFFFFFFFF -> is_select (bits_of_words ws) k p ->
  if (zn 0 ws (p / 64) =? 2 ^ 64 - 1) && (p mod 64 =? 63) then wrapper_select dbg t k = Ub UB_shift
  else exists q, wrapper_select dbg t k = Ok q /\ next_in_word ws k p q.
Proof. exact last_read. Qed.
Print Assumptions C87_last_read.
(** Otherwise the answer is one of the first positions, or -1. *)
Theorem C87_last_lost : forall junk dbg ws t k q, big_ok ws -> pieces ws = 1 -> 2 ^ 32 + 2048 <= 64 * zlen ws -> wrapper_build junk ws = Ok t ->
  ones_before (bits_msb ws) (2 ^ 32 - 2048) <= k < piece_ones ws 0 -> Z.land (junk (2 ^ 21)) 0xFFFFFFFF <= k ->
  wrapper_select dbg t k = Ok q -> q <= 64 * zlen ws - 2 ^ 32 \/ q = 2 ^ 64 - 1.
Proof. exact last_lost. Qed.
Print Assumptions C87_last_lost.
Example C87_last_case : big_ok last_one /\ 64 * zlen last_one = 2 ^ 32 + 2048 /\ piece_ones last_one 0 = 1 /\
  ones_before (bits_msb last_one) (2 ^ 32 - 2048) = 0 /\ is_select (bits_of_words last_one) 0 (2 ^ 32 - 64).
Proof. destruct last_one_ok as (H & L & P1 & _ & _ & O & _ & S). split; [exact H|]. split; [rewrite L; reflexivity|]. split; [exact P1|]. split; [exact O|exact S]. Qed.

(** So the answer depends on memory nobody wrote. *)
Theorem C87_select_refuted : forall dbg, exists ws k p t1 t2, big_ok ws /\ is_select (bits_of_words ws) k p /\
  wrapper_build (fun _ => 0) ws = Ok t1 /\ wrapper_build (fun _ => 2 ^ 64 - 1) ws = Ok t2 /\
  (exists q, wrapper_select dbg t2 k = Ok q /\ next_in_word ws k p q) /\
  (forall q, wrapper_select dbg t1 k = Ok q -> ~ next_in_word ws k p q).
Proof. exact last_depends. Qed.
Print Assumptions C87_select_refuted.
