(** The random bit generator (C33, C39). *)
From Verif Require Import Base Spec Random SpecRandom RandomFacts.

(** ** C33: create_random_bits *)

(** From four words on: the old bits and the drawn ones, and bit 0 if the first
    256 bits would be zero; returned are the drawn positions, counting that one. *)
Theorem C33_contents : forall ws t seed, words_ok ws -> 4 <= zlen ws < 2 ^ 58 -> 0 <= seed < 2 ^ 64 ->
  let B := bits_of_words ws in let D := drawn seed t (64 * zlen ws) in
  exists ws', create_random_bits ws t seed = Ok (ws', count_true D + b2z (forced B D)) /\
    words_ok ws' /\ bits_of_words ws' = random_bits B D.
Proof. exact create_contents. Qed.
Print Assumptions C33_contents.

(** On an array of zeros the result is the number of ones, and there is one
    among the first 256 bits. *)
Theorem C33_zero_array : forall m t seed, (4 <= m)%nat -> Z.of_nat m < 2 ^ 58 -> 0 <= seed < 2 ^ 64 ->
  exists ws r, create_random_bits (repeat 0 m) t seed = Ok (ws, r) /\ words_ok ws /\ zlen ws = Z.of_nat m /\
    r = count_true (bits_of_words ws) /\ exists i, 0 <= i < 256 /\ bit (bits_of_words ws) i = true.
Proof. exact create_zeros. Qed.
Print Assumptions C33_zero_array.

Example C33_zero_array_case : (4 <= 5)%nat /\
  create_random_bits (repeat 0 5) 0 13 = Ok ([1; 0; 0; 0; 0], 1) /\
  (exists ws, create_random_bits (repeat 0 5) (2 ^ 61) 13 = Ok (ws, 40)).
Proof. split; [repeat constructor|]. split; [vm_compute; reflexivity|]. eexists. vm_compute. reflexivity. Qed.

(** In general the result misses exactly the old ones that were not drawn. *)
Theorem C33_count_exact : forall ws t seed ws' r, words_ok ws -> zlen ws < 2 ^ 58 -> 0 <= seed < 2 ^ 64 ->
  create_random_bits ws t seed = Ok (ws', r) ->
  count_true (bits_of_words ws') = r + count_true (kept (bits_of_words ws) (drawn seed t (64 * zlen ws))).
Proof. exact create_counts. Qed.
Print Assumptions C33_count_exact.
Example C33_count_exact_case : words_ok [5; 0; 0; 1] /\ create_random_bits [5; 0; 0; 1] (2 ^ 58) 13 = Ok ([5; 0; 0; 70368744177665], 1) /\
  count_true (bits_of_words [5; 0; 0; 70368744177665]) = 4 /\ count_true (kept (bits_of_words [5; 0; 0; 1]) (drawn 13 (2 ^ 58) 256)) = 3.
Proof. split; [repeat constructor; lia|]. vm_compute. auto. Qed.

Theorem C33_count_refuted : exists ws t seed ws' r, words_ok ws /\ 4 <= zlen ws < 2 ^ 58 /\ 0 <= seed < 2 ^ 64 /\
  create_random_bits ws t seed = Ok (ws', r) /\ r <> count_true (bits_of_words ws').
Proof. exact count_wrong. Qed.
Print Assumptions C33_count_refuted.

(** With fewer than four words it reads past the array exactly when no bit is
    set. *)
Theorem C33_short_array : forall ws t seed, words_ok ws -> zlen ws < 4 -> 0 <= seed < 2 ^ 64 ->
  (create_random_bits ws t seed = Ub UB_bounds <-> Forall (eq 0) ws /\ forall i, 0 <= i < 64 * zlen ws -> t <= draw seed i).
Proof. exact create_short. Qed.
Print Assumptions C33_short_array.
Example C33_short_array_case : create_random_bits [0; 0] 0 13 = Ub UB_bounds /\ create_random_bits [4] 0 13 = Ok ([4], 0).
Proof. vm_compute. auto. Qed.

Theorem C33_short_array_refuted : exists ws t seed, words_ok ws /\ ws <> [] /\ 0 < t < 2 ^ 64 /\ 0 <= seed < 2 ^ 64 /\
  create_random_bits ws t seed = Ub UB_bounds.
Proof. exact short_ub. Qed.
Print Assumptions C33_short_array_refuted.

(** ** C39: the generator has full period *)
Theorem C39_full_period : forall seed v, 0 <= v < 2 ^ 64 ->
  exists i, 0 <= i < 2 ^ 64 /\ draw seed i = v /\ forall j, 0 <= j < 2 ^ 64 -> draw seed j = v -> j = i.
Proof. exact full_period. Qed.
Print Assumptions C39_full_period.

(** [draw] is what the C++ class returns: the i-th call, for every i. *)
Theorem C39_calls : forall seed n, 0 <= seed < 2 ^ 64 -> calls n seed = map (draw seed) (zrange 0 n).
Proof. exact calls_draw. Qed.
Print Assumptions C39_calls.

(** First numbers for seed 1234567, as published. *)
Example C39_calls_case : calls 5 1234567 = [6457827717110365317; 3203168211198807973; 9817491932198370423; 4593380528125082431; 16408922859458223821].
Proof. vm_compute. reflexivity. Qed.

(** A larger threshold sets at least the same bits; bit 0 may have been set only
    because the first 256 bits were zero. *)
Theorem C39_threshold_monotone : forall ws t t' seed w r w' r' i,
  words_ok ws -> zlen ws < 2 ^ 58 -> 0 <= seed < 2 ^ 64 -> t <= t' ->
  create_random_bits ws t seed = Ok (w, r) -> create_random_bits ws t' seed = Ok (w', r') ->
  0 < i < 64 * zlen ws -> bit (bits_of_words w) i = true -> bit (bits_of_words w') i = true.
Proof. exact create_mono. Qed.
Print Assumptions C39_threshold_monotone.
Example C39_threshold_monotone_case : exists w w', words_ok [5; 0; 0; 1] /\
  create_random_bits [5; 0; 0; 1] (2 ^ 58) 13 = Ok (w, 1) /\ create_random_bits [5; 0; 0; 1] (2 ^ 60) 13 = Ok (w', 16).
Proof. eexists. eexists. split; [repeat constructor; lia|]. vm_compute. auto. Qed.
