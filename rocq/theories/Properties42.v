(** C128: RankCF64 queried by several threads. *)
From Verif Require Import Base Spec SpecText MrRank MrRankProps MrRaceCf MrRaceCfFacts.

(** A call that runs alone ends after at most twelve steps with the number of ones before i. *)
Theorem C128_alone : forall m t, addresses_ok m -> text_ok t -> zlen t < 2 ^ 58 -> ~ (1 <= text_blocks t /\ forall b, 0 <= b < text_blocks t -> uniform_block t b) ->
  exists r, build_cf m t = Ok r /\ forall i ptr0 n, 0 <= i < 512 * text_blocks t -> (12 <= n)%nat ->
    exists ptr, c_run r (ptr0, [CStart i]) (repeat 0%nat n) = Ok (ptr, [CDone (ones_before (text_bits t) i)]).
Proof. exact cf_race_alone. Qed.
Print Assumptions C128_alone.
Example C128_alone_case : let t := repeat 1 8 ++ repeat 3 56 ++ repeat 1 64 in
  addresses_ok (mem_of 99 32) /\ text_blocks t = 2 /\ ones_before (text_bits t) 500 = 116 /\
  (let* r := build_cf (mem_of 99 32) t in let* st := c_run r (77, [CStart 500]) (repeat 0%nat 12) in Ok (snd st)) = Ok [CDone 116] /\
  (let* r := build_cf (mem_of 99 32) t in let* st := c_run r (77, [CStart 500]) (repeat 0%nat 11) in Ok (snd st)) <> Ok [CDone 116].
Proof. split; [apply mem_of_ok; [lia|reflexivity]|]. vm_compute. repeat split; congruence. Qed.

(** Calls for bits of one block right of the border answer right however they are interleaved. *)
Theorem C128_right : forall m t, addresses_ok m -> text_ok t -> zlen t < 2 ^ 58 -> ~ (1 <= text_blocks t /\ forall b, 0 <= b < text_blocks t -> uniform_block t b) ->
  exists r, build_cf m t = Ok r /\ forall b qs ptr0 ks, cf_border r <= b -> (forall i, In i qs -> 0 <= i < 512 * text_blocks t /\ i / 512 = b) ->
  exists ptr cs, c_run r (ptr0, map CStart qs) ks = Ok (ptr, cs) /\
    forall k v, nth_error cs k = Some (CDone v) -> exists i, nth_error qs k = Some i /\ v = ones_before (text_bits t) i.
Proof. exact cf_race_right. Qed.
Print Assumptions C128_right.
Example C128_right_case : let t := repeat 0 64 ++ repeat 3 64 in
  (let* r := build_cf (mem_of 0 0) t in Ok (cf_border r)) = Ok 1 /\ map (ones_before (text_bits t)) [520; 640; 600] = [2; 32; 22] /\
  (let* r := build_cf (mem_of 0 0) t in let* st := c_run r (77, map CStart [520; 640; 600]) [0; 1; 2; 1; 0; 2; 1; 2; 1]%nat in Ok (snd st)) = Ok [CDone 2; CDone 32; CDone 22].
Proof. vm_compute. repeat split; reflexivity. Qed.

(** Left of it even two calls with the same argument can go wrong: one takes a word of the
    text for the rank and answers more than the text has bits. *)
Theorem C128_same_refuted : exists m t r i ks ptr cs v, addresses_ok m /\ text_ok t /\ build_cf m t = Ok r /\ 0 <= i < zlen (text_bits t) /\
  c_run r (0, [CStart i; CStart i]) ks = Ok (ptr, cs) /\ nth_error cs 1 = Some (CDone v) /\ zlen (text_bits t) < v.
Proof. exact cf_race_bad. Qed.
Print Assumptions C128_same_refuted.

(** Enough calls with the same argument read outside the array. *)
Theorem C128_bounds_refuted : exists m t r i n ks, addresses_ok m /\ text_ok t /\ build_cf m t = Ok r /\ 0 <= i < zlen (text_bits t) /\
  c_run r (0, repeat (CStart i) n) ks = Ub UB_bounds.
Proof. exact cf_race_out. Qed.
Print Assumptions C128_bounds_refuted.
