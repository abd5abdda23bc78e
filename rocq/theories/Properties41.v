(** C127: RankBasic64 (standard headers) queried by several threads. *)
From Verif Require Import Base Spec SpecText MrRank MrRankProps MrRace MrRaceFacts MrRaceFacts2 MrRaceFacts3.

(** A call that runs alone ends after at most nine steps with the number of ones before i,
    whatever earlier calls left in the member [pointer]. *)
Theorem C127_alone : forall m t, addresses_ok m -> text_ok t -> zlen t < 2 ^ 58 -> exists r, build_std m t = Ok r /\
  forall i ptr0 n, 0 <= i < 512 * text_blocks t -> (9 <= n)%nat ->
    exists ptr, q_run r (ptr0, [QStart i]) (repeat 0%nat n) = Ok (ptr, [QDone (ones_before (text_bits t) i)]).
Proof. exact race_alone. Qed.
Print Assumptions C127_alone.
Example C127_alone_case : let t := repeat 1 64 ++ repeat 3 64 in
  addresses_ok (mem_of 99 32) /\ text_blocks t = 2 /\ ones_before (text_bits t) 1000 = 186 /\
  (let* r := build_std (mem_of 99 32) t in let* st := q_run r (77, [QStart 1000]) (repeat 0%nat 9) in Ok (snd st)) = Ok [QDone 186] /\
  (let* r := build_std (mem_of 99 32) t in let* st := q_run r (77, [QStart 1000]) (repeat 0%nat 8) in Ok (snd st)) <> Ok [QDone 186].
Proof. split; [apply mem_of_ok; [lia|reflexivity]|]. vm_compute. repeat split; congruence. Qed.

(** Calls for bits of one block answer right however their steps are interleaved. *)
Theorem C127_same : forall m t, addresses_ok m -> text_ok t -> zlen t < 2 ^ 58 -> exists r, build_std m t = Ok r /\
  forall b qs ptr0 ks, (forall i, In i qs -> 0 <= i < 512 * text_blocks t /\ i / 512 = b) ->
  exists ptr cs, q_run r (ptr0, map QStart qs) ks = Ok (ptr, cs) /\
    forall k v, nth_error cs k = Some (QDone v) -> exists i, nth_error qs k = Some i /\ v = ones_before (text_bits t) i.
Proof. exact race_same. Qed.
Print Assumptions C127_same.
Example C127_same_case : let t := repeat 1 64 ++ repeat 3 64 in
  (let* r := build_std (mem_of 0 0) t in let* st := q_run r (77, map QStart [520; 640; 600]) [0; 1; 2; 1; 0; 2; 1; 2; 1]%nat in Ok (snd st)) = Ok [QDone 66; QDone 96; QDone 86] /\
  map (ones_before (text_bits t)) [520; 640; 600] = [66; 96; 86].
Proof. vm_compute. auto. Qed.

(** Whatever the blocks and the interleaving, nothing outside the arrays is read, and a call
    that gets nine turns ends. *)
Theorem C127_bounds : forall m t, addresses_ok m -> text_ok t -> zlen t < 2 ^ 58 -> exists r, build_std m t = Ok r /\
  forall qs ptr0 ks, (forall i, In i qs -> 0 <= i < 512 * text_blocks t) ->
  exists ptr cs, q_run r (ptr0, map QStart qs) ks = Ok (ptr, cs) /\
    forall k i, nth_error qs k = Some i -> (9 <= count_occ Nat.eq_dec ks k)%nat -> exists v, nth_error cs k = Some (QDone v).
Proof. exact race_bounds. Qed.
Print Assumptions C127_bounds.
Example C127_bounds_case : let t := repeat 1 64 ++ repeat 3 64 in let ks := flat_map (fun _ => [0; 1]%nat) (zrange 0 9) in
  (forall i, In i [500; 1023] -> 0 <= i < 512 * text_blocks t) /\ count_occ Nat.eq_dec ks 0%nat = 9%nat /\ map (ones_before (text_bits t)) [500; 1023] = [62; 191] /\
  (let* r := build_std (mem_of 0 0) t in let* st := q_run r (77, map QStart [500; 1023]) ks in Ok (snd st)) = Ok [QDone 124; QDone 191].
Proof. split; [intros i [<-|[<-|[]]]; vm_compute; split; congruence|]. vm_compute. repeat split; reflexivity. Qed.

(** Calls for bits of two blocks need not answer right: the second moves the place the first reads at. *)
Theorem C127_refuted : exists m t r qs ks ptr cs v, addresses_ok m /\ text_ok t /\ build_std m t = Ok r /\ (forall i, In i qs -> 0 <= i < 512 * text_blocks t) /\
  q_run r (0, map QStart qs) ks = Ok (ptr, cs) /\ nth_error qs 0 = Some 256 /\ nth_error cs 0 = Some (QDone v) /\ v <> ones_before (text_bits t) 256.
Proof. exact race_bad. Qed.
Print Assumptions C127_refuted.

(** An answer is wrong by no more than the number of bits before i in its block. *)
Theorem C127_near : forall m t, addresses_ok m -> text_ok t -> zlen t < 2 ^ 58 -> exists r, build_std m t = Ok r /\
  forall qs ptr0 ks ptr cs, (forall i, In i qs -> 0 <= i < 512 * text_blocks t) -> q_run r (ptr0, map QStart qs) ks = Ok (ptr, cs) ->
  forall k v, nth_error cs k = Some (QDone v) -> exists i, nth_error qs k = Some i /\ Z.abs (v - ones_before (text_bits t) i) <= i mod 512.
Proof. exact race_near. Qed.
Print Assumptions C127_near.
Example C127_near_case : let t := repeat 0 63 ++ [1] ++ repeat 255 63 ++ [254] in
  addresses_ok (mem_of 0 0) /\ text_blocks t = 2 /\ map (ones_before (text_bits t)) [504; 1016] = [0; 505] /\
  (let* r := build_std (mem_of 0 0) t in let* st := q_run r (0, map QStart [504; 1016]) (0 :: 1 :: repeat 0 8 ++ repeat 1 8)%nat in Ok (snd st)) = Ok [QDone 504; QDone 505].
Proof. split; [apply mem_of_ok; [lia|reflexivity]|]. vm_compute. repeat split; reflexivity. Qed.
