(** The hybrid Fenwick trees of include/hft/fenwick/hybrid.hpp (C46). *)
From Verif Require Import Base Mem SpecHft Hft HftHybrid HftHybridFacts Demo5.

(** ** C46: hybrid trees answer as the sequence of their elements *)

(** [top] and [bot]: the two classes; [cut]: CUT.  [sh] as in C40. *)
Theorem C46_answers : forall sh top bot B cut A ops, hybrid_fits top bot B cut (zlen A) -> (top = BitL \/ bot = BitL -> sh = true) ->
  elems_ok B A -> hybrid_ops_ok top bot B cut A ops ->
  exists outs, hy_client sh top bot B cut A ops = Ok outs /\ fanswers B A ops outs.
Proof. exact hybrid_client. Qed.
Print Assumptions C46_answers.

Example C46_answers_case : let A := [3; 0; 256; 7; 7; 1] in
  hybrid_fits ByteF BitL 256 2 (zlen A) /\ elems_ok 256 A /\ hybrid_ops_ok ByteF BitL 256 2 A demo_ops /\
  hy_client true ByteF BitL 256 2 A demo_ops = Ok [FNum 266; FDone; FNum 17; FPair 3 6; FPair 2 191; FNum 6; FPair 6 982].
Proof.
  cbv zeta. split; [|split; [|split]].
  - repeat split; vm_compute; congruence.
  - repeat constructor; vm_compute; congruence.
  - repeat split; try (vm_compute; congruence); left; split; intros; discriminate.
  - vm_compute; reflexivity.
Qed.

(** The same answers as a tree of one class. *)
Theorem C46_same : forall sh top bot lay B cut A ops, hybrid_fits top bot B cut (zlen A) ->
  (top = BitL \/ bot = BitL \/ lay = BitL -> sh = true) -> elems_ok B A -> hybrid_ops_ok top bot B cut A ops ->
  fits lay B (zlen A) -> (searches ops -> can_search lay B (zlen A)) ->
  hy_client sh top bot B cut A ops = ft_client sh lay B A ops.
Proof. exact hybrid_same. Qed.
Print Assumptions C46_same.

Example C46_same_case : let A := [3; 0; 256; 7; 7; 1] in hybrid_fits FixedL TypeF 256 1 (zlen A) /\ fits BitF 256 (zlen A) /\
  can_search BitF 256 (zlen A) /\ hy_client false FixedL TypeF 256 1 A [FPrefix 5; FAdd 2 9] = ft_client false BitF 256 A [FPrefix 5; FAdd 2 9].
Proof.
  cbv zeta. split; [repeat split; vm_compute; congruence|]. split; [repeat split; vm_compute; congruence|].
  split; [split; intros E; discriminate E|vm_compute; reflexivity].
Qed.

(** Where searching ends: with an F class at the bottom and a size divisible by
    2^CUT, find of the total or more is undefined, after any calls. *)
Theorem C46_find_total : forall sh top bot B cut A ops v more, hybrid_fits top bot B cut (zlen A) ->
  (top = BitL \/ bot = BitL -> sh = true) -> elems_ok B A -> hybrid_ops_ok top bot B cut A ops ->
  (zlen A / 2 ^ cut <> 0 -> can_search top (B * 2 ^ cut) (zlen A / 2 ^ cut)) -> is_l bot = false -> zlen A mod 2 ^ cut = 0 ->
  0 <= v -> seq_sum (fold_left fop_after ops A) (zlen A) <= v ->
  hy_client sh top bot B cut A (ops ++ FFind v :: more) = Ub UB_ctz0.
Proof. exact hybrid_find_total. Qed.
Print Assumptions C46_find_total.

Example C46_find_total_case : let A := [3; 0; 5; 7] in
  hybrid_fits FixedF FixedF 9 2 (zlen A) /\ elems_ok 9 A /\ hybrid_ops_ok FixedF FixedF 9 2 A [FAdd 2 4; FFind 18] /\ zlen A mod 2 ^ 2 = 0 /\
  seq_sum (fold_left fop_after [FAdd 2 4; FFind 18] A) (zlen A) = 19 /\
  hy_client false FixedF FixedF 9 2 A [FAdd 2 4; FFind 18] = Ok [FDone; FPair 3 6] /\
  hy_client false FixedF FixedF 9 2 A [FAdd 2 4; FFind 18; FFind 19] = Ub UB_ctz0.
Proof.
  cbv zeta. split; [repeat split; vm_compute; congruence|]. split; [repeat constructor; vm_compute; congruence|].
  split; [|repeat split; vm_compute; reflexivity].
  repeat split; try (vm_compute; congruence). right. split; [vm_compute; reflexivity|split; intros; discriminate].
Qed.

(** The naive expectation, every value can be searched for as in the plain trees, is wrong. *)
Theorem C46_find_refuted : exists A v, hybrid_fits FixedF FixedF 9 2 (zlen A) /\ elems_ok 9 A /\ fops_ok 9 A [FFind v] /\
  can_search FixedF 9 (zlen A) /\ ft_client false FixedF 9 A [FFind v] = Ok [FPair (zlen A) (v - seq_sum A (zlen A))] /\
  hy_client false FixedF FixedF 9 2 A [FFind v] = Ub UB_ctz0.
Proof.
  exists [3; 0; 5; 7], 15. split; [repeat split; vm_compute; congruence|]. split; [repeat constructor; vm_compute; congruence|].
  split; [repeat split; vm_compute; congruence|]. split; [split; intros E; discriminate E|]. split; vm_compute; reflexivity.
Qed.
Print Assumptions C46_find_refuted.
