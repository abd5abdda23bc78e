(** C118: alignment of the accesses of TypeF. *)
From Verif Require Import Base SpecHft SpecTypeF Hft TypeFAlign TypeFAlignFacts.

(** From 2^(9-w) elements on for bounds of w <= 8 bits, and from 2^(17-w) on for bounds of 9
    to 16 bits, the constructor writes at an address that is not a multiple of the size
    written, whatever the elements are. *)
Theorem C118_misaligned : forall B A ops, fits TypeF B (zlen A) -> first_misaligned B (zlen A) = true -> tf_client B A ops = Ub UB_align.
Proof. exact client_misaligned. Qed.
Print Assumptions C118_misaligned.
Example C118_misaligned_case :
  fits TypeF 64 4 /\ first_misaligned 64 3 = false /\ first_misaligned 64 4 = true /\ tf_client 64 [3; 0; 64; 7] [] = Ub UB_align /\
  fits TypeF 40000 2 /\ first_misaligned 40000 1 = false /\ first_misaligned 40000 2 = true /\ tf_client 40000 [3; 5] [] = Ub UB_align /\
  ft_client false TypeF 40000 [3; 5] [FPrefix 2] = Ok [FNum 8].
Proof. vm_compute. intuition congruence. Qed.

(** Smaller trees, and trees with a bound of 17 bits or more, keep the rule: they answer as
    the sequence of their elements. *)
Theorem C118_aligned : forall B A ops, fits TypeF B (zlen A) -> first_misaligned B (zlen A) = false -> elems_ok B A -> fops_ok B A ops -> (searches ops -> zlen A <> 0) ->
  exists outs, tf_client B A ops = Ok outs /\ fanswers B A ops outs.
Proof. exact client_aligned. Qed.
Print Assumptions C118_aligned.
(** Also with any elements and increments, and searches of any kind: nothing changes. *)
Theorem C118_same : forall sh B A ops, fits TypeF B (zlen A) -> first_misaligned B (zlen A) = false -> Forall (fop_inside (zlen A)) ops ->
  tf_client B A ops = ft_client sh TypeF B A ops.
Proof. exact client_same. Qed.
Print Assumptions C118_same.
Example C118_aligned_case :
  let A := [3; 0; 64] in let C := [3; 70000; 5; 1; 2] in let ops := [FPrefix 3; FAdd 2 9; FPrefix 2; FFind 20; FCompFind 70] in
  fits TypeF 64 3 /\ first_misaligned 64 3 = false /\ elems_ok 64 A /\ fops_ok 64 A ops /\ Forall (fop_inside 3) ops /\
  tf_client 64 A ops = Ok [FNum 67; FDone; FNum 12; FPair 2 8; FPair 1 9] /\
  fits TypeF 70009 5 /\ first_misaligned 70009 5 = false /\ elems_ok 70009 C /\
  tf_client 70009 C ops = Ok [FNum 70008; FDone; FNum 70012; FPair 1 17; FPair 0 70].
Proof. cbv zeta. repeat split; try (vm_compute; intuition congruence); repeat constructor; vm_compute; congruence. Qed.

(** So the constructor is not always defined inside its contract: four counts of 64-bit
    words are enough. *)
Theorem C118_defined_refuted : exists B A, fits TypeF B (zlen A) /\ elems_ok B A /\ tf_client B A [] = Ub UB_align /\ ft_client false TypeF B A [FPrefix 4] = Ok [FNum 74].
Proof. exact four_words. Qed.
Print Assumptions C118_defined_refuted.
