(** The Fenwick trees of include/hft (C40-C44). *)
From Verif Require Import Base Mem SpecHft Hft HftClient HftLimits HftTypeL HftMisuse Demo5.

(** ** C40: every class answers as the sequence of its elements *)

(** [sh]: whether a shift of a 64-bit word by 64 is taken as the processor does
    it.  Only BitL needs that; see C43. *)
Theorem C40_answers : forall sh lay B A ops, fits lay B (zlen A) -> (lay = BitL -> sh = true) ->
  elems_ok B A -> fops_ok B A ops -> (searches ops -> can_search lay B (zlen A)) ->
  exists outs, ft_client sh lay B A ops = Ok outs /\ fanswers B A ops outs.
Proof. exact client_ok. Qed.
Print Assumptions C40_answers.

Example C40_answers_case : forall lay, In lay [FixedF; FixedL; ByteF; ByteL; BitF; BitL; TypeF] ->
  fits lay 256 (zlen [3; 0; 256; 7; 7]) /\ elems_ok 256 [3; 0; 256; 7; 7] /\ fops_ok 256 [3; 0; 256; 7; 7] demo_ops /\
  can_search lay 256 (zlen [3; 0; 256; 7; 7]) /\
  ft_client true lay 256 [3; 0; 256; 7; 7] demo_ops = Ok [FNum 266; FDone; FNum 17; FPair 3 6; FPair 2 191; FNum 5; FPair 5 983].
Proof.
  intros lay H. assert (N : lay <> TypeL) by (intros ->; cbn [In] in H; intuition discriminate).
  split; [|split; [|split; [|split]]].
  - cbn [In] in H. intuition subst; vm_compute; intuition congruence.
  - repeat constructor; vm_compute; congruence.
  - repeat split; vm_compute; congruence.
  - split; [intros E; discriminate E|intros E; destruct (N E)].
  - cbn [In] in H. intuition subst; vm_compute; reflexivity.
Qed.
Example C40_answers_typel_case : fits TypeL 256 7 /\ can_search TypeL 256 7 /\
  ft_client false TypeL 256 [3; 0; 256; 7; 7; 1; 2] demo_ops = Ok [FNum 266; FDone; FNum 17; FPair 3 6; FPair 2 191; FNum 7; FPair 7 980].
Proof.
  split; [vm_compute; intuition congruence|]. split; [|vm_compute; reflexivity]. split; [discriminate|]. intros _ h Hh T. change (Z.log2 7) with 2 in Hh.
  assert (h = 0 \/ h = 1) as [-> | ->] by (destruct Hh; destruct h as [|[p|p|]|]; try (left; reflexivity); try (right; reflexivity); try destruct p; discriminate || (exfalso; auto)); discriminate.
Qed.

(** ** C41: the classes with 64-bit nodes are exact modulo 2^64 *)
Theorem C41_modulo : forall sh lay B A ops, lay = FixedF \/ lay = FixedL -> 0 <= B < 2 ^ 64 -> zlen A <= 2 ^ 48 ->
  Forall (fun v => 0 <= v < 2 ^ 64) A -> Forall (fop_wide (zlen A)) ops ->
  exists outs, ft_client sh lay B A ops = Ok outs /\ fanswers B A ops outs.
Proof. exact wide_client. Qed.
Print Assumptions C41_modulo.

Example C41_modulo_case : Forall (fop_wide 5) [FAdd 2 (-5); FPrefix 2] /\
  ft_client false FixedL 256 [3; 0; 256; 7; 7] [FAdd 2 (-5); FPrefix 2] = Ok [FDone; FNum (2 ^ 64 - 2)].
Proof. split; [repeat constructor; vm_compute; congruence|vm_compute; reflexivity]. Qed.

(** ** C42: when TypeL can be searched *)
Theorem C42_typel_search : forall sh B n, fits TypeL B n -> 1 <= B ->
  (forall A v, zlen A = n -> elems_ok B A -> 0 <= v < 2 ^ 64 ->
     exists k rest, ft_client sh TypeL B A [FFind v] = Ok [FPair k rest] /\ found A v k rest) <->
  (forall h, 0 <= h < Z.log2 n -> Z.testbit n h = false -> width B + h = 8 \/ width B + h = 16).
Proof. exact typel_search_iff. Qed.
Print Assumptions C42_typel_search.

Example C42_typel_search_case : fits TypeL 5 5 /\ fits TypeL 5 7 /\ Z.testbit 5 1 = false /\ width 5 + 1 = 4.
Proof. vm_compute. intuition congruence. Qed.

Theorem C42_search_refuted : exists B A v k rest, fits TypeL B (zlen A) /\ elems_ok B A /\ 0 <= v < 2 ^ 64 /\
  ft_client true TypeL B A [FFind v] = Ok [FPair k rest] /\ ~ found A v k rest.
Proof.
  exists 5, [0; 0; 0; 1; 5], 3, 5, 1. split; [vm_compute; intuition congruence|]. split; [repeat constructor; vm_compute; congruence|].
  split; [vm_compute; intuition congruence|]. split; [vm_compute; reflexivity|]. intros (_ & E & _). discriminate E.
Qed.
Print Assumptions C42_search_refuted.

(** ** C43: limits of the representations *)

(** BitL: the constructor shifts by 64, for every bound and every non-empty
    input. *)
Theorem C43_bitl_undefined : forall B A, fits BitL B (zlen A) -> A <> [] -> ft_build false BitL B A = Ub UB_shift.
Proof. exact bitl_shift. Qed.
Print Assumptions C43_bitl_undefined.

Example C43_bitl_undefined_case : fits BitL 256 (zlen [1; 2; 3]) /\ [1; 2; 3] <> [].
Proof. split; [vm_compute; intuition congruence|discriminate]. Qed.

(** TypeL: no array is allocated once the largest node has 64 bits. *)
Theorem C43_typel_unallocated : forall sh B A, 0 <= B < 2 ^ 64 -> 0 < zlen A <= 2 ^ 48 -> 64 <= width B + Z.log2 (zlen A) ->
  ft_build sh TypeL B A = Ub UB_bounds.
Proof. exact typel_unallocated. Qed.
Print Assumptions C43_typel_unallocated.

Example C43_typel_unallocated_case : 64 <= width (2 ^ 62) + Z.log2 (zlen [1; 2; 3]) /\ width (2 ^ 62) = 63.
Proof. vm_compute. intuition congruence. Qed.

(** BitF: a node of 64 bits cannot be read. *)
Theorem C43_bitf_undefined : forall sh B A ops outs, 0 <= B < 2 ^ 64 -> In (FPrefix (2 ^ (64 - width B))) ops ->
  ft_client sh BitF B A ops <> Ok outs.
Proof. exact bitf_shift_never. Qed.
Print Assumptions C43_bitf_undefined.

Example C43_bitf_undefined_case : width (2 ^ 53) = 54 /\ ft_client true BitF (2 ^ 62) [1; 2; 3] [FPrefix 2] = Ub UB_shift.
Proof. vm_compute. intuition congruence. Qed.

(** BitL with wide bounds, its shifts taken as the processor does them: an
    addition to one element changes the sum of others. *)
Theorem C43_bitl_refuted : exists B A ops outs, 0 <= B < 2 ^ 64 /\ width B + Z.log2 (zlen A) <= 64 /\ elems_ok B A /\ fops_ok B A ops /\
  ft_client true BitL B A ops = Ok outs /\ ~ fanswers B A ops outs.
Proof.
  exists (2 ^ 58), [0; 0; 0; 0; 2 ^ 58], [FPrefix 2; FAdd 5 (-1); FPrefix 2; FPrefix 5], [FNum 0; FDone; FNum 32; FNum 288230376151711743].
  split; [vm_compute; intuition congruence|]. split; [vm_compute; congruence|]. split; [repeat constructor; vm_compute; congruence|].
  split; [repeat split; vm_compute; congruence|]. split; [vm_compute; reflexivity|]. intros (_ & _ & E & _). discriminate E.
Qed.
Print Assumptions C43_bitl_refuted.

(** ** C44: edges of the interface *)

(** add(0, inc) never returns, whatever the class and whatever happened before. *)
Theorem C44_add_zero : forall sh lay B A inc ops outs, In (FAdd 0 inc) ops -> ft_client sh lay B A ops <> Ok outs.
Proof. exact add_zero_never. Qed.
Print Assumptions C44_add_zero.

Example C44_add_zero_case : In (FAdd 0 1) [FPrefix 1; FAdd 0 1] /\
  ft_client true FixedF 9 [1; 2; 3] [FPrefix 1; FAdd 0 1] = Ub UB_loop /\ ft_client true ByteL 9 [1; 2; 3] [FAdd 0 1] = Ub UB_ctz0.
Proof. split; [right; left; reflexivity|]. split; vm_compute; reflexivity. Qed.

(** The F classes cannot be searched when empty; the L classes can. *)
Theorem C44_empty_search : forall sh lay B v p ops outs, is_l lay = false -> p = FFind v \/ p = FCompFind v -> In p ops ->
  ft_client sh lay B [] ops <> Ok outs.
Proof. exact empty_search_never. Qed.
Print Assumptions C44_empty_search.

Example C44_empty_search_case : ft_client true ByteF 9 [] [FSize; FFind 3] = Ub UB_ctz0 /\ ft_client true ByteL 9 [] [FSize; FFind 3] = Ok [FNum 0; FPair 0 3].
Proof. split; vm_compute; reflexivity. Qed.

(** A search for the total or more returns the number of elements. *)
Theorem C44_find_beyond : forall sh lay B A v, fits lay B (zlen A) -> (lay = BitL -> sh = true) -> elems_ok B A ->
  can_search lay B (zlen A) -> seq_sum A (zlen A) <= v < 2 ^ 64 ->
  ft_client sh lay B A [FFind v] = Ok [FPair (zlen A) (v - seq_sum A (zlen A))].
Proof. exact find_beyond. Qed.
Print Assumptions C44_find_beyond.
Example C44_find_beyond_case : fits ByteF 9 3 /\ elems_ok 9 [1; 2; 3] /\ can_search ByteF 9 3 /\ seq_sum [1; 2; 3] 3 = 6 /\
  ft_client true ByteF 9 [1; 2; 3] [FFind 6] = Ok [FPair 3 0] /\ ft_client true ByteF 9 [1; 2; 3] [FFind 10] = Ok [FPair 3 4].
Proof.
  split; [vm_compute; intuition congruence|]. split; [repeat constructor; lia|].
  split; [vm_compute; intuition congruence|]. vm_compute. auto.
Qed.

(** The interface documents zero for a value that no prefix reaches
    (fenwick_tree.hpp lines 50-51). *)
Theorem C44_documented_zero_refuted : exists lay B A v k rest, fits lay B (zlen A) /\ elems_ok B A /\ can_search lay B (zlen A) /\ 0 <= v < 2 ^ 64 /\
  (forall j, 0 <= j <= zlen A -> seq_sum A j < v) /\ ft_client true lay B A [FFind v] = Ok [FPair k rest] /\ k <> 0.
Proof.
  exists FixedF, 9, [1; 2], 7, 2, 4. split; [vm_compute; intuition congruence|]. split; [repeat constructor; vm_compute; congruence|].
  split; [split; discriminate|]. split; [vm_compute; intuition congruence|]. split; [|split; [vm_compute; reflexivity|discriminate]].
  intros j (H1 & H2). change (zlen [1; 2]) with 2 in H2. assert (j = 0 \/ j = 1 \/ j = 2) as [-> | [-> | ->]]; [|vm_compute; reflexivity..].
  destruct j as [|p|p]; [left; reflexivity| |destruct (H1 eq_refl)]. destruct p as [[]|[]|]; try (exfalso; apply H2; reflexivity); auto.
Qed.
Print Assumptions C44_documented_zero_refuted.
