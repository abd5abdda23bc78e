(** Calls outside the contract (C36) and the effect of NDEBUG (C38). *)
From Verif Require Import Base BaseFacts Mem Nodes Trees Words Blocks Spec Bitmap Usage Demo System SystemFacts ShareFacts Demo3 LimitFacts NdebugFacts ContractFacts.

(** ** C36: calls outside the contract are not answered *)

(** In debug builds a position or a rank that is not below size() stops at an
    assertion, whatever was done before. *)
Theorem C36_out_of_range_asserts : forall c ty addr s input ops o i rest,
  history c ty addr s input ops -> op_arg o = Some i -> zlen (current ty input ops) <= i -> c_debug c = true ->
  program c ty addr s input (ops ++ o :: rest) = AssertFail.
Proof. exact out_of_range_asserts. Qed.
Print Assumptions C36_out_of_range_asserts.

(** In all builds flip, access and rank beyond the end are not answered. *)
Theorem C36_out_of_range_stuck : forall c ty addr s input ops o i rest,
  history c ty addr s input ops -> o = Flip i \/ o = Access i \/ o = Rank i -> zlen (current ty input ops) <= i ->
  forall outs, program c ty addr s input (ops ++ o :: rest) <> Ok outs.
Proof. exact out_of_range_stuck. Qed.
Print Assumptions C36_out_of_range_stuck.

(** In debug builds with an index of at most two levels, select(k) with too few
    ones is not answered. *)
Theorem C36_select_past_stuck : forall c ty addr s input ops k rest,
  history c ty addr s input ops -> c_debug c = true -> (ty_height ty <= 2)%nat -> count_true (current ty input ops) <= k ->
  forall outs, program c ty addr s input (ops ++ Select k :: rest) <> Ok outs.
Proof. exact select_past. Qed.
Print Assumptions C36_select_past_stuck.

(** With three levels it may be answered, with all assertions on. *)
Theorem C36_select_past_refuted : exists c ty addr input k p,
  c_debug c = true /\ usable c ty addr input /\ count_true (initial ty input) <= k /\
  program c ty addr (statics_init (ty_block ty)) input [Select k] = Ok [ONum p] /\
  program (release c) ty addr (statics_init (ty_block ty)) input [Select k] = Ok [ONum p].
Proof. exact lost_select. Qed.
Print Assumptions C36_select_past_refuted.

(** Building from nothing, or from more than 2^24 blocks. *)
Theorem C36_empty_build_asserts : forall c ty oldw oldm, c_debug c = true -> bm_build c ty [] oldw oldm = AssertFail.
Proof. exact build_empty. Qed.
Print Assumptions C36_empty_build_asserts.

Theorem C36_large_build_asserts : forall c ty input oldw oldm, c_debug c = true ->
  2 ^ 24 * block_size (ty_block ty) < 64 * zlen input -> bm_build c ty input oldw oldm = AssertFail.
Proof. exact build_too_large. Qed.
Print Assumptions C36_large_build_asserts.

(** The same contracts on the index and on single nodes. *)
Theorem C36_index_build_asserts : forall c f H input old, c_debug c = true -> input = [] \/ 2 ^ 24 < zlen input ->
  tree_build c f H input old = AssertFail.
Proof. exact tree_build_limits. Qed.
Print Assumptions C36_index_build_asserts.

Theorem C36_index_range_asserts : forall c f H v i sign, c_debug c = true -> v_size v <= i ->
  tree_sum c f H v i = AssertFail /\ tree_update c f H v i sign = AssertFail.
Proof. exact tree_index_checked. Qed.
Print Assumptions C36_index_range_asserts.

Theorem C36_node_range_asserts : forall c base n m p i sign, c_debug c = true -> nd_fanout (desc n) <= i ->
  node_sum c n m p i = AssertFail /\ (nd_fanout (desc n) < i -> node_update c base n m p i sign = AssertFail).
Proof. exact node_index_checked. Qed.
Print Assumptions C36_node_range_asserts.

(** Rank inside a block. *)
Theorem C36_block_rank_range : forall c bt s x i, c_debug c = true -> block_size bt <= i < 2 ^ 64 - 1 ->
  block_rank c bt s x i = if block_size bt =? 64 then Ub UB_shift else AssertFail.
Proof. exact block_rank_checked. Qed.
Print Assumptions C36_block_rank_range.

(** Select inside a block: the assertion of the loop modes compares with the last
    word only, and the word after the block is read. *)
Theorem C36_block_select_refuted : exists c bt x k s' p,
  c_debug c = true /\ supported bt = true /\
  count_true (firstn (Z.to_nat (block_size bt)) (bits_of_words (w_arr x))) <= k /\ w_off x = 0 /\
  block_select c bt (statics_init bt) x k = Ok (p, s').
Proof.
  exists demo_cfg, block256_type_a, {| w_arr := [0; 0; 0; 1023; 255]; w_off := 0 |}, 15.
  eexists. eexists. split; [reflexivity|]. split; [reflexivity|]. split; [vm_compute; discriminate|]. split; [reflexivity|].
  vm_compute. reflexivity.
Qed.
Print Assumptions C36_block_select_refuted.

Example C36_case : history demo_cfg demo_ty demo_addr (statics_init (ty_block demo_ty)) demo_input demo_ops /\
  op_arg (Flip 38400) = Some 38400 /\ zlen (current demo_ty demo_input demo_ops) <= 38400 /\ c_debug demo_cfg = true /\
  (ty_height demo_ty <= 2)%nat /\ count_true (current demo_ty demo_input demo_ops) <= 38399.
Proof.
  split; [exact demo_history|]. split; [reflexivity|]. split; [vm_compute; discriminate|]. split; [reflexivity|].
  split; [repeat constructor|vm_compute; discriminate].
Qed.

(** ** C38: NDEBUG only removes checks *)

(** For every program, inside the contract or not. *)
Theorem C38_release_agrees : forall c ty addr s input ops outs,
  program c ty addr s input ops = Ok outs -> program (release c) ty addr s input ops = Ok outs.
Proof. exact (fun c ty addr s input ops outs => proj1 (er_program c ty addr s input ops) outs). Qed.
Print Assumptions C38_release_agrees.

Theorem C38_release_never_asserts : forall c ty addr s input ops, c_debug c = false -> program c ty addr s input ops <> AssertFail.
Proof. exact release_program. Qed.
Print Assumptions C38_release_never_asserts.

Theorem C38_processes_agree : forall c es outs, process c es = Ok outs -> process (release c) es = Ok outs.
Proof. exact (fun c es outs => proj1 (er_process c es) outs). Qed.
Print Assumptions C38_processes_agree.

Theorem C38_processes_never_assert : forall c es, c_debug c = false -> process c es <> AssertFail.
Proof. exact release_process. Qed.
Print Assumptions C38_processes_never_assert.

(** A program outside the contract that a debug build refuses and a release build
    leaves undefined, and one outside the contract that both answer. *)
Example C38_case : c_debug (release demo_cfg) = false /\
  program demo_cfg ty_small 28 (statics_init B64) [7] [Access 64] = AssertFail /\
  program (release demo_cfg) ty_small 28 (statics_init B64) [7] [Access 64] = Ub UB_bounds /\
  program demo_cfg ty_small 28 (statics_init B64) [7; 9] [Flip 3; Rank 127; Select 4] = Ok [ONone; ONum 6; ONum 64] /\
  program (release demo_cfg) ty_small 28 (statics_init B64) [7; 9] [Flip 3; Rank 127; Select 4] = Ok [ONone; ONum 6; ONum 64].
Proof. split; [reflexivity|]. split; [vm_compute; reflexivity|]. split; [vm_compute; reflexivity|]. split; vm_compute; reflexivity. Qed.
