(** Programs over any number of bitmaps: copies (C21), moves (C22), interference
    (C23), rebuilding (C24), release of memory (C37). *)
From Verif Require Import Base Mem Nodes Trees Words Blocks Spec Bitmap Usage Demo SpecSystem System SystemFacts ValueFacts ShareFacts Demo3.

(** ** C23: distinct bitmaps do not interfere *)

(** Any program that creates, builds, queries, flips, copies, moves, assigns and
    destroys any number of bitmaps of any types behaves as if each object were a
    plain value, as long as flip, rank and select are not used on an object
    filled by copying before it is built again. *)
Theorem C23_value_semantics : forall c es, val_allowed_all c [] es ->
  exists outs, process c es = Ok outs /\ val_answers [] es outs.
Proof. exact val_process. Qed.
Print Assumptions C23_value_semantics.

(** In particular the answers of [p] do not depend on events that do not target [p]. *)
Theorem C23_others_untouched : forall c es vs more p x ops,
  val_program c es vs -> val_at vs p = Some x -> va_index x = true ->
  val_allowed_all c vs more -> Forall (fun e => changes p e = false) more ->
  valid_ops (va_bits x) ops -> selects_safe c (va_ty x) (va_bits x) ops ->
  exists outs rs, process c (es ++ more ++ calls p ops) = Ok (outs ++ rs) /\ length outs = length (es ++ more) /\ answers_ok (va_bits x) ops rs.
Proof. exact others_untouched. Qed.
Print Assumptions C23_others_untouched.

(** Full account including the use of copies: [allowed] and [after] say which
    index an object refers to and what it describes. *)
Theorem C23_shared_indexes : forall c es, allowed_all c ss_init es ->
  exists outs, process c es = Ok outs /\ events_ok ss_init es outs.
Proof. exact process_ok. Qed.
Print Assumptions C23_shared_indexes.

Example C23_case : val_allowed_all demo_cfg [] lifetimes /\
  val_program demo_cfg two_built two_values /\ val_at two_values 1 = Some (value_at 1) /\ va_index (value_at 1) = true /\
  val_allowed_all demo_cfg two_values [ECall 0 (Flip 3); ECopy 1 (buf 3); EMove 0; EDestroy 2; EDestroy 3] /\
  Forall (fun e => changes 1 e = false) [ECall 0 (Flip 3); ECopy 1 (buf 3); EMove 0; EDestroy 2; EDestroy 3] /\
  valid_ops (va_bits (value_at 1)) [Rank 300; Flip 300; Select 4] /\
  selects_safe demo_cfg (va_ty (value_at 1)) (va_bits (value_at 1)) [Rank 300; Flip 300; Select 4].
Proof.
  split; [exact lifetimes_allowed|]. split; [exact two_program|]. split; [apply two_value1|]. split; [apply two_value1|].
  split; [apply val_allowed_all_b_ok; vm_compute; reflexivity|]. split; [repeat constructor|]. split; [apply valid_ops_b_ok; vm_compute; reflexivity|].
  apply safe_height. vm_compute. discriminate.
Qed.

(** ** C22: moves preserve the value *)
Theorem C22_move_construct : forall c es vs o x ops,
  val_program c es vs -> val_at vs o = Some x -> va_index x = true ->
  valid_ops (va_bits x) ops -> selects_safe c (va_ty x) (va_bits x) ops ->
  exists outs rs, process c (es ++ EMove o :: calls (length vs) ops) = Ok (outs ++ rs) /\ length outs = S (length es) /\ answers_ok (va_bits x) ops rs.
Proof. exact move_answers. Qed.
Print Assumptions C22_move_construct.

Theorem C22_move_assign : forall c es vs d o y x ops,
  val_program c es vs -> d <> o -> val_at vs d = Some y -> val_at vs o = Some x -> va_ty y = va_ty x -> va_index x = true ->
  valid_ops (va_bits x) ops -> selects_safe c (va_ty x) (va_bits x) ops ->
  exists outs rs, process c (es ++ EMoveAssign d o :: calls d ops) = Ok (outs ++ rs) /\ length outs = S (length es) /\ answers_ok (va_bits x) ops rs.
Proof. exact move_assign_answers. Qed.
Print Assumptions C22_move_assign.

(** The source is empty and can be built again, from scratch. *)
Theorem C22_source_reusable : forall c es vs o x input a ops,
  val_program c es vs -> val_at vs o = Some x -> buildable (va_ty x) input -> index_addr_ok c (va_ty x) (al_addr a) ->
  debug_counts_ok c (va_ty x) (initial (va_ty x) input) ->
  valid_ops (initial (va_ty x) input) ops -> selects_safe c (va_ty x) (initial (va_ty x) input) ops ->
  exists outs rs, process c (es ++ EMove o :: EBuild o input a :: calls o ops) = Ok (outs ++ rs) /\ length outs = S (S (length es)) /\
    answers_ok (initial (va_ty x) input) ops rs.
Proof. exact source_reusable. Qed.
Print Assumptions C22_source_reusable.

Example C22_case : val_program demo_cfg two_built two_values /\ length two_values = 2%nat /\
  val_at two_values 0 = Some (value_at 0) /\ va_index (value_at 0) = true /\
  valid_ops (va_bits (value_at 0)) [Rank 191; Flip 100; Select 6] /\
  selects_safe demo_cfg (va_ty (value_at 0)) (va_bits (value_at 0)) [Rank 191; Flip 100; Select 6] /\
  val_program demo_cfg (two_built ++ [ENew ty_small]) (two_values ++ [Some (val_empty (value_at 0))]) /\
  buildable (va_ty (value_at 0)) [3; 3] /\ index_addr_ok demo_cfg (va_ty (value_at 0)) (al_addr (buf 7)) /\
  debug_counts_ok demo_cfg (va_ty (value_at 0)) (initial (va_ty (value_at 0)) [3; 3]).
Proof.
  split; [exact two_program|]. split; [reflexivity|]. split; [apply two_value0|]. split; [apply two_value0|].
  split; [apply valid_ops_b_ok; vm_compute; reflexivity|]. split; [apply safe_height; vm_compute; discriminate|].
  split; [split; [apply val_allowed_all_b_ok; vm_compute; reflexivity|vm_compute; reflexivity]|].
  split; [apply buildable_b_ok; vm_compute; reflexivity|]. split; [apply addr_b_ok; vm_compute; reflexivity|apply few_ones; vm_compute; reflexivity].
Qed.

(** ** C21: a copy shares the index of its source *)

(** [copies c vs o d ev]: the event is the copy construction of [d] from [o], or
    the copy assignment of [o] to an existing [d] of the same type.
    While neither is modified, both answer every query. *)
Theorem C21_copy_answers : forall c es vs o d x ev qs,
  val_program c es vs -> val_at vs o = Some x -> va_index x = true -> copies c vs o d ev ->
  (forall q p, In (q, p) qs -> (q = o \/ q = d) /\ no_flip p /\ valid_op (va_bits x) p /\
     match p with Select k => select_safe c (va_ty x) (va_bits x) k | _ => True end) ->
  exists outs rs, process c (es ++ ev :: map (fun q => ECall (fst q) (snd q)) qs) = Ok (outs ++ rs) /\
    length outs = S (length es) /\ answers_ok (va_bits x) (map snd qs) rs.
Proof. exact copy_answers. Qed.
Print Assumptions C21_copy_answers.

(** A flip of position [i] of either one changes the ranks of the other one in
    all later blocks by one, and no others. *)
Theorem C21_flip_leaks : forall c es vs o d x ev f q i j,
  val_program c es vs -> val_at vs o = Some x -> va_index x = true -> copies c vs o d ev ->
  (f = o /\ q = d \/ f = d /\ q = o) -> 0 <= i < zlen (va_bits x) -> 0 <= j < zlen (va_bits x) ->
  let bs := block_size (ty_block (va_ty x)) in
  exists outs, process c (es ++ [ev; ECall f (Flip i); ECall q (Rank j)]) =
    Ok (outs ++ [ONum (rank_spec (va_bits x) j + (if i / bs <? j / bs then (if bit (va_bits x) i then -1 else 1) else 0))]) /\
    length outs = S (S (length es)).
Proof. exact copy_flip_leaks. Qed.
Print Assumptions C21_flip_leaks.

(** With the source gone the copy has no index: no flip, select, or rank beyond
    the first block returns. *)
Theorem C21_source_destroyed : forall c es vs o d x ev p,
  val_program c es vs -> val_at vs o = Some x -> va_index x = true -> copies c vs o d ev ->
  (match p with Flip _ | Select _ => True | Rank j => block_size (ty_block (va_ty x)) <= j | _ => False end) ->
  forall outs, process c (es ++ [ev; EDestroy o; ECall d p]) <> Ok outs.
Proof. exact copy_outlives_source. Qed.
Print Assumptions C21_source_destroyed.

(** "A flip of the source does not change what the copy answers" is false. *)
Theorem C21_independence_refuted : exists c es vs o x a i j outs r,
  val_program c es vs /\ val_at vs o = Some x /\ va_index x = true /\ index_addr_ok c (va_ty x) (al_addr a) /\
  0 <= i < zlen (va_bits x) /\ 0 <= j < zlen (va_bits x) /\
  process c (es ++ [ECopy o a; ECall o (Flip i); ECall (length vs) (Rank j)]) = Ok (outs ++ [ONum r]) /\ r <> rank_spec (va_bits x) j.
Proof.
  destruct two_value0 as (H1 & H2 & H3 & H4).
  destruct (copy_flip_leaks demo_cfg two_built two_values 0 (length two_values) (value_at 0) (ECopy 0 (buf 3)) 0 (length two_values) 0 100 two_program H1 H2) as (outs & E & _).
  - exists (value_at 0). split; [exact H1|]. split; [reflexivity|]. split; [reflexivity|]. apply addr_b_ok. vm_compute. reflexivity.
  - auto.
  - rewrite H4. vm_compute. intuition congruence.
  - rewrite H4. vm_compute. intuition congruence.
  - exists demo_cfg, two_built, two_values, 0%nat, (value_at 0), (buf 3), 0, 100, outs. eexists.
    split; [exact two_program|]. split; [exact H1|]. split; [exact H2|]. split; [apply addr_b_ok; vm_compute; reflexivity|].
    rewrite H4. split; [vm_compute; intuition congruence|]. split; [vm_compute; intuition congruence|]. split; [exact E|]. vm_compute. discriminate.
Qed.
Print Assumptions C21_independence_refuted.

Example C21_case : val_program demo_cfg two_built two_values /\ val_at two_values 1 = Some (value_at 1) /\ va_index (value_at 1) = true /\
  index_addr_ok demo_cfg (va_ty (value_at 1)) (al_addr (buf 3)) /\
  (forall q p, In (q, p) [(1%nat, Rank 300); (2%nat, Rank 300); (2%nat, Bits)] -> (q = 1%nat \/ q = length two_values) /\ no_flip p /\ valid_op (va_bits (value_at 1)) p /\
     match p with Select k => select_safe demo_cfg (va_ty (value_at 1)) (va_bits (value_at 1)) k | _ => True end) /\
  rank_spec (va_bits (value_at 1)) 300 = 8 /\ bit (va_bits (value_at 1)) 1 = false /\
  process demo_cfg (two_built ++ [ECopy 1 (buf 3); ECall 1 (Flip 1); ECall 2 (Rank 300)]) =
    Ok [ONone; ONone; ONone; ONone; ONone; ONone; ONone; ONum 9] /\
  copies demo_cfg two_values 1 2 (ECopy 1 (buf 3)) /\
  (let vs := two_values ++ [Some (val_empty (value_at 1))] in
   val_program demo_cfg (two_built ++ [ENew (va_ty (value_at 1))]) vs /\ copies demo_cfg vs 1 2 (EAssign 2 1 (buf 3))) /\
  process demo_cfg (two_built ++ [ECopy 1 (buf 3); EDestroy 1; ECall 2 (Rank 300)]) = Ub UB_bounds.
Proof.
  destruct two_value1 as (H1 & H2 & H3 & H4).
  split; [exact two_program|]. split; [exact H1|]. split; [exact H2|]. split; [apply addr_b_ok; vm_compute; reflexivity|].
  split; [|split; [vm_compute; auto|split; [vm_compute; auto|split; [vm_compute; auto|split; [|split; [|vm_compute; auto]]]]]].
  2: { exists (value_at 1). split; [exact H1|]. split; [reflexivity|]. split; [reflexivity|]. apply addr_b_ok. vm_compute. reflexivity. }
  2: { cbv zeta. split; [split; [apply val_allowed_all_b_ok; vm_compute; reflexivity|vm_compute; reflexivity]|].
       exists (value_at 1). split; [exact H1|]. split; [reflexivity|]. split; [reflexivity|]. split; [discriminate|].
       split; [apply addr_b_ok; vm_compute; reflexivity|]. exists (val_empty (value_at 1)). split; reflexivity. }
  intros q p [[= <- <-]|[[= <- <-]|[[= <- <-]|[]]]]; cbn [no_flip valid_op]; rewrite ?H4; vm_compute; intuition congruence.
Qed.

(** ** C24: what building again leaves *)

(** Afterwards the object answers for the new input followed, up to the end of
    the last block, by what it held there before. *)
Theorem C24_rebuild_answers : forall c es vs o x input a ops,
  let B := rebuilt (block_size (ty_block (va_ty x))) (bits_of_words input) (va_bits x) in
  val_program c es vs -> val_at vs o = Some x -> buildable (va_ty x) input -> index_addr_ok c (va_ty x) (al_addr a) ->
  debug_counts_ok c (va_ty x) B -> valid_ops B ops -> selects_safe c (va_ty x) B ops ->
  exists outs rs, process c (es ++ EBuild o input a :: calls o ops) = Ok (outs ++ rs) /\ length outs = S (length es) /\ answers_ok B ops rs.
Proof. exact rebuild_answers. Qed.
Print Assumptions C24_rebuild_answers.

Theorem C24_rebuilt_bits : forall bs input old, 0 < bs ->
  zlen (rebuilt bs input old) = zlen (padded bs input) /\
  forall i, 0 <= i < zlen (rebuilt bs input old) -> bit (rebuilt bs input old) i = if i <? zlen input then bit input i else bit old i.
Proof. exact rebuilt_bits. Qed.
Print Assumptions C24_rebuilt_bits.

(** The padding is zero exactly when the old bits there were. *)
Theorem C24_zero_padding_iff : forall bs input old, 0 < bs ->
  (rebuilt bs input old = padded bs input <-> forall i, zlen input <= i < zlen (padded bs input) -> bit old i = false).
Proof. exact rebuilt_padding. Qed.
Print Assumptions C24_zero_padding_iff.

(** "Building again leaves the input followed by zeros" is false. *)
Theorem C24_zero_padding_refuted : exists c es vs o x input a outs ws,
  val_program c es vs /\ val_at vs o = Some x /\ val_allowed c vs (EBuild o input a) /\
  process c (es ++ [EBuild o input a; ECall o Bits]) = Ok (outs ++ [OWords ws]) /\
  bits_of_words ws <> padded (block_size (ty_block (va_ty x))) (bits_of_words input).
Proof.
  exists demo_cfg, two_built, two_values, 1%nat, (value_at 1), [6], (buf 4), [ONone; ONone; ONone; ONone; ONone; ONone], [6; 2 ^ 63; 3; 4].
  split; [exact two_program|]. split; [apply two_value1|]. split; [apply val_allowed_b_ok; vm_compute; reflexivity|].
  split; [vm_compute; reflexivity|]. vm_compute. discriminate.
Qed.
Print Assumptions C24_zero_padding_refuted.

Example C24_case :
  val_program demo_cfg two_built two_values /\ val_at two_values 1 = Some (value_at 1) /\ buildable (va_ty (value_at 1)) [6] /\
  index_addr_ok demo_cfg (va_ty (value_at 1)) (al_addr (buf 4)) /\
  debug_counts_ok demo_cfg (va_ty (value_at 1)) (rebuilt 256 (bits_of_words [6]) (va_bits (value_at 1))) /\
  rebuilt 256 (bits_of_words [6]) (va_bits (value_at 1)) = bits_of_words [6; 2 ^ 63; 3; 4] /\
  valid_ops (bits_of_words [6; 2 ^ 63; 3; 4]) [Rank 255; Select 4; Flip 200] /\
  selects_safe demo_cfg (va_ty (value_at 1)) (bits_of_words [6; 2 ^ 63; 3; 4]) [Rank 255; Select 4; Flip 200].
Proof.
  split; [exact two_program|]. split; [apply two_value1|]. split; [apply buildable_b_ok; vm_compute; reflexivity|].
  split; [apply addr_b_ok; vm_compute; reflexivity|]. split; [apply few_ones; vm_compute; reflexivity|]. split; [vm_compute; reflexivity|].
  split; [apply valid_ops_b_ok; vm_compute; reflexivity|apply safe_height; vm_compute; discriminate].
Qed.

(** ** C37: index memory is released exactly once *)

(** Whatever a program did, if it returned and destroyed all its objects then no
    buffer is left.  (Releasing one twice would have been undefined; by
    C23_value_semantics and C23_shared_indexes that does not happen.) *)
Theorem C37_nothing_leaks : forall c es outs sy, sys_run c sys_init es = Ok (outs, sy) ->
  (forall o, obj_at sy o = None) -> forall id, blk_at sy id = None.
Proof. exact no_leak. Qed.
Print Assumptions C37_nothing_leaks.

Example C37_case : exists outs sy, sys_run demo_cfg sys_init lifetimes = Ok (outs, sy) /\ sy_objs sy = [None; None; None; None; None] /\
  (length (filter (fun e => match e with EBuild _ _ _ => true | _ => false end) lifetimes) = 3)%nat.
Proof. eexists _, _. split; [vm_compute; reflexivity|]. split; reflexivity. Qed.
