(** Lemmas behind Properties3 and the concrete cases there. *)
From Coq Require Import ZifyBool.
From Verif Require Import Base BaseFacts Mem MemFacts Nodes SearchFacts Trees Words WordFacts Blocks BlockFacts Spec Bitmap Usage BitmapFacts ProgramFacts PropFacts LimitFacts DenseFacts Demo Demo2.
Ltac Zify.zify_post_hook ::= Z.div_mod_to_equations.

Lemma sparse_program c ty addr s input ops :
  buildable ty input -> index_addr_ok c ty addr -> reachable_statics c (ty_block ty) s ->
  max_ones (block_size (ty_block ty)) (initial ty input) (match ty_fam ty with F2 => 512 | F5 => 256 end) ->
  valid_ops (initial ty input) ops -> selects_safe c ty (initial ty input) ops ->
  exists outs, program c ty addr s input ops = Ok outs /\ answers_ok (initial ty input) ops outs.
Proof. intros Hb Ha Hs Hm. apply program_run; auto. split; auto. split; auto. intros _. exact Hm. Qed.

Lemma dense_program c ty addr s input ops b :
  buildable ty input -> 0 <= b -> block_size (ty_block ty) * (b + 1) <= zlen (initial ty input) ->
  (match ty_fam ty with F2 => 512 | F5 => 256 end) <
    ones_before (initial ty input) (block_size (ty_block ty) * (b + 1)) - ones_before (initial ty input) (block_size (ty_block ty) * b) ->
  c_debug c = true ->
  program c ty addr s input ops = AssertFail.
Proof. intros Hb H1 H2 H3 D. unfold program. rewrite (debug_build_asserts c ty addr input b); auto. Qed.

Lemma never_trips c ty addr s input ops :
  buildable ty input -> index_addr_ok c ty addr -> reachable_statics c (ty_block ty) s ->
  ty_fam ty = F2 \/ block_size (ty_block ty) <= 256 \/ c_debug c = false ->
  valid_ops (initial ty input) ops -> selects_safe c ty (initial ty input) ops ->
  exists outs, program c ty addr s input ops = Ok outs /\ answers_ok (initial ty input) ops outs.
Proof. intros Hb Ha Hs Hm. apply program_run; auto. split; auto. split; auto. apply counts_always_ok; auto. Qed.

Definition dense_ty : btyp := {| ty_fam := F5; ty_height := 1; ty_block := block512_type_b |}.
(** 256 and 257 ones in one 512-bit block. *)
Definition sparse_input : list Z := [2 ^ 64 - 1; 0; 2 ^ 64 - 1; 0; 2 ^ 64 - 1; 0; 2 ^ 64 - 1].
Definition dense_input : list Z := [2 ^ 64 - 1; 0; 2 ^ 64 - 1; 4; 2 ^ 64 - 1; 0; 2 ^ 64 - 1].

Lemma dense_buildable input : forallb (fun w => (0 <=? w) && (w <? 2 ^ 64)) input = true -> 1 <= zlen input <= 8 -> buildable dense_ty input.
Proof.
  intros H1 H2. split; [reflexivity|]. split; [|split; [lia|split]].
  - rewrite forallb_forall in H1. apply Forall_forall. intros w Hw. specialize (H1 w Hw). cbn beta in H1. lia.
  - change (block_size (ty_block dense_ty)) with 512. lia.
  - unfold blocks_of. change (words_in_block (ty_block dense_ty)) with 8. replace (cdiv (zlen input) 8) with 1 by (unfold cdiv; lia). reflexivity.
Qed.

Lemma dense_case :
  buildable dense_ty dense_input /\ index_addr_ok demo_cfg dense_ty 0x1000 /\
  ones_before (initial dense_ty dense_input) 512 = 257 /\ zlen (initial dense_ty dense_input) = 512 /\
  program demo_cfg dense_ty 0x1000 (statics_init (ty_block dense_ty)) dense_input [Size] = AssertFail /\
  program (release demo_cfg) dense_ty 0x1000 (statics_init (ty_block dense_ty)) dense_input [Rank 511] = Ok [ONum 257] /\
  max_ones 512 (initial dense_ty sparse_input) 256 /\ ones_before (initial dense_ty sparse_input) 512 = 256 /\
  program demo_cfg dense_ty 0x1000 (statics_init (ty_block dense_ty)) sparse_input [Rank 511] = Ok [ONum 256].
Proof.
  split; [apply dense_buildable; [reflexivity|cbv; intuition discriminate]|]. split; [intros H; discriminate H|].
  split; [vm_compute; reflexivity|]. split; [vm_compute; reflexivity|]. split; [vm_compute; reflexivity|]. split; [vm_compute; reflexivity|].
  assert (L : zlen (initial dense_ty sparse_input) = 512) by (vm_compute; reflexivity).
  assert (O : ones_before (initial dense_ty sparse_input) 512 = 256) by (vm_compute; reflexivity).
  split; [|split; [exact O|vm_compute; reflexivity]].
  intros b Hb Hl. rewrite L in Hl. assert (b = 0) as -> by lia. change (512 * (0 + 1)) with 512. rewrite O. reflexivity.
Qed.

Lemma dense_build_refuted : exists c ty addr input,
  buildable ty input /\ ty_fam ty = F5 /\ program c ty addr (statics_init (ty_block ty)) input [] = AssertFail.
Proof.
  exists demo_cfg, dense_ty, 0x1000, dense_input. split; [apply dense_case|]. split; [reflexivity|].
  destruct dense_case as (Hb & _ & O & L & _). apply (dense_program _ _ _ _ _ _ 0); [exact Hb|lia| | |reflexivity].
  - rewrite L. discriminate.
  - change (block_size (ty_block dense_ty) * (0 + 1)) with 512. rewrite O. reflexivity.
Qed.

Lemma history_size c ty addr s input ops : history c ty addr s input ops -> zlen (current ty input ops) <= 2 ^ 24 * block_size (ty_block ty).
Proof.
  intros ((Hb & _) & _). unfold current. rewrite zlen_contents. unfold initial, padded. rewrite zlen_app, zlen_repeat, zlen_bits.
  pose proof (blocks_bound ty input Hb) as Hn. rewrite pad_amount by apply zlen_nonneg.
  destruct (block_size_words (ty_block ty)) as [E _]. rewrite E.
  pose proof Hb as (_ & _ & H1 & _). set (w := words_in_block (ty_block ty)) in *.
  assert (0 < w) by (unfold w; destruct (ty_block ty); reflexivity).
  set (n := cdiv (zlen input) w) in *. assert (zlen input <= w * n) by (unfold n, cdiv; pose proof (Z.div_mod (zlen input + w - 1) w ltac:(lia)); pose proof (Z.mod_pos_bound (zlen input + w - 1) w ltac:(lia)); lia).
  clearbody n w. nia.
Qed.

Lemma safe_cases c ty addr s input ops k :
  history c ty addr s input ops -> 0 <= k < count_true (current ty input ops) ->
  block_size (ty_block ty) <= 256 \/ count_true (current ty input ops) < 2 ^ 31 \/
    zlen (current ty input ops) < 15 * 2 ^ 19 * block_size (ty_block ty) ->
  select_safe c ty (current ty input ops) k.
Proof.
  intros H Hk Hs. apply nothing_lost; auto.
  - unfold root_child_bits. rewrite Z.mul_assoc. exact Hs.
  - eapply history_size; eauto.
Qed.

Lemma full_case :
  let ty := {| ty_fam := F2; ty_height := 4; ty_block := block512_type_b |} in
  history demo_cfg ty 0x1010 (statics_init (ty_block ty)) (full_words (15 * 2 ^ 22)) [] /\
  0 <= 14 * 2 ^ 28 < count_true (current ty (full_words (15 * 2 ^ 22)) []) /\
  select_lost (root_child_bits ty) (current ty (full_words (15 * 2 ^ 22)) []) (14 * 2 ^ 28) /\
  0 <= 14 * 2 ^ 28 - 1 < count_true (current ty (full_words (15 * 2 ^ 22)) []) /\
  select_safe demo_cfg ty (current ty (full_words (15 * 2 ^ 22)) []) (14 * 2 ^ 28 - 1).
Proof.
  intros ty. change (current ty (full_words (15 * 2 ^ 22)) []) with (initial ty (full_words (15 * 2 ^ 22))).
  destruct (full_lost ty (15 * 2 ^ 22) (14 * 2 ^ 28) eq_refl ltac:(lia) eq_refl ltac:(lia)) as [H1 H2].
  destruct (full_select_fails demo_cfg ty 0x1010 (15 * 2 ^ 22) (14 * 2 ^ 28)) as [H3 _]; try reflexivity; try lia.
  split; [exact H3|]. split; [exact H1|]. split; [exact H2|]. split; [lia|]. clear -H1.
  rewrite initial_full in * by (try reflexivity; lia). rewrite count_repeat in H1.
  intros _ _ _ [(s & Hs & F1 & F2)|F]; rewrite !ones_full in * by (change (root_child_bits ty) with (2 ^ 28); lia);
    change (root_child_bits ty) with (2 ^ 28) in *; lia.
Qed.

Lemma aligned_program c ty addr s input ops :
  buildable ty input -> debug_counts_ok c ty (initial ty input) -> reachable_statics c (ty_block ty) s ->
  ty_fam ty = F5 \/ c_avx2 c = false \/ c_trap c = false \/ (addr + Z.of_nat (ty_height ty) * 4) mod 32 = 0 ->
  valid_ops (initial ty input) ops -> selects_safe c ty (initial ty input) ops ->
  exists outs, program c ty addr s input ops = Ok outs /\ answers_ok (initial ty input) ops outs.
Proof. intros Hb Hd Hs Ha. apply program_run; auto. split; auto. split; auto. intros E1 E2 E3. intuition congruence. Qed.

Lemma malloc_flip c ty addr s input i rest :
  buildable ty input -> debug_counts_ok c ty (initial ty input) -> reachable_statics c (ty_block ty) s ->
  ty_fam ty = F2 -> c_avx2 c = true -> c_trap c = true -> ty_height ty <> 4%nat -> addr mod 16 = 0 ->
  0 <= i < zlen (initial ty input) ->
  program c ty addr s input (Flip i :: rest) = Ub UB_align.
Proof.
  intros Hb Hd Hs HF C1 C2 H4 Ha Hi. apply (misaligned_flip c ty addr s input [] i rest); auto; try exact Logic.I.
  apply header_misaligns; auto. pose proof Hb as (_ & _ & _ & _ & HH). pose proof (blocks_bound ty input Hb) as Hn.
  unfold blocks_of in HH. rewrite HF in HH. unfold tree_height in HH.
  repeat match type of HH with context[if ?b then _ else _] => destruct b eqn:?; [lia|] end. lia.
Qed.

Lemma misaligned_case :
  buildable demo_ty demo_input /\ debug_counts_ok demo_cfg demo_ty (initial demo_ty demo_input) /\
  ty_fam demo_ty = F2 /\ c_avx2 demo_cfg = true /\ c_trap demo_cfg = true /\
  (0x5000010 + Z.of_nat (ty_height demo_ty) * 4) mod 32 <> 0 /\ 0x5000010 mod 16 = 0 /\
  Forall no_flip [Rank 38399; Select 9000; Access 3] /\
  valid_ops (initial demo_ty demo_input) [Rank 38399; Select 9000; Access 3] /\
  0 <= 7 < zlen (initial demo_ty demo_input).
Proof.
  pose proof demo_history as ((Hb & _ & Hd) & _). split; auto. split; auto.
  split; [reflexivity|]. split; [reflexivity|]. split; [reflexivity|]. split; [cbv; discriminate|]. split; [reflexivity|].
  split; [repeat constructor|]. split; [apply valid_ops_b_ok; vm_compute; reflexivity|vm_compute; intuition congruence].
Qed.

Lemma unsupported_case :
  rank512_supported RM_avx2_parallel = false /\ select256_supported SM_pdep = false /\
  block_ok (B512 RM_avx2_parallel SM_pdep) demo_ptr /\
  block_rank demo_cfg (B512 RM_avx2_parallel SM_pdep) (statics_init (B512 RM_avx2_parallel SM_pdep)) demo_ptr 511 = AssertFail /\
  match block_rank (release demo_cfg) (B512 RM_avx2_parallel SM_pdep) (statics_init (B512 RM_avx2_parallel SM_pdep)) demo_ptr 511 with
  | Ok (r, _) => r = 0 | _ => False end.
Proof.
  split; [reflexivity|]. split; [reflexivity|]. split; [apply demo_block|]. split; [vm_compute; reflexivity|]. vm_compute. reflexivity.
Qed.

Lemma unsupported_wrong : exists c b s x i r s',
  block_ok b x /\ 0 <= i < block_size b /\ block_rank c b s x i = Ok (r, s') /\ r <> rank_spec (block_bits b x) i.
Proof.
  set (b := B512 RM_avx2_parallel SM_pdep).
  destruct (rank_unsupported (release demo_cfg) b (statics_init b) demo_ptr 511) as (s' & E).
  - reflexivity.
  - constructor.
  - apply demo_block.
  - cbv; intuition congruence.
  - exists (release demo_cfg), b, (statics_init b), demo_ptr, 511, 0, s'. split; [apply demo_block|]. split; [cbv; intuition congruence|].
    split; [exact E|]. vm_compute. discriminate.
Qed.
