(** Concrete cases used by the Examples, and a checker for their hypotheses. *)
From Coq Require Import ZifyBool.
From Verif Require Import Base BaseFacts Mem Nodes Trees Words Blocks Spec Bitmap Usage BitmapFacts ProgramFacts.
Ltac Zify.zify_post_hook ::= Z.div_mod_to_equations.

(** Debug build, AVX2 paths, aligned loads trap. *)
Definition demo_cfg : cfg := {| c_debug := true; c_avx2 := true; c_avx512 := false; c_trap := true |}.
(** The same without vector code, and an AVX-512 release build. *)
Definition demo_scalar : cfg := {| c_debug := true; c_avx2 := false; c_avx512 := false; c_trap := true |}.
Definition demo_avx512 : cfg := {| c_debug := false; c_avx2 := true; c_avx512 := true; c_trap := false |}.
(** 600 words, more than one leaf, not a whole number of 512-bit blocks at 599. *)
Definition demo_input : list Z := map (fun i => (i * i * 0x9E3779B97F4A7C15) mod 2 ^ 64) (zrange 0 599).
Definition demo_ty : btyp := {| ty_fam := F2; ty_height := 2; ty_block := block256_type_a |}.
Definition demo_ty5 : btyp := {| ty_fam := F5; ty_height := 1; ty_block := block256_type_b |}.
Definition demo_ty64 : btyp := {| ty_fam := F2; ty_height := 2; ty_block := B64 |}.
Definition demo_addr : Z := 0x5000018.
Definition demo_ops : list op := [Flip 0; Rank 38399; Flip 70; Access 70; Select 9000; Flip 38300; Flip 70; Flip 256].

Definition max_ones_b (bs : Z) (B : list bool) (mx : Z) : bool :=
  forallb (fun b => ones_before B (bs * (b + 1)) - ones_before B (bs * b) <=? mx) (zrange 0 (Z.to_nat (zlen B / bs))).
Definition valid_op_b (B : list bool) (o : op) : bool :=
  match o with
  | Flip i | Access i | Rank i => (0 <=? i) && (i <? zlen B)
  | Select k => (0 <=? k) && (k <? count_true B)
  | _ => true
  end.
Fixpoint valid_ops_b (B : list bool) (ops : list op) : bool :=
  match ops with [] => true | o :: r => valid_op_b B o && valid_ops_b (contents_after B o) r end.
Definition usable_b (c : cfg) (ty : btyp) (addr : Z) (input : list Z) : bool :=
  supported (ty_block ty) && forallb (fun w => (0 <=? w) && (w <? 2 ^ 64)) input && (1 <=? zlen input) &&
  (64 * zlen input <=? 2 ^ 24 * block_size (ty_block ty)) &&
  (Z.of_nat (ty_height ty) =? tree_height (ty_fam ty) (blocks_of (ty_block ty) (zlen input))) &&
  (match ty_fam ty with F2 => negb (c_avx2 c && c_trap c) || ((addr + Z.of_nat (ty_height ty) * 4) mod 32 =? 0) | F5 => true end) &&
  (negb (c_debug c) || (block_size (ty_block ty) <=? match ty_fam ty with F2 => 512 | F5 => 256 end) || max_ones_b (block_size (ty_block ty)) (initial ty input) (match ty_fam ty with F2 => 512 | F5 => 256 end)).
Definition history_b (c : cfg) (ty : btyp) (addr : Z) (input : list Z) (ops : list op) : bool :=
  usable_b c ty addr input && valid_ops_b (initial ty input) ops && negb (Nat.eqb (ty_height ty) 4).

Lemma ones_before_step B i j : 0 <= i -> i <= j -> j <= zlen B -> ones_before B j - ones_before B i <= j - i.
Proof.
  intros Hi Hj Hl. rewrite !ones_before_sum by lia. rewrite (sumf_split _ 0 i j) by lia.
  pose proof (sumf_bound (fun t => b2z (bit B t)) 1 i j ltac:(lia)) as L. cbv beta in L.
  enough (0 <= sumf (fun t => b2z (bit B t)) i j <= 1 * (j - i)) by lia.
  replace (1 * (j - i)) with ((j - i) * 1) by lia. first [apply L|rewrite Z.mul_comm; apply L]. intros t Ht. destruct (bit B t); cbn; lia.
Qed.

Lemma usable_b_ok c ty addr input : usable_b c ty addr input = true -> usable c ty addr input.
Proof.
  unfold usable_b. rewrite !Bool.andb_true_iff. intros ((((((H1 & H2) & H3) & H4) & H5) & H6) & H7).
  split; [|split].
  - repeat split; auto; try lia. rewrite forallb_forall in H2. apply Forall_forall. intros w Hw. specialize (H2 w Hw). cbn beta in H2. lia.
  - intros E1 E2 E3. rewrite E1, E2, E3 in H6. cbn [andb negb orb] in H6. lia.
  - intros E. rewrite E in H7. cbn [negb orb] in H7. apply Bool.orb_true_iff in H7 as [H7|H7].
    { intros b Hb Hl. assert (HB : 0 < block_size (ty_block ty)) by (destruct (ty_block ty); reflexivity).
      pose proof (ones_before_step (initial ty input) (block_size (ty_block ty) * b) (block_size (ty_block ty) * (b + 1)) ltac:(nia) ltac:(nia) Hl).
      unfold initial in *. lia. }
    unfold max_ones_b in H7. rewrite forallb_forall in H7.
    intros b Hb Hl. fold (initial ty input) in *.
    assert (HB : 0 < block_size (ty_block ty)) by (destruct (ty_block ty); reflexivity).
    assert (b < zlen (initial ty input) / block_size (ty_block ty)).
    { assert (b + 1 <= zlen (initial ty input) / block_size (ty_block ty)); [|lia]. apply Z.div_le_lower_bound; lia. }
    specialize (H7 b). cbn beta in H7. rewrite Z.leb_le in H7. apply H7. apply in_zrange. lia.
Qed.

Lemma valid_ops_b_ok ops : forall B, valid_ops_b B ops = true -> valid_ops B ops.
Proof.
  induction ops as [|o r IH]; intros B; [reflexivity|]. cbn [valid_ops_b valid_ops]. rewrite Bool.andb_true_iff. intros [H1 H2].
  split; [|auto]. destruct o; cbn [valid_op_b valid_op] in *; lia.
Qed.

Lemma safe_height c ty : ty_height ty <> 4%nat -> forall ops B, selects_safe c ty B ops.
Proof. intros H. induction ops; cbn [selects_safe]; auto. intros B. split; auto. destruct a; auto. intros _ E. congruence. Qed.

Lemma history_b_ok c ty addr input ops : history_b c ty addr input ops = true -> history c ty addr (statics_init (ty_block ty)) input ops.
Proof.
  unfold history_b. rewrite !Bool.andb_true_iff. intros ((H1 & H2) & H3).
  split; [apply usable_b_ok; auto|]. split; [constructor|]. split; [apply valid_ops_b_ok; auto|].
  apply safe_height. intros E. rewrite E in H3. discriminate.
Qed.

Lemma demo_history : history demo_cfg demo_ty demo_addr (statics_init (ty_block demo_ty)) demo_input demo_ops.
Proof. apply history_b_ok. vm_compute. reflexivity. Qed.
Lemma demo_history_scalar : history demo_scalar demo_ty 1 (statics_init (ty_block demo_ty)) demo_input demo_ops.
Proof. apply history_b_ok. vm_compute. reflexivity. Qed.
Lemma demo_history5 : history demo_avx512 demo_ty5 16 (statics_init (ty_block demo_ty5)) demo_input demo_ops.
Proof. apply history_b_ok. vm_compute. reflexivity. Qed.

Lemma demo_statics : exists s, reachable_statics demo_cfg (ty_block demo_ty) s /\ s <> statics_init (ty_block demo_ty) /\
  history demo_cfg demo_ty demo_addr s demo_input demo_ops.
Proof.
  destruct (block_rank demo_cfg (ty_block demo_ty) (statics_init (ty_block demo_ty)) {| w_arr := [1; 2; 3; 5]; w_off := 0 |} 255) as [[r s]| |] eqn:E;
    try (vm_compute in E; discriminate E).
  exists s. assert (R : reachable_statics demo_cfg (ty_block demo_ty) s) by (eapply rs_rank; [apply rs_init|exact E]).
  split; auto. split.
  - vm_compute in E. injection E as <- <-. vm_compute. discriminate.
  - destruct demo_history as (U & _ & V). split; auto.
Qed.
