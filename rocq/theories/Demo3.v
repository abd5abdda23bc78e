(** Concrete cases for programs with several bitmaps. *)
From Coq Require Import ZifyBool.
From Verif Require Import Base BaseFacts Mem Nodes Trees Words Blocks Spec Bitmap Usage BitmapFacts Demo SpecSystem System SystemFacts ValueFacts ShareFacts.
Ltac Zify.zify_post_hook ::= Z.div_mod_to_equations.

(** A checker for the hypotheses (no avx512 index, no index of height 4). *)
Definition addr_b (c : cfg) (ty : btyp) (addr : Z) : bool :=
  match ty_fam ty with F2 => negb (c_avx2 c && c_trap c) || ((addr + Z.of_nat (ty_height ty) * 4) mod 32 =? 0) | F5 => true end.
Definition buildable_b (ty : btyp) (input : list Z) : bool :=
  supported (ty_block ty) && forallb (fun w => (0 <=? w) && (w <? 2 ^ 64)) input && (1 <=? zlen input) &&
  (64 * zlen input <=? 2 ^ 24 * block_size (ty_block ty)) &&
  (Z.of_nat (ty_height ty) =? tree_height (ty_fam ty) (blocks_of (ty_block ty) (zlen input))).
Definition same_height_b (x y : btyp) : bool :=
  match ty_fam x, ty_fam y with F2, F2 => true | F5, F5 => true | _, _ => false end &&
  Nat.eqb (ty_height x) (ty_height y) && match ty_block x, ty_block y with B64, B64 => true | _, _ => false end.
Definition val_allowed_b (c : cfg) (s : vstate) (e : event) : bool :=
  match e with
  | ENew _ => true
  | EBuild o input a =>
      match val_at s o with
      | Some x => buildable_b (va_ty x) input && addr_b c (va_ty x) (al_addr a) &&
          (block_size (ty_block (va_ty x)) <=? match ty_fam (va_ty x) with F2 => 512 | F5 => 256 end)
      | None => false
      end
  | ECall o p =>
      match val_at s o with
      | Some x => valid_op_b (va_bits x) p && (negb (needs_index p) || va_index x) && negb (Nat.eqb (ty_height (va_ty x)) 4)
      | None => false
      end
  | ECopy o a => match val_at s o with Some x => addr_b c (va_ty x) (al_addr a) | None => false end
  | EMove o | EDestroy o => match val_at s o with Some _ => true | None => false end
  | EAssign d e a =>
      match val_at s d, val_at s e with Some x, Some y => same_height_b (va_ty x) (va_ty y) && addr_b c (va_ty x) (al_addr a) | _, _ => false end
  | EMoveAssign d e =>
      match val_at s d, val_at s e with Some x, Some y => same_height_b (va_ty x) (va_ty y) && negb (Nat.eqb d e) | _, _ => false end
  end.
Fixpoint val_allowed_all_b (c : cfg) (s : vstate) (es : list event) : bool :=
  match es with [] => true | e :: r => val_allowed_b c s e && val_allowed_all_b c (val_after s e) r end.

Lemma addr_b_ok c ty a : addr_b c ty a = true -> index_addr_ok c ty a.
Proof. unfold addr_b. intros H E1 E2 E3. rewrite E1, E2, E3 in H. cbn [andb negb orb] in H. lia. Qed.

Lemma buildable_b_ok ty input : buildable_b ty input = true -> buildable ty input.
Proof.
  unfold buildable_b. rewrite !Bool.andb_true_iff. intros ((((H1 & H2) & H3) & H4) & H5).
  split; auto. split; [|split; [lia|split; lia]]. rewrite forallb_forall in H2. apply Forall_forall. intros w Hw. specialize (H2 w Hw). cbn beta in H2. lia.
Qed.

Lemma few_ones c ty B : (block_size (ty_block ty) <=? match ty_fam ty with F2 => 512 | F5 => 256 end) = true -> debug_counts_ok c ty B.
Proof.
  intros H _ b Hb Hl. pose proof (block_size_pos (ty_block ty)).
  pose proof (ones_before_step B (block_size (ty_block ty) * b) (block_size (ty_block ty) * (b + 1)) ltac:(nia) ltac:(nia) Hl). lia.
Qed.

Lemma same_height_ok x y : same_height_b x y = true -> x = y.
Proof.
  unfold same_height_b. destruct x as [f h b], y as [f' h' b']. cbn [ty_fam ty_height ty_block]. rewrite !Bool.andb_true_iff. intros ((H1 & H2) & H3).
  apply Nat.eqb_eq in H2. subst. destruct f, f'; try discriminate; destruct b, b'; try discriminate; reflexivity.
Qed.

Lemma val_allowed_b_ok c s e : val_allowed_b c s e = true -> val_allowed c s e.
Proof.
  destruct e as [ty|o input a|o p|o a|o|d e a|d e|o]; cbn [val_allowed_b val_allowed]; auto.
  - destruct (val_at s o) as [x|]; [|discriminate]. rewrite !Bool.andb_true_iff. intros ((H1 & H2) & H3). exists x. split; auto.
    split; [apply buildable_b_ok; auto|]. split; [apply addr_b_ok; auto|apply few_ones; auto].
  - destruct (val_at s o) as [x|]; [|discriminate]. rewrite !Bool.andb_true_iff. intros ((H1 & H2) & H3). exists x. split; auto.
    split; [destruct p; cbn [valid_op_b valid_op] in *; lia|]. split.
    + intros E. rewrite E in H2. exact H2.
    + destruct p; auto. intros _ E. rewrite E in H3. discriminate.
  - destruct (val_at s o) as [x|]; [|discriminate]. intros H. exists x. split; auto. apply addr_b_ok; auto.
  - destruct (val_at s o); [discriminate|]. discriminate.
  - destruct (val_at s d) as [x|], (val_at s e) as [y|]; try discriminate. rewrite Bool.andb_true_iff. intros [H1 H2]. exists x, y. split; auto. split; auto.
    apply same_height_ok in H1. split; [congruence|]. apply addr_b_ok; auto.
  - destruct (val_at s d) as [x|], (val_at s e) as [y|]; try discriminate. rewrite Bool.andb_true_iff. intros [H1 H2].
    split; [intros ->; rewrite Nat.eqb_refl in H2; discriminate|]. exists x, y. apply same_height_ok in H1. auto.
  - destruct (val_at s o); [discriminate|]. discriminate.
Qed.

Lemma val_allowed_all_b_ok c : forall es s, val_allowed_all_b c s es = true -> val_allowed_all c s es.
Proof.
  induction es as [|e es IH]; intros s; cbn [val_allowed_all_b val_allowed_all]; auto. rewrite Bool.andb_true_iff. intros [H1 H2].
  split; [apply val_allowed_b_ok; auto|auto].
Qed.

(** Two bitmaps of different types; the index buffers are 32-byte aligned where
    the vector code needs it. *)
Definition ty_small : btyp := {| ty_fam := F2; ty_height := 1; ty_block := B64 |}.
Definition ty_wide : btyp := {| ty_fam := F2; ty_height := 1; ty_block := block256_type_a |}.
Definition buf (k : Z) : alloc := {| al_addr := 0x1000 * k + 28; al_cap := 300 |}.
Definition two_built : list event :=
  [ENew ty_small; EBuild 0 [5; 7; 9] (buf 1); ENew ty_wide; EBuild 1 [1; 2 ^ 63; 3; 4; 11] (buf 2); ECall 0 (Flip 70)].
Definition two_values : vstate := val_after_all [] two_built.
Definition value_at (o : nat) : value := match val_at two_values o with Some x => x | None => {| va_ty := ty_small; va_bits := []; va_index := false |} end.

Lemma two_program : val_program demo_cfg two_built two_values.
Proof. split; [|reflexivity]. apply val_allowed_all_b_ok. vm_compute. reflexivity. Qed.
Lemma two_value0 : val_at two_values 0 = Some (value_at 0) /\ va_index (value_at 0) = true /\ va_ty (value_at 0) = ty_small /\ zlen (va_bits (value_at 0)) = 192.
Proof. vm_compute. auto. Qed.
Lemma two_value1 : val_at two_values 1 = Some (value_at 1) /\ va_index (value_at 1) = true /\ va_ty (value_at 1) = ty_wide /\ zlen (va_bits (value_at 1)) = 512.
Proof. vm_compute. auto. Qed.

(** A longer program with copies, moves, assignments, rebuilds and destruction. *)
Definition lifetimes : list event :=
  two_built ++ [ECopy 0 (buf 3); EMove 1; ECall 3 (Rank 300); ECall 3 (Flip 300); EBuild 2 [1; 1] (buf 4); ECall 2 (Flip 65);
    ECall 0 (Rank 191); EDestroy 0; ECall 2 (Select 2); ENew ty_small; EAssign 4 2 (buf 5); ECall 4 (Access 65); EMoveAssign 4 2; ECall 4 (Rank 127);
    ECall 3 (Select 3); EDestroy 1; EDestroy 2; EDestroy 3; EDestroy 4].
Lemma lifetimes_allowed : val_allowed_all demo_cfg [] lifetimes.
Proof. apply val_allowed_all_b_ok. vm_compute. reflexivity. Qed.
