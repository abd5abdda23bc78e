(** Concrete cases for the properties of blocks, nodes and trees. *)
From Coq Require Import ZifyBool.
From Verif Require Import Base BaseFacts Mem Nodes Trees Words Blocks Spec SpecIndex Drivers Bitmap Usage Demo.
Ltac Zify.zify_post_hook ::= Z.div_mod_to_equations.

Definition demo_ptr : wptr := {| w_arr := demo_input; w_off := 40 |}.

Lemma demo_words : words_ok demo_input.
Proof.
  assert (H : forallb (fun w => (0 <=? w) && (w <? 2 ^ 64)) demo_input = true) by (vm_compute; reflexivity).
  rewrite forallb_forall in H. apply Forall_forall. intros w Hw. specialize (H w Hw). cbn beta in H. lia.
Qed.

Lemma demo_block b : block_ok b demo_ptr.
Proof. split; [exact demo_words|]. destruct b; vm_compute; intuition congruence. Qed.

Definition nonneg_b (A : list Z) : bool := forallb (fun v => 0 <=? v) A.
Definition node_fits_b (c : cfg) (n : node) (A : list Z) : bool :=
  let d := desc n in
  let e := b2z (vector_paths c n) in
  (zlen A =? nd_fanout d) && nonneg_b A &&
  forallb (fun j => psum A ((j + 1) * nd_seg d) - psum A (j * nd_seg d) <? 2 ^ (8 * Z.of_nat (nd_kb d) - e)) (zrange 0 (Z.to_nat (nd_nseg d))) &&
  (psum A (nd_fanout d) <? 2 ^ (8 * Z.of_nat (nd_sb d) - e)).
Definition iop_valid_b (A : list Z) (o : iop) : bool :=
  match o with
  | ISum i | IUpdate i _ => (0 <=? i) && (i <? zlen A)
  | ISearch x => (0 <=? x) && (x <? psum A (zlen A))
  end.
Fixpoint iops_valid_b (P : list Z -> bool) (A : list Z) (ops : list iop) : bool :=
  match ops with
  | [] => true
  | o :: r => iop_valid_b A o && P (counters_after A o) && iops_valid_b P (counters_after A o) r
  end.
Fixpoint iops_below_b (k : Z) (A : list Z) (ops : list iop) : bool :=
  match ops with
  | [] => true
  | o :: r => (match o with ISum i | IUpdate i _ => (0 <=? i) && (i <? k) | ISearch x => (0 <=? x) && (x <? psum A k) end) &&
      iops_below_b k (counters_after A o) r
  end.
Definition counters_in_b (mx : Z) (A : list Z) : bool := forallb (fun v => (0 <=? v) && (v <=? mx)) A.

Lemma node_fits_b_ok c n A : node_fits_b c n A = true -> node_fits c n A.
Proof.
  unfold node_fits_b. rewrite !Bool.andb_true_iff. intros (((H1 & H2) & H3) & H4). unfold node_fits. cbv zeta.
  split; [lia|]. split; [|split; [|lia]].
  - unfold nonneg_b in H2. rewrite forallb_forall in H2. apply Forall_forall. intros v Hv. specialize (H2 v Hv). cbn beta in H2. lia.
  - intros j Hj. rewrite forallb_forall in H3. specialize (H3 j). cbn beta in H3. rewrite Z.ltb_lt in H3. apply H3. apply in_zrange. lia.
Qed.

Lemma iops_valid_b_ok (P : list Z -> Prop) Q : (forall A, Q A = true -> P A) -> forall ops A, iops_valid_b Q A ops = true -> iops_valid P A ops.
Proof.
  intros HQ. induction ops as [|o r IH]; intros A; [reflexivity|]. cbn [iops_valid_b iops_valid]. rewrite !Bool.andb_true_iff.
  intros ((H1 & H2) & H3). split; [|split; auto]. destruct o; cbn [iop_valid_b iop_valid] in *; lia.
Qed.

Lemma iops_below_b_ok k : forall ops A, iops_below_b k A ops = true -> iops_below k A ops.
Proof.
  induction ops as [|o r IH]; intros A; [reflexivity|]. cbn [iops_below_b iops_below]. rewrite !Bool.andb_true_iff.
  intros (H1 & H3). split; [|auto]. destruct o; lia.
Qed.

Lemma counters_in_b_ok mx A : counters_in_b mx A = true -> counters_in mx A.
Proof.
  intros H. unfold counters_in_b in H. rewrite forallb_forall in H. apply Forall_forall. intros v Hv. specialize (H v Hv). cbn beta in H. lia.
Qed.

(** Counters for a node with room for [k], and for a tree. *)
Definition demo_counters (k : nat) : list Z := map (fun i => (i * i * 7919) mod 257) (zrange 0 k).
Definition demo_iops : list iop := [ISum 100; IUpdate 3 false; IUpdate 100 true; ISearch 9000; IUpdate 127 false; ISum 127; ISum 3; ISearch 0].
