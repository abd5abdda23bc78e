(** Clients of the Fenwick trees. *)
From Coq Require Import ZifyBool.
From Verif Require Import Base BaseFacts Mem MemFacts SpecHft Hft HftFacts HftMem HftBuild HftStore HftLayF HftLayL HftOps.
Ltac Zify.zify_post_hook ::= Z.div_mod_to_equations.

Lemma zlen_add A i d : zlen (seq_add A i d) = zlen A.
Proof. unfold seq_add. apply zlen_upd. Qed.

Lemma elem_add A i d k : 1 <= i <= zlen A -> 1 <= k <= zlen A -> elem (seq_add A i d) k = fadd (elem A) i d k.
Proof.
  intros Hi Hk. unfold elem, seq_add, fadd. rewrite zn_upd by lia. destruct (Z.eqb_spec (k - 1) (i - 1)), (Z.eqb_spec k i); try lia; try (subst; reflexivity).
Qed.

Lemma elems_add B A i d : elems_ok B A -> 1 <= i <= zlen A -> 0 <= zn 0 A (i - 1) + d <= B -> elems_ok B (seq_add A i d).
Proof.
  intros H Hi Hd. unfold elems_ok. rewrite Forall_forall. intros x Hx. apply In_nth with (d := 0) in Hx. destruct Hx as (k & Hk & <-).
  pose proof (zlen_add A i d) as EL. unfold zlen in EL. assert (K : 1 <= Z.of_nat k + 1 <= zlen A) by (unfold zlen; lia).
  replace (nth k (seq_add A i d) 0) with (elem (seq_add A i d) (Z.of_nat k + 1)) by (unfold elem, zn; f_equal; lia).
  rewrite elem_add by auto. unfold fadd. destruct (Z.eqb_spec (Z.of_nat k + 1) i) as [E|]; [rewrite E; unfold elem; lia|]. apply elems_elem; auto; lia.
Qed.

Lemma elem_comp B A k : 1 <= k <= zlen A -> elem (seq_comp B A) k = B - elem A k.
Proof. intros Hk. unfold elem, seq_comp. rewrite (zn_map _ 0 0) by lia. reflexivity. Qed.

Lemma zlen_comp B A : zlen (seq_comp B A) = zlen A.
Proof. unfold seq_comp. apply zlen_map. Qed.

Lemma node_same a b n : (forall k, 1 <= k <= n -> a k = b k) -> forall i, 1 <= i <= n -> node a i = node b i.
Proof. intros H i Hi. unfold node. apply sumf_ext. intros k Hk. apply H. pose proof (low_le i ltac:(lia)). lia. Qed.

Lemma S1_same a b n k : (forall k, 1 <= k <= n -> a k = b k) -> 0 <= k <= n -> S1 a k = S1 b k.
Proof. intros H Hk. unfold S1. apply sumf_ext. intros j Hj. apply H. lia. Qed.

Lemma found_found1 A b n v k rest : n = zlen A -> (forall k, 1 <= k <= n -> elem A k = b k) -> found1 b n v k rest -> found A v k rest.
Proof.
  intros En H (F1 & F2 & F3 & F4). split; [lia|]. rewrite seq_sum_S1 by lia. rewrite (S1_same (elem A) b n) by (auto; lia). split; [exact F2|]. split; [exact F3|].
  intros j Hj. rewrite seq_sum_S1 by lia. rewrite (S1_same (elem A) b n) by (auto; lia). apply F4. lia.
Qed.

Lemma bound_low B n k : 0 <= B < 2 ^ 64 -> 1 <= k <= n -> width B + Z.log2 n <= 64 -> B * low k < 2 ^ 64.
Proof.
  intros HB Hk HL. destruct (bound_size_ok B HB) as (_ & Hb & HB2). rewrite (width_bs B HB) in HL. destruct (ht_log k n Hk) as (H1 & H2). unfold low.
  apply Z.lt_le_trans with (2 ^ bound_size B * 2 ^ ht k).
  - apply Z.mul_lt_mono_pos_r; [apply Z.pow_pos_nonneg; lia|exact HB2].
  - rewrite <- Z.pow_add_r by lia. apply Z.pow_le_mono_r; lia.
Qed.

Lemma step_ok sh lay B n P I t A p : fits lay B n -> impl sh lay B n false P I -> n = zlen A -> I t (node (elem A)) -> elems_ok B A -> fop_ok B A p ->
  (match p with FFind _ | FCompFind _ => can_search lay B n | _ => True end) ->
  exists o t', ft_step sh t p = Ok (o, t') /\ fop_answer B A p o /\ I t' (node (elem (fop_after A p))) /\ elems_ok B (fop_after A p) /\ zlen (fop_after A p) = n.
Proof.
  intros (HB & Hn & HF) IM En HI HE HO HC. pose proof (im_good IM) as G. destruct (im_lay IM t _ HI) as (EL & EB).
  assert (HL64 : width B + Z.log2 n <= 64) by (destruct lay; lia).
  assert (FND : forall comp v, can_search lay B n -> 0 <= v -> exists k rest, ft_find comp t v = Ok (k, rest) /\ found1 (comp_elem comp B (elem A)) n v k rest).
  { intros comp v CS Hv. pose proof CS as (C1 & _). destruct (is_l lay) eqn:ISL.
    - eapply (find_L sh n P I G (im_l IM ISL CS)); eauto; try lia; [rewrite EL; exact ISL| |].
      + intros k Hk. apply elems_elem; auto. lia.
      + intros k Hk. eapply bound_low; eauto.
    - assert (N : n <> 0) by (intros N; specialize (C1 N); discriminate C1). clear C1. eapply (find_F sh n P I G); eauto; try lia; [rewrite EL; exact ISL| |].
      + intros k Hk. apply elems_elem; auto. lia.
      + intros k Hk. eapply bound_low; eauto. }
  destruct p as [i|i inc|v|v|]; cbn [ft_step fop_ok fop_after] in *.
  - rewrite (prefix_ok sh n P I G t (elem A) i) by (auto; lia). cbn [bind]. do 2 eexists. split; [reflexivity|]. split; [|auto]. cbn [fop_answer]. rewrite seq_sum_S1 by lia. reflexivity.
  - destruct HO as (O1 & O2 & O3). pose proof (elems_add B A i inc HE O1 O2) as HE2.
    assert (EX : forall k, 1 <= k <= n -> fadd (elem A) i inc k = elem (seq_add A i inc) k) by (intros k Hk; symmetry; apply elem_add; lia).
    destruct (add_ok sh n P I G t (elem A) i inc) as (t' & E & I'); auto; try lia.
    { intros k Hk Hc. apply (im_room IM k _ Hk). right. rewrite (node_same _ _ n EX) by auto. unfold node. pose proof (low_pos k). apply sum_fits; auto; try lia.
      intros j Hj. apply elems_elem; auto. rewrite zlen_add. pose proof (low_le k ltac:(lia)). lia. }
    rewrite E. cbn [bind]. do 2 eexists. split; [reflexivity|]. split; [exact Logic.I|]. split; [|split; [exact HE2|rewrite zlen_add; auto]].
    apply (g_ext G _ _ _ I'). apply node_same. exact EX.
  - destruct (FND false v HC ltac:(lia)) as (k & rest & E & F). rewrite E. cbn [bind]. do 2 eexists. split; [reflexivity|]. split; [|auto]. cbn [fop_answer].
    eapply found_found1; eauto.
  - destruct (FND true v HC ltac:(lia)) as (k & rest & E & F). rewrite E. cbn [bind]. do 2 eexists. split; [reflexivity|]. split; [|auto]. cbn [fop_answer].
    apply (found_found1 _ (comp_elem true B (elem A)) n); auto; [rewrite zlen_comp; auto|]. intros j Hj. apply elem_comp. lia.
  - do 2 eexists. split; [reflexivity|]. split; [|auto]. cbn [fop_answer]. rewrite (g_size G _ _ HI). exact En.
Qed.

Lemma run_ok sh lay B n P I : fits lay B n -> impl sh lay B n false P I -> forall ops t A, n = zlen A -> I t (node (elem A)) -> elems_ok B A -> fops_ok B A ops ->
  (searches ops -> can_search lay B n) -> exists outs, ft_run sh t ops = Ok outs /\ fanswers B A ops outs.
Proof.
  intros HF IM ops. induction ops as [|p r IH]; intros t A En HI HE HO HS; [exists []; split; [reflexivity|exact Logic.I]|].
  cbn [fops_ok] in HO. destruct HO as (O1 & O2). destruct (step_ok sh lay B n P I t A p HF IM En HI HE O1) as (o & t' & E & FA & I' & E' & N').
  { destruct p as [i|i inc|v|v|]; auto; apply HS; exists v; [left|right]; left; reflexivity. }
  destruct (IH t' (fop_after A p) (eq_sym N') I' E' O2) as (outs & ER & FR).
  { intros (v & Hv). apply HS. exists v. destruct Hv; [left|right]; right; auto. }
  exists (o :: outs). split; [|split; auto]. cbn [ft_run]. rewrite E. cbn [bind]. rewrite ER. reflexivity.
Qed.

Lemma elems_u64 B A : 0 <= B < 2 ^ 64 -> elems_ok B A -> Forall (fun v => 0 <= v < 2 ^ 64) A.
Proof. intros HB H. unfold elems_ok in H. eapply Forall_impl; [|exact H]. intros a Ha. cbn in Ha. lia. Qed.

Lemma client_ok sh lay B A ops : fits lay B (zlen A) -> (lay = BitL -> sh = true) -> elems_ok B A -> fops_ok B A ops -> (searches ops -> can_search lay B (zlen A)) ->
  exists outs, ft_client sh lay B A ops = Ok outs /\ fanswers B A ops outs.
Proof.
  intros HF Hsh HE HO HS. destruct (impl_all sh lay B (zlen A) HF Hsh) as (P & I & IM).
  destruct (im_build IM A eq_refl) as (t & E & HI); [eapply elems_u64; eauto; apply HF|auto|].
  destruct (run_ok sh lay B (zlen A) P I HF IM ops t A eq_refl HI HE HO HS) as (outs & ER & FA).
  exists outs. split; [|exact FA]. unfold ft_client. rewrite E. cbn [bind]. exact ER.
Qed.

(** ** FixedF and FixedL with arbitrary values *)
Lemma wide_run sh lay B n P I : 0 <= n <= 2 ^ 48 -> impl sh lay B n true P I -> forall ops t A, n = zlen A -> I t (node (elem A)) -> Forall (fop_wide n) ops ->
  exists outs, ft_run sh t ops = Ok outs /\ fanswers B A ops outs.
Proof.
  intros Hn IM ops. pose proof (im_good IM) as G. induction ops as [|p r IH]; intros t A En HI HO; [exists []; split; [reflexivity|exact Logic.I]|].
  inversion_clear HO as [|? ? O1 O2].
  assert (ST : exists o t', ft_step sh t p = Ok (o, t') /\ fop_answer B A p o /\ I t' (node (elem (fop_after A p))) /\ zlen (fop_after A p) = n).
  { destruct p as [i|i inc|v|v|]; cbn [ft_step fop_wide fop_after] in *; try contradiction.
    - rewrite (prefix_ok sh n P I G t (elem A) i) by (auto; lia). cbn [bind]. do 2 eexists. split; [reflexivity|]. split; [|auto]. cbn [fop_answer]. rewrite seq_sum_S1 by lia. reflexivity.
    - destruct O1 as (O1 & O3). destruct (add_ok sh n P I G t (elem A) i inc) as (t' & E & I'); auto; try lia.
      { intros k Hk Hc. apply (im_room IM k _ Hk). auto. }
      rewrite E. cbn [bind]. do 2 eexists. split; [reflexivity|]. split; [exact Logic.I|]. split; [|rewrite zlen_add; auto].
      apply (g_ext G _ _ _ I'). apply node_same. intros k Hk. symmetry. apply elem_add; lia.
    - do 2 eexists. split; [reflexivity|]. split; [|auto]. cbn [fop_answer]. rewrite (g_size G _ _ HI). exact En. }
  destruct ST as (o & t' & E & FA & I' & N'). destruct (IH t' (fop_after A p) (eq_sym N') I' O2) as (outs & ER & FR).
  exists (o :: outs). split; [|split; auto]. cbn [ft_run]. rewrite E. cbn [bind]. rewrite ER. reflexivity.
Qed.

Lemma wide_client sh lay B A ops : lay = FixedF \/ lay = FixedL -> 0 <= B < 2 ^ 64 -> zlen A <= 2 ^ 48 -> Forall (fun v => 0 <= v < 2 ^ 64) A -> Forall (fop_wide (zlen A)) ops ->
  exists outs, ft_client sh lay B A ops = Ok outs /\ fanswers B A ops outs.
Proof.
  intros HL HB Hn HA HO. pose proof (zlen_nonneg A). destruct (impl_wide sh lay B (zlen A) HL HB ltac:(lia)) as (P & I & IM).
  destruct (im_build IM A eq_refl HA) as (t & E & HI); [auto|]. destruct (wide_run sh lay B (zlen A) P I ltac:(lia) IM ops t A eq_refl HI HO) as (outs & ER & FA).
  exists outs. split; [|exact FA]. unfold ft_client. rewrite E. cbn [bind]. exact ER.
Qed.
