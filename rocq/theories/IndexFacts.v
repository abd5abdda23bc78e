(** Nodes and trees as searchable prefix-sum structures. *)
From Coq Require Import ZifyBool.
From Verif Require Import Base BaseFacts Mem MemFacts Nodes NodeFacts SearchFacts Trees LevelFacts RootFacts TreeFacts TreeBuild
  Spec SpecIndex Drivers BitmapFacts.
Ltac Zify.zify_post_hook ::= Z.div_mod_to_equations.

Lemma fold_firstn A : forall k, (k <= length A)%nat -> fold_right Z.add 0 (firstn k A) = sumf (zn 0 A) 0 (Z.of_nat k).
Proof.
  induction A as [|a A IH]; intros k Hk; cbn [length] in Hk.
  - assert (k = 0%nat) by lia. subst. reflexivity.
  - destruct k; [reflexivity|]. cbn [firstn fold_right]. rewrite IH by lia.
    rewrite (sumf_first (zn 0 (a :: A)) 0) by lia. change (zn 0 (a :: A) 0) with a. f_equal.
    replace (Z.of_nat (S k)) with (Z.of_nat k + 1) by lia. rewrite <- (sumf_shift _ 0 (Z.of_nat k) 1).
    apply sumf_ext. intros i Hi. rewrite zn_cons_S by lia. f_equal. lia.
Qed.

Lemma psum_sumf A i : 0 <= i <= zlen A -> psum A i = sumf (zn 0 A) 0 i.
Proof. intros Hi. unfold psum. rewrite fold_firstn by (unfold zlen in Hi; lia). f_equal. lia. Qed.

Lemma zn_counters A i sign t : 0 <= i < zlen A -> 0 <= t ->
  zn 0 (counters_after A (IUpdate i sign)) t = fadd (zn 0 A) i (sdelta sign) t.
Proof.
  intros Hi Ht. cbn [counters_after]. unfold fadd, sdelta. rewrite zn_upd by lia.
  destruct (Z.eqb_spec t i) as [->|]; destruct sign; auto.
Qed.

Lemma zlen_counters A o : zlen (counters_after A o) = zlen A.
Proof. destruct o; cbn [counters_after]; auto. apply zlen_upd. Qed.

(** ** Nodes *)
Lemma fits_range c n A : node_fits c n A -> range (desc n) (zn 0 A).
Proof.
  intros (Hl & Hp & Hs & Ht). pose proof (desc_wf n) as W. pose proof (wf_fanout _ W) as WF. pose proof (wf_seg _ W). pose proof (wf_nseg _ W).
  assert (P : forall b, 0 <= b -> 2 ^ (b - b2z (vector_paths c n)) <= 2 ^ b) by (intros; apply Z.pow_le_mono_r; destruct (vector_paths c n); cbn [b2z]; lia).
  constructor.
  - intros i Hi. rewrite Forall_forall in Hp. apply Hp. unfold zn. apply nth_In. unfold zlen in Hl. lia.
  - intros j Hj. specialize (Hs j Hj). pose proof (seg_in _ j W Hj). rewrite !psum_sumf in Hs by lia.
    rewrite (sumf_split (zn 0 A) 0 (j * nd_seg (desc n)) ((j + 1) * nd_seg (desc n))) in Hs by lia.
    unfold kbits. pose proof (P (8 * Z.of_nat (nd_kb (desc n))) ltac:(lia)). lia.
  - rewrite psum_sumf in Ht by lia. unfold sbits. pose proof (P (8 * Z.of_nat (nd_sb (desc n))) ltac:(lia)). lia.
Qed.

Lemma fits_vrange c n A x : node_fits c n A -> vectorised c n = true -> x < psum A (nd_fanout (desc n)) -> vrange (desc n) (zn 0 A) x.
Proof.
  intros F V Hx. pose proof (fits_range c n A F) as [R1 R2 R3]. destruct F as (Hl & Hp & Hs & Ht).
  pose proof (desc_wf n) as W. pose proof (wf_fanout _ W) as WF. pose proof (wf_seg _ W). pose proof (wf_nseg _ W).
  change (vectorised c n) with (vector_paths c n) in V. rewrite V in *. cbn [b2z] in *.
  assert (HS : forall j, 0 <= j < nd_nseg (desc n) -> sumf (zn 0 A) (j * nd_seg (desc n)) ((j + 1) * nd_seg (desc n)) < 2 ^ (kbits (desc n) - 1)).
  { intros j Hj. specialize (Hs j Hj). pose proof (seg_in _ j W Hj). rewrite !psum_sumf in Hs by lia.
    rewrite (sumf_split (zn 0 A) 0 (j * nd_seg (desc n)) ((j + 1) * nd_seg (desc n))) in Hs by lia. unfold kbits. lia. }
  pose proof (HS (nd_nseg (desc n) - 1) ltac:(lia)) as HL.
  replace ((nd_nseg (desc n) - 1 + 1) * nd_seg (desc n)) with (nd_fanout (desc n)) in HL by (rewrite WF; ring).
  rewrite psum_sumf in Hx, Ht by lia.
  set (q := (nd_nseg (desc n) - 1) * nd_seg (desc n)) in *. assert (0 <= q <= nd_fanout (desc n)).
  { pose proof (seg_in _ (nd_nseg (desc n) - 1) W ltac:(lia)) as [Q1 Q2]. fold q in Q1. unfold q in *. lia. }
  rewrite (sumf_split (zn 0 A) 0 q (nd_fanout (desc n))) in Hx, Ht by lia.
  assert (0 <= sumf (zn 0 A) q (nd_fanout (desc n))) by (apply sumf_nonneg; intros; apply R1; lia).
  constructor; auto; fold q; unfold sbits; lia.
Qed.

Lemma is_search_first A x r : 0 <= x < psum A (zlen A) -> first_gt (fun i => sumf (zn 0 A) 0 (i + 1)) x (zlen A) r ->
  r < zlen A -> Forall (fun v => 0 <= v) A -> is_search A x (r, sumf (zn 0 A) 0 r).
Proof.
  intros Hx (F1 & F2 & F3) Hr Hp. cbn. split; [lia|]. rewrite !psum_sumf by lia. split; auto. split; [|apply F3; lia].
  destruct (Z.eq_dec r 0) as [->|]; [rewrite sumf_empty by lia; lia|]. specialize (F2 (r - 1) ltac:(lia)). cbv beta in F2.
  replace (r - 1 + 1) with r in F2 by lia. auto.
Qed.

Lemma first_gt_lt A x r N : N = zlen A -> 0 <= x < psum A N -> first_gt (fun i => sumf (zn 0 A) 0 (i + 1)) x N r -> r < N.
Proof.
  intros -> Hx (F1 & F2 & F3). destruct (Z.eq_dec r (zlen A)) as [->|]; [|lia].
  destruct (Z.eq_dec (zlen A) 0) as [E|].
  - rewrite E in *. unfold psum in Hx. cbn in Hx. lia.
  - specialize (F2 (zlen A - 1) ltac:(lia)). cbv beta in F2. rewrite psum_sumf in Hx by lia. replace (zlen A - 1 + 1) with (zlen A) in F2 by lia. lia.
Qed.

Lemma node_step_ok c base n p m A o : node_place_ok c base n p m -> repr (desc n) m p (zn 0 A) -> node_fits c n A -> iop_valid A o ->
  exists a m', node_step c base n p m o = Ok (a, m') /\ ianswer_ok A o a /\
    repr (desc n) m' p (zn 0 (counters_after A o)) /\ frame m m' p (p + nd_bytes (desc n)).
Proof.
  intros (P1 & P2 & P3) R F V. pose proof (zlen_nonneg A) as LA. pose proof (fits_range c n A F) as RG. pose proof F as (Hl & Hp & Hs & Ht).
  assert (I : node_in (desc n) m p) by (split; auto). pose proof (desc_wf n) as W.
  destruct o as [i|i sign|x]; cbn [node_step iop_valid] in *.
  - rewrite (node_sum_ok c n m p (zn 0 A)) by (auto; lia). cbn [bind]. eexists _, m. split; [reflexivity|].
    split; [cbn; rewrite psum_sumf by lia; reflexivity|]. split; auto. apply frame_refl.
  - destruct (node_update_ok c base n m p i sign I (repr_in_type _ _ _ _ R) ltac:(lia) P3) as (m' & E & U).
    rewrite E. cbn [bind]. eexists _, m'. split; [reflexivity|]. split; [exact Logic.I|]. split; [|apply U].
    eapply repr_ext; [auto| |eapply upd_eff_repr; [auto| |exact R|exact U]; lia].
    intros t Htt. symmetry. apply zn_counters; lia.
  - destruct (node_search_ok c n m p (zn 0 A) x I R RG) as (r & E & FG).
    + intros Vc. apply (fits_vrange c n A); auto. rewrite <- Hl. lia.
    + split; [lia|]. rewrite Hl in V. assert (2 ^ (8 * Z.of_nat (nd_sb (desc n)) - b2z (vector_paths c n)) <= 2 ^ 64).
      { apply Z.pow_le_mono_r; [lia|]. destruct n, (vector_paths c _); cbn; lia. } lia.
    + intros _. rewrite <- psum_sumf by lia. rewrite <- Hl. lia.
    + rewrite E. cbn [bind]. eexists _, m. split; [reflexivity|]. split; [|split; [auto|apply frame_refl]].
      cbn [ianswer_ok]. rewrite <- Hl in FG. apply is_search_first; auto. eapply first_gt_lt; eauto.
Qed.

Lemma node_run_ok c base n p ops : forall m A, node_place_ok c base n p m -> repr (desc n) m p (zn 0 A) -> node_fits c n A ->
  iops_valid (node_fits c n) A ops ->
  exists outs m', node_run c base n p m ops = Ok (outs, m') /\ ianswers_ok A ops outs /\ frame m m' p (p + nd_bytes (desc n)).
Proof.
  induction ops as [|o ops IH]; intros m A Hp R F V; cbn [node_run iops_valid ianswers_ok] in *.
  - exists [], m. split; auto. split; auto. apply frame_refl.
  - destruct V as (V1 & V2 & V3). destruct (node_step_ok c base n p m A o Hp R F V1) as (a & m1 & E & HA & R1 & F1).
    rewrite E. cbn [bind]. destruct (IH m1 (counters_after A o)) as (outs & m2 & E2 & HA2 & F2); auto.
    { destruct Hp as (P1 & P2 & P3). split; auto. split; auto. rewrite (proj1 F1). auto. }
    rewrite E2. cbn [bind]. exists (a :: outs), m2. split; auto. split; auto. eapply frame_trans; eauto.
Qed.

Lemma node_program_ok c base n p m input ops : node_place_ok c base n p m -> node_fits c n input ->
  iops_valid (node_fits c n) input ops ->
  exists outs m', node_program c base n p m input ops = Ok (outs, m') /\ ianswers_ok input ops outs /\
    zlen m' = zlen m /\ forall k, 0 <= k -> k < p \/ p + nd_bytes (desc n) <= k -> zn 0 m' k = zn 0 m k.
Proof.
  intros Hp F V. unfold node_program. pose proof Hp as (P1 & P2 & P3). pose proof F as (Hl & _).
  destruct (build_node_ok (desc n) input m p (desc_wf n)) as (m1 & E & R & Fr); [split; auto|lia|eapply fits_range; eauto|].
  rewrite E. cbn [bind]. destruct (node_run_ok c base n p ops m1 input) as (outs & m2 & E2 & HA & F2); auto.
  { split; auto. rewrite (proj1 Fr). auto. }
  exists outs, m2. split; auto. split; auto. apply (frame_trans m m1 m2); auto.
Qed.

(** Inner classes: past the total. *)
Lemma node_search_past c n p m input x : node_place_ok c 0 n p m -> node_fits c n input -> (n <> A2_128 /\ n <> A5_512) ->
  psum input (nd_fanout (desc n)) <= x < 2 ^ 64 ->
  (vector_paths c n = true -> x < 2 ^ (8 * Z.of_nat (nd_sb (desc n)) - 1) /\
    x - psum input ((nd_nseg (desc n) - 1) * nd_seg (desc n)) < 2 ^ (8 * Z.of_nat (nd_kb (desc n)) - 1)) ->
  exists m', build_node (desc n) input m p = Ok m' /\
    node_search c n m' p x = Ok (nd_fanout (desc n), psum input (nd_fanout (desc n))).
Proof.
  intros (P1 & P2 & P3) F (N1 & N2) Hx HV. pose proof F as (Hl & Hp & Hs & Ht). pose proof (desc_wf n) as W.
  pose proof (wf_fanout _ W) as WF. pose proof (wf_seg _ W). pose proof (wf_nseg _ W).
  destruct (build_node_ok (desc n) input m p W) as (m1 & E & R & Fr); [split; auto|lia|eapply fits_range; eauto|].
  exists m1. split; auto.
  assert (0 <= psum input (nd_fanout (desc n))).
  { rewrite psum_sumf by lia. apply sumf_nonneg. intros; eapply rg_pos; [eapply fits_range; eauto|lia]. }
  destruct (node_search_ok c n m1 p (zn 0 input) x) as (r & Er & FG); auto.
  - split; auto. rewrite (proj1 Fr). auto.
  - eapply fits_range; eauto.
  - intros V. destruct (HV V) as [V1 V2].
    pose proof (fits_vrange c n input (psum input (nd_fanout (desc n)) - 1) F V ltac:(lia)) as [Q1 Q2 Q3 Q4].
    constructor; auto. unfold kbits. pose proof (seg_in _ (nd_nseg (desc n) - 1) W ltac:(lia)) as [S1 S2]. rewrite psum_sumf in V2 by lia. auto.
  - lia.
  - destruct n; cbn; congruence.
  - rewrite Er. destruct FG as (G1 & G2 & G3). assert (r = nd_fanout (desc n)).
    { destruct (Z.eq_dec r (nd_fanout (desc n))); auto. specialize (G3 ltac:(lia)). cbv beta in G3.
      assert (sumf (zn 0 input) 0 (r + 1) <= sumf (zn 0 input) 0 (nd_fanout (desc n))).
      { apply sumf_mono; [lia|]. intros; eapply rg_pos; [eapply fits_range; eauto|lia]. }
      rewrite psum_sumf in Hx by lia. lia. }
    subst r. rewrite psum_sumf by lia. reflexivity.
Qed.

(** ** Trees *)
Lemma counters_zn mx A : 0 <= mx -> counters_in mx A -> forall t, 0 <= zn 0 A t <= mx.
Proof.
  intros Hm H t. unfold zn. destruct (nth_in_or_default (Z.to_nat t) A 0) as [I|E]; [|lia].
  unfold counters_in in H. rewrite Forall_forall in H. apply H. auto.
Qed.

Lemma tree_view_upd H addr n m m' f : Z.of_nat H * 4 <= zlen m -> frame m m' (Z.of_nat H * 4) (zlen m) ->
  f = tree_view H addr n m -> view_upd H f (tree_view H addr n m') m'.
Proof.
  intros HH F ->. split; [reflexivity|]. split; [reflexivity|]. split; [reflexivity|].
  intros k Hk. cbn [v_nn tree_view]. rewrite !load_ok by (pose proof (proj1 F); lia). f_equal.
  eapply frame_rd; [exact F|lia|lia].
Qed.

Lemma tree_step_ok c f H addr mx n m F A o : tinv f H mx n (tree_view H addr n m) F -> (forall t, 0 <= t -> F t = zn 0 A t) -> zlen A = n ->
  Z.of_nat H * 4 <= zlen m -> align_ok c f (addr + Z.of_nat H * 4) ->
  iop_valid A o -> counters_in mx (counters_after A o) ->
  (match o with ISearch x => search_safe c f H A x | _ => True end) ->
  exists a m' F', tree_step c f H addr n m o = Ok (a, m') /\ ianswer_ok A o a /\
    tinv f H mx n (tree_view H addr n m') F' /\ (forall t, 0 <= t -> F' t = zn 0 (counters_after A o) t) /\ zlen m' = zlen m.
Proof.
  intros T HF Hn HH AL V C S. subst n. pose proof (zlen_nonneg A) as LA.
  assert (SF : forall i, 0 <= i <= zlen A -> sumf F 0 i = psum A i).
  { intros i Hi. rewrite psum_sumf by auto. apply sumf_ext. intros; apply HF; lia. }
  assert (SF' : forall i, 0 <= i -> sumf F 0 i = psum A i).
  { intros i Hi. destruct (Z.le_gt_cases i (zlen A)); [apply SF; lia|]. rewrite (sumf_split F 0 (zlen A) i), SF by lia.
    rewrite (sumf_const0 F (zlen A)) by (intros; apply T; lia). unfold psum. rewrite !firstn_all2 by (unfold zlen in *; lia). lia. }
  destruct o as [i|i sign|x]; cbn [tree_step iop_valid] in *.
  - rewrite (tree_sum_ok c f H mx (zlen A) _ F) by auto. cbn [bind]. eexists _, m, F. split; [reflexivity|].
    split; [cbn; apply SF; lia|]. auto.
  - pose proof (counters_zn mx _ ltac:(destruct T as (_ & _ & _ & TA & _); pose proof (TA 0); lia) C i) as Ci.
    rewrite zn_counters in Ci by lia. unfold fadd in Ci. rewrite Z.eqb_refl in Ci. rewrite <- HF in Ci by lia.
    destruct (tree_update_ok c f H mx (zlen A) (tree_view H addr (zlen A) m) F i sign T V Ci AL) as (m' & E & Fr & U).
    rewrite E. cbn [bind]. cbn [tree_view v_mem v_ptr] in Fr. eexists _, m', _. split; [reflexivity|]. split; [exact Logic.I|].
    split; [apply U; eapply tree_view_upd; eauto|]. split; [|apply Fr].
    intros t Ht. rewrite zn_counters by lia. unfold fadd. rewrite HF by auto. reflexivity.
  - destruct (tree_search_ok c f H mx (zlen A) (tree_view H addr (zlen A) m) F x T) as (i & E & Hi & Hs).
    + rewrite SF by lia. auto.
    + intros E1 E2 E3 RF. apply (S E1 E2 E3). unfold root_fails, child_sum, search_lost in *. change (2 ^ 19) with 524288.
      destruct RF as [(s & Hs & RF)|RF]; [left; exists s; split; auto|right]; rewrite !SF' in RF by lia; exact RF.
    + rewrite E. cbn [bind]. eexists _, m, F. split; [reflexivity|]. split; [|auto].
      cbn. rewrite !SF in * by lia. auto.
Qed.

Lemma tree_run_ok c f H addr mx n ops : forall m F A, tinv f H mx n (tree_view H addr n m) F -> (forall t, 0 <= t -> F t = zn 0 A t) -> zlen A = n ->
  Z.of_nat H * 4 <= zlen m -> align_ok c f (addr + Z.of_nat H * 4) ->
  iops_valid (counters_in mx) A ops -> isearches_safe c f H A ops ->
  exists outs m', tree_run c f H addr n m ops = Ok (outs, m') /\ ianswers_ok A ops outs /\ zlen m' = zlen m.
Proof.
  induction ops as [|o ops IH]; intros m F A T HF Hn HH AL V S; cbn [tree_run iops_valid ianswers_ok isearches_safe] in *.
  - exists [], m. auto.
  - destruct V as (V1 & V2 & V3). destruct S as (S1 & S2).
    destruct (tree_step_ok c f H addr mx n m F A o T HF Hn HH AL V1 V2 S1) as (a & m1 & F' & E & HA & T' & HF' & L).
    rewrite E. cbn [bind].
    destruct (IH m1 F' (counters_after A o) T' HF') as (outs & m2 & E2 & HA2 & L2); auto; [rewrite zlen_counters; auto|lia|].
    rewrite E2. cbn [bind]. exists (a :: outs), m2. split; auto. split; auto. lia.
Qed.

Lemma tree_program_ok c f H addr old input ops mx : 1 <= zlen input <= 2 ^ 24 -> Z.of_nat H = tree_height f (zlen input) ->
  0 <= mx <= 512 -> counters_in mx input -> (c_debug c = true -> counters_in (max_leaf f) input) ->
  (f = F2 -> c_avx2 c = true -> c_trap c = true -> (addr + Z.of_nat H * 4) mod 32 = 0) ->
  iops_valid (counters_in mx) input ops -> isearches_safe c f H input ops ->
  exists outs m, tree_program c f H addr old input ops = Ok (outs, m) /\ ianswers_ok input ops outs /\
    zlen m = total_of f H (zlen input).
Proof.
  intros Hn HH Hm Hin HD AL V S. unfold tree_program. rewrite wrap_small by lia.
  set (mx' := if c_debug c then Z.min mx (max_leaf f) else mx).
  assert (ML : 256 <= max_leaf f <= 512) by (destruct f; cbn; lia).
  destruct (tree_build_ok c f H input old mx' addr) as (m & E & T & L & _); auto.
  - unfold mx'. destruct (c_debug c); lia.
  - intros i Hi. pose proof (counters_zn mx _ ltac:(lia) Hin i). unfold mx'. destruct (c_debug c) eqn:ED; [|lia].
    pose proof (counters_zn (max_leaf f) _ ltac:(lia) (HD eq_refl) i). lia.
  - intros ED. unfold mx'. rewrite ED. change (max_count f) with (max_leaf f). lia.
  - rewrite E. cbn [bind].
    assert (HR : Z.of_nat H * 4 <= zlen m).
    { destruct (header_room f H (zlen input) ltac:(lia)) as [|B]; [lia|]. exfalso.
      pose proof (height_cases f H _ Hn HH) as C. destruct f, H as [|[|[|[|[|H]]]]]; try contradiction; lia. }
    destruct (tree_run_ok c f H addr mx (zlen input) ops m (zn 0 input) input) as (outs & m' & E' & HA & L'); auto.
    + eapply tinv_weaken; [exact T|]. unfold mx'. destruct (c_debug c); lia.
    + exists outs, m'. split; auto. split; auto. lia.
Qed.
