(** Search in the root of the height-4 avx2 index, whose keys are compared as
    signed 32-bit numbers although they can reach 2^31. *)
From Coq Require Import ZifyBool.
From Verif Require Import Base BaseFacts Mem MemFacts Tables Nodes NodeFacts SearchFacts Trees LevelFacts.
Ltac Zify.zify_post_hook ::= Z.div_mod_to_equations.

(** Sum of the first [t] children of the root. *)
Definition child_sum (A : Z -> Z) (t : Z) : Z := sumf A 0 (t * 524288).

(** The remainders on which the root goes to the wrong child: those in the last
    child of a full group of eight, and those of 2^31 and more. *)
Definition root_fails (A : Z -> Z) (x : Z) : Prop :=
  (exists s, 1 <= s <= 3 /\ 2 ^ 31 <= child_sum A (8 * s + 7) - child_sum A (8 * s - 1) /\
     child_sum A (8 * s + 6) <= x < child_sum A (8 * s + 7)) \/
  2 ^ 31 <= x - child_sum A 23.

(** Lane comparisons that form a threshold pattern with a free last lane. *)
Definition lane_index (t : Z) (b : bool) : Z := if t <? 7 then t else if b then 7 else 8.

Definition lanes_check : bool :=
  forallb (fun t => forallb (fun b => index_fs 32 (map (lane 32) (thr 7 t ++ [b])) =? lane_index t b) [true; false]) (zrange 0 8).
Lemma lanes_ok : lanes_check = true. Proof. vm_compute; reflexivity. Qed.

Lemma lanes_index t b : 0 <= t <= 7 -> index_fs 32 (map (lane 32) (thr 7 t ++ [b])) = lane_index t b.
Proof.
  intros Ht. pose proof (forallb_zrange _ _ _ lanes_ok t ltac:(lia)) as E. cbv beta in E.
  rewrite forallb_forall in E. specialize (E b). apply Z.eqb_eq, E. destruct b; cbn; auto.
Qed.

Lemma cmp_lanes bits v x t b : zlen v = 8 -> 0 <= t <= 7 ->
  (forall u, 0 <= u < 7 -> (sgn bits (wrap bits x) <? sgn bits (zn 0 v u)) = (t <=? u)) ->
  (sgn bits (wrap bits x) <? sgn bits (zn 0 v 7)) = b ->
  map2 (fun a b => sgn bits b <? sgn bits a) v (set1 bits 8 x) = thr 7 t ++ [b].
Proof.
  intros HL B H Hb.
  assert (LS : zlen (set1 bits 8 x) = 8) by (unfold set1; rewrite zlen_repeat; lia).
  apply (list_ext false).
  - rewrite zlen_map2, zlen_app, zlen_thr by lia. rewrite HL. reflexivity.
  - rewrite zlen_map2 by lia. intros i Hi. rewrite HL in Hi.
    rewrite zn_map2 with (da := 0) (db := 0) by lia. rewrite zn_set1 by lia.
    destruct (Z.eq_dec i 7) as [->|N].
    + rewrite zn_app_r by (rewrite zlen_thr; lia). rewrite zlen_thr by lia. exact Hb.
    + rewrite zn_app_l by (rewrite zlen_thr; lia). rewrite zn_thr by lia. apply H. lia.
Qed.

Lemma cmp_bits bits v x n t : zlen v = n -> 0 <= t <= n ->
  (forall u, 0 <= u < n -> (sgn bits (wrap bits x) <? sgn bits (zn 0 v u)) = (t <=? u)) ->
  map2 (fun a b => sgn bits b <? sgn bits a) v (set1 bits (Z.to_nat n) x) = thr n t.
Proof.
  intros HL B H. pose proof (zlen_nonneg v).
  assert (LS : zlen (set1 bits (Z.to_nat n) x) = n) by (unfold set1; rewrite zlen_repeat; lia).
  apply (list_ext false).
  - rewrite zlen_map2, zlen_thr by lia. lia.
  - rewrite zlen_map2 by lia. intros i Hi. rewrite HL in Hi.
    rewrite zn_map2 with (da := 0) (db := 0) by lia.
    rewrite zn_set1 by lia. rewrite zn_thr by lia. apply H. auto.
Qed.

(** The vector search of a node with four groups of eight 32-bit keys. *)
Lemma search_32 c m p V x : node_in (desc A2_32) m p -> repr (desc A2_32) m p V -> range (desc A2_32) V ->
  0 <= x < 2 ^ 63 -> sumf V 0 24 < 2 ^ 63 -> (forall i, 0 <= i < 32 -> V i <= 2 ^ 28) ->
  exists s t b, search_avx2 c (desc A2_32) m p x = Ok (s * 8 + lane_index t b) /\
    0 <= s < 4 /\ sumf V 0 (s * 8) <= x /\ (s < 3 -> x < sumf V 0 (s * 8 + 8)) /\ 0 <= t <= 7 /\
    let y := x - sumf V 0 (s * 8) in
    let K u := sumf V (s * 8) (s * 8 + u + 1) in
    (forall u, 0 <= u < 7 -> (sgn 32 (wrap 32 y) <? K u) = (t <=? u)) /\
    (sgn 32 (wrap 32 y) <? sgn 32 (K 7)) = b.
Proof.
  intros I R G Hx HS HV. pose proof (desc_wf A2_32) as W. pose proof I as [I1 I2].
  change (nd_bytes (desc A2_32)) with 160 in I2.
  destruct (first_level (desc A2_32) m p V x W R G ltac:(lia)) as (s & Hs & S1 & S2 & F).
  change (nd_nseg (desc A2_32)) with 4 in *.
  rewrite (sm_val _ m p V s W R G) in S1 by (change (nd_nseg (desc A2_32)) with 4; lia).
  change (nd_seg (desc A2_32)) with 8 in S1.
  assert (S2' : s < 3 -> x < sumf V 0 (s * 8 + 8)).
  { intros. specialize (S2 ltac:(lia)). rewrite (sm_val _ m p V _ W R G) in S2 by (change (nd_nseg (desc A2_32)) with 4; lia).
    change (nd_seg (desc A2_32)) with 8 in S2. replace ((s + 1) * 8) with (s * 8 + 8) in S2 by lia. auto. }
  set (y := x - sumf V 0 (s * 8)). set (K := fun u => sumf V (s * 8) (s * 8 + u + 1)).
  assert (KY : forall u, 0 <= u < 8 -> ky (desc A2_32) m p (s * 8 + u) = K u).
  { intros u Hu. rewrite (ky_val _ m p V _ W R G) by (change (nd_fanout (desc A2_32)) with 32; lia).
    change (nd_seg (desc A2_32)) with 8. replace ((s * 8 + u) / 8) with s by lia. reflexivity. }
  assert (PV : forall i, 0 <= i < 32 -> 0 <= V i <= 2 ^ 28).
  { intros i Hi. split; [apply (rg_pos _ _ G); change (nd_fanout (desc A2_32)) with 32; lia|auto]. }
  assert (KB : forall u, 0 <= u < 8 -> 0 <= K u <= (u + 1) * 2 ^ 28).
  { intros u Hu. unfold K. pose proof (sumf_bound V (2 ^ 28) (s * 8) (s * 8 + u + 1) ltac:(lia) (fun i Hi => PV i ltac:(lia))). lia. }
  assert (KM : forall u u', 0 <= u <= u' -> u' < 8 -> K u <= K u').
  { intros u u' H1 H2. unfold K. apply sumf_mono; [lia|]. intros; apply PV. lia. }
  destruct (first_gt_ex K (sgn 32 (wrap 32 y)) 7 ltac:(lia)) as (t & T1 & T2 & T3).
  exists s, t, (sgn 32 (wrap 32 y) <? sgn 32 (K 7)).
  assert (TT : forall u, 0 <= u < 7 -> (sgn 32 (wrap 32 y) <? K u) = (t <=? u)).
  { intros u Hu. destruct (Z.leb_spec t u).
    - pose proof (KM t u ltac:(lia) ltac:(lia)). specialize (T3 ltac:(lia)). lia.
    - specialize (T2 u ltac:(lia)). lia. }
  split; [|cbv zeta; fold y; fold K; auto 10].
  unfold search_avx2. change (nd_nseg (desc A2_32)) with 4. change (nd_seg (desc A2_32)) with 8.
  change (nd_sb (desc A2_32)) with 8%nat. change (nd_kb (desc A2_32)) with 4%nat.
  change (8 * Z.of_nat 8) with 64. change (8 * Z.of_nat 4) with 32.
  assert (A0 : sm_addr (desc A2_32) p 0 = p) by (unfold sm_addr; lia).
  rewrite loadu_ok by (rewrite A0; lia). cbn [bind]. rewrite vcmpgt_lane.
  rewrite (cmp_thr 64 _ x 4 (s + 1)).
  - rewrite index_fs_thr by (try exact fs_64; lia). replace (s + 1 - 1) with s by lia.
    rewrite (wrap_small 64 s) by lia. rewrite massert_true by lia. cbn [bind].
    rewrite load_sm_ok by auto. cbn [bind]. rewrite (sm_val _ m p V s W R G) by auto.
    change (nd_seg (desc A2_32)) with 8. fold y.
    assert (0 <= sumf V 0 (s * 8)) by (apply sumf_nonneg; intros; apply PV; lia).
    rewrite (wrap_small 64 y) by lia. rewrite (wrap_small 64 (s * 8)) by lia.
    assert (KA : ky_addr (desc A2_32) p (s * 8) = p + 32 + 4 * (s * 8)) by (unfold ky_addr; reflexivity).
    rewrite loadu_ok by (rewrite KA; lia). cbn [bind]. rewrite vcmpgt_lane.
    change (Z.to_nat 8) with 8%nat.
    assert (ZK : forall u, 0 <= u < 8 -> zn 0 (rdv 4 8 m (ky_addr (desc A2_32) p (s * 8))) u = K u).
    { intros u Hu. rewrite zn_rdv by lia. rewrite <- KY by auto. unfold ky. f_equal. unfold ky_addr. change (nd_kb (desc A2_32)) with 4%nat. lia. }
    rewrite (cmp_lanes 32 _ y t (sgn 32 (wrap 32 y) <? sgn 32 (K 7))).
    + rewrite lanes_index by auto. rewrite wrap_small by (unfold lane_index; repeat match goal with |- context[if ?b then _ else _] => destruct b end; lia). reflexivity.
    + rewrite zlen_rdv. reflexivity.
    + auto.
    + intros u Hu. rewrite ZK by lia. rewrite (sgn_small 32 (K u)); [auto|]. pose proof (KB u ltac:(lia)). change (2 ^ (32 - 1)) with (8 * 2 ^ 28). lia.
    + rewrite ZK by lia. reflexivity.
  - lia.
  - rewrite zlen_rdv. lia.
  - lia.
  - intros u Hu. change (Z.to_nat 4) with 4%nat. rewrite zn_rdv by lia.
    assert (E : rd 8 m (sm_addr (desc A2_32) p 0 + Z.of_nat 8 * u) = sm (desc A2_32) m p u) by (unfold sm; f_equal; unfold sm_addr; change (nd_sb (desc A2_32)) with 8%nat; lia).
    rewrite E. pose proof (sm_le _ m p V u 3 W R G ltac:(lia) ltac:(change (nd_nseg (desc A2_32)) with 4; lia)) as Q.
    rewrite (sm_val _ m p V 3 W R G) in Q by (change (nd_nseg (desc A2_32)) with 4; lia).
    change (3 * nd_seg (desc A2_32)) with 24 in Q. change (64 - 1) with 63. lia.
  - intros u u' H1 H2. change (Z.to_nat 4) with 4%nat. rewrite !zn_rdv by lia.
    assert (E : forall u, rd 8 m (sm_addr (desc A2_32) p 0 + Z.of_nat 8 * u) = sm (desc A2_32) m p u) by (intros; unfold sm; f_equal; unfold sm_addr; change (nd_sb (desc A2_32)) with 8%nat; lia).
    rewrite !E. apply (sm_le _ m p V u u' W R G); auto.
  - eapply first_gt_ext; [|exact F]. intros u Hu. change (Z.to_nat 4) with 4%nat. rewrite zn_rdv by lia.
    unfold sm. f_equal. unfold sm_addr. change (nd_sb (desc A2_32)) with 8%nat. lia.
Qed.

Lemma child_step A mx t : (forall i, 0 <= A i <= mx) -> mx <= 512 -> 0 <= t ->
  child_sum A t <= child_sum A (t + 1) <= child_sum A t + 2 ^ 28.
Proof.
  intros HA Hm Ht. unfold child_sum. rewrite (sumf_split A 0 (t * 524288) ((t + 1) * 524288)) by lia.
  pose proof (sumf_bound A mx (t * 524288) ((t + 1) * 524288) ltac:(lia) (fun i _ => HA i)).
  pose proof (HA 0). change (2 ^ 28) with (512 * 524288). nia.
Qed.

Lemma child_mono A mx t u : (forall i, 0 <= A i <= mx) -> 0 <= t <= u -> child_sum A t <= child_sum A u.
Proof. intros HA H. unfold child_sum. apply sumf_mono; [lia|]. intros; apply HA. Qed.

Lemma child_range A mx t u : (forall i, 0 <= A i <= mx) -> mx <= 512 -> 0 <= t <= u ->
  child_sum A u <= child_sum A t + (u - t) * 2 ^ 28.
Proof.
  intros HA Hm H. unfold child_sum. rewrite (sumf_split A 0 (t * 524288) (u * 524288)) by lia.
  pose proof (sumf_bound A mx (t * 524288) (u * 524288) ltac:(lia) (fun i _ => HA i)).
  pose proof (HA 0). change (2 ^ 28) with (512 * 524288). nia.
Qed.

(** Where the root sends a search, right or wrong. *)
Lemma root_search c cnt q m A mx x : level_inv A2_32 cnt q m (V_in 32 524288 A) -> (forall i, 0 <= A i <= mx) -> mx <= 512 ->
  0 < cnt -> c_avx2 c = true -> 0 <= x < child_sum A 32 ->
  exists j, node_search c A2_32 m q x = Ok (j + 1, child_sum A j) /\ 0 <= j < 32 /\
    (~ root_fails A x /\ child_sum A j <= x < child_sum A (j + 1) \/
     root_fails A x /\ 2 ^ 31 <= wrap 32 (x - child_sum A j) /\ child_sum A (j - 1) <= x).
Proof.
  intros L HA Hm Hc C Hx. pose proof (HA 0) as H0.
  pose proof (level_node_in _ _ _ _ _ 0 L ltac:(lia)) as I. rewrite Z.mul_0_l, Z.add_0_r in I.
  assert (R : repr (desc A2_32) m q (V_in 32 524288 A 0)).
  { pose proof L as (L1 & L2). replace q with (q + 0 * bytes_of A2_32) by lia. apply L. lia. }
  assert (G : range (desc A2_32) (V_in 32 524288 A 0)).
  { apply range_bounded with (b := mx * 524288); [apply desc_wf|lia| | |].
    - intros; apply V_in_bound; auto; lia.
    - change (nd_seg (desc A2_32)) with 8. change (kbits (desc A2_32)) with 32. lia.
    - change (nd_fanout (desc A2_32)) with 32. change (sbits (desc A2_32)) with 64. lia. }
  set (V := V_in 32 524288 A 0) in *.
  assert (P : forall t, 0 <= t -> sumf V 0 (t + 1) = child_sum A t).
  { intros t Ht. unfold V. rewrite V_in_prefix by lia. unfold child_sum. f_equal; lia. }
  assert (P1 : forall t, 1 <= t -> sumf V 0 t = child_sum A (t - 1)) by (intros; rewrite <- P by lia; f_equal; lia).
  assert (Z0 : child_sum A 0 = 0) by (unfold child_sum; apply sumf_empty; lia).
  pose proof (fun t u => child_mono A mx t u HA) as MO.
  pose proof (fun t u => child_range A mx t u HA Hm) as RG.
  pose proof (RG 0 32 ltac:(lia)) as R32. rewrite Z0 in R32.
  destruct (search_32 c m q V x I R G) as (s & t & b & E & Hs & S1 & S2 & Ht & T & Tb); [lia| | |].
  { rewrite P1 by lia. pose proof (MO 23 32 ltac:(lia)). change (24 - 1) with 23. lia. }
  { intros i Hi. unfold V. pose proof (V_in_bound 32 524288 A mx 0 i ltac:(lia) HA). lia. }
  cbv zeta in T, Tb.
  assert (KS : forall u, 0 <= u -> sumf V (s * 8) (s * 8 + u + 1) = child_sum A (s * 8 + u) - sumf V 0 (s * 8)).
  { intros u Hu. rewrite <- P by lia. rewrite (sumf_split V 0 (s * 8) (s * 8 + u + 1)) by lia. lia. }
  rewrite (KS 7) in Tb by lia.
  assert (T' : forall u, 0 <= u < 7 -> (sgn 32 (wrap 32 (x - sumf V 0 (s * 8))) <? child_sum A (s * 8 + u) - sumf V 0 (s * 8)) = (t <=? u)).
  { intros u Hu. rewrite <- KS by lia. auto. }
  clear T KS.
  (* the result of node_search from the position *)
  assert (RET : forall p, 1 <= p <= 32 -> search_avx2 c (desc A2_32) m q x = Ok p -> node_search c A2_32 m q x = Ok (p - 1 + 1, child_sum A (p - 1))).
  { intros p Hp Hp'. unfold node_search. rewrite C, Hp'. cbn [bind]. unfold search_return.
    replace (p =? 0) with false by lia.
    pose proof (inner_sum_ok c A2_32 cnt q m 524288 A mx 0 (p - 1) L HA ltac:(lia)) as Q.
    rewrite Z.mul_0_l, Z.add_0_r in Q. rewrite Q.
    - cbn [bind]. replace (p - 1 + 1) with p by lia. reflexivity.
    - change (nd_seg (desc A2_32)) with 8. change (kbits (desc A2_32)) with 32. lia.
    - change (fan A2_32) with 32. change (sbits (desc A2_32)) with 64. lia.
    - lia.
    - change (fan A2_32) with 32. lia. }
  assert (B0 : 0 <= sumf V 0 (s * 8)).
  { apply sumf_nonneg. intros i Hi. unfold V. pose proof (V_in_bound 32 524288 A mx 0 i ltac:(lia) HA). lia. }
  assert (BASE : s = 0 /\ sumf V 0 (s * 8) = 0 \/ 1 <= s /\ sumf V 0 (s * 8) = child_sum A (s * 8 - 1)).
  { destruct (Z.eq_dec s 0) as [->|]; [left; split; auto; apply sumf_empty; lia|right; split; [lia|]]. apply P1. lia. }
  assert (S2' : s < 3 -> x < child_sum A (s * 8 + 7)).
  { intros Q. specialize (S2 Q). rewrite P1 in S2 by lia. replace (s * 8 + 8 - 1) with (s * 8 + 7) in S2 by lia. auto. }
  clear S2.
  assert (FAILS : root_fails A x -> (1 <= s /\ 2 ^ 31 <= child_sum A (s * 8 + 7) - sumf V 0 (s * 8) /\ child_sum A (s * 8 + 6) <= x) \/ s = 3 /\ 2 ^ 31 <= x - sumf V 0 (s * 8)).
  { intros [(r & Hr & F1 & F2 & F3)|F].
    - left. assert (r = s) as ->.
      { assert (r < s \/ s < r \/ r = s) as [Q|[Q|Q]] by lia; auto.
        - pose proof (MO (8 * r + 7) (s * 8 - 1) ltac:(lia)). lia.
        - pose proof (MO (s * 8 + 7) (8 * r + 6) ltac:(lia)). lia. }
      replace (8 * s) with (s * 8) in * by lia. destruct BASE as [BASE|[_ BASE]]; [lia|]. rewrite BASE. lia.
    - right. assert (s = 3) as ->.
      { assert (s < 3 \/ s = 3) as [Q|Q] by lia; auto. specialize (S2' Q). pose proof (MO (s * 8 + 7) 23 ltac:(lia)). lia. }
      destruct BASE as [BASE|[_ BASE]]; [lia|]. rewrite BASE. change (3 * 8 - 1) with 23. lia. }
  set (b0 := sumf V 0 (s * 8)) in *. clearbody b0. clear P P1 L R G I.
  assert (KB : 0 <= child_sum A (s * 8 + 7) - b0 <= 2 ^ 31).
  { destruct BASE as [[-> ->]|[Q ->]].
    - pose proof (RG 0 7 ltac:(lia)). pose proof (MO 0 7 ltac:(lia)). change (0 * 8 + 7) with 7. lia.
    - pose proof (RG (s * 8 - 1) (s * 8 + 7) ltac:(lia)). pose proof (MO (s * 8 - 1) (s * 8 + 7) ltac:(lia)). lia. }
  assert (Y : x - b0 < 2 ^ 32).
  { destruct (Z.eq_dec s 3) as [->|N].
    - destruct BASE as [BASE|[_ ->]]; [lia|]. pose proof (RG 23 32 ltac:(lia)). change (3 * 8 - 1) with 23. lia.
    - specialize (S2' ltac:(lia)). lia. }
  rewrite (wrap_small 32) in * by lia.
  destruct (Z.le_gt_cases (2 ^ 31) (x - b0)) as [Big|Small].
  - (* the remainder looks negative *)
    assert (s = 3) as -> by (destruct (Z.eq_dec s 3); auto; specialize (S2' ltac:(lia)); lia).
    destruct BASE as [BASE|[_ BASE]]; [lia|]. change (3 * 8 - 1) with 23 in BASE.
    assert (SG : sgn 32 (x - b0) < 0) by (unfold sgn; change (2 ^ (32 - 1)) with (2 ^ 31); destruct (Z.ltb_spec (x - b0) (2 ^ 31)); lia).
    assert (t = 0) as ->.
    { specialize (T' 0 ltac:(lia)). pose proof (MO 23 (3 * 8 + 0) ltac:(lia)). lia. }
    exists 23. split; [apply (RET 24); [lia|exact E]|]. split; [lia|]. right. split; [|split].
    + right. rewrite <- BASE. auto.
    + rewrite <- BASE. rewrite wrap_small by lia. auto.
    + pose proof (MO (23 - 1) 23 ltac:(lia)). lia.
  - assert (SG : sgn 32 (x - b0) = x - b0) by (apply sgn_small; change (2 ^ (32 - 1)) with (2 ^ 31); lia).
    rewrite SG in *.
    assert (TL : t < 7 -> x < child_sum A (s * 8 + t)) by (intros Q; specialize (T' t ltac:(lia)); lia).
    assert (TG : 1 <= t -> child_sum A (s * 8 + t - 1) <= x).
    { intros Q. specialize (T' (t - 1) ltac:(lia)). replace (s * 8 + (t - 1)) with (s * 8 + t - 1) in T' by lia. lia. }
    assert (TB : 1 <= s * 8 + t /\ child_sum A (s * 8 + t - 1) <= x).
    { destruct (Z.eq_dec t 0) as [->|]; [|split; [lia|apply TG; lia]].
      destruct BASE as [[-> ->]|[Q ->]]; [specialize (TL ltac:(lia)); change (0 * 8 + 0) with 0 in TL; lia|].
      rewrite Z.add_0_r. lia. }
    destruct TB as [TB1 TB2]. clear TG.
    unfold lane_index in E. destruct (Z.ltb_spec t 7) as [T7|T7].
    + specialize (TL T7). exists (s * 8 + t - 1). split; [apply RET; [lia|exact E]|]. split; [lia|]. left. split.
      * intros F. destruct (FAILS F) as [(F1 & F2 & F3)|[F1 F2]]; [|lia].
        pose proof (MO (s * 8 + t) (s * 8 + 6) ltac:(lia)). lia.
      * replace (s * 8 + t - 1 + 1) with (s * 8 + t) by lia. lia.
    + assert (t = 7) as -> by lia. replace (s * 8 + 7 - 1) with (s * 8 + 6) in TB2 by lia.
      destruct b.
      * exists (s * 8 + 6). split; [|split; [lia|]].
        { replace (s * 8 + 6) with (s * 8 + 7 - 1) by lia. apply RET; [lia|exact E]. }
        unfold sgn in Tb. change (2 ^ (32 - 1)) with (2 ^ 31) in Tb.
        destruct (Z.ltb_spec (child_sum A (s * 8 + 7) - b0) (2 ^ 31)); [|lia].
        left. split; [|replace (s * 8 + 6 + 1) with (s * 8 + 7) by lia; lia].
        intros F. destruct (FAILS F) as [(F1 & F2 & F3)|[F1 F2]]; lia.
      * exists (s * 8 + 7). split; [|split; [lia|]].
        { replace (s * 8 + 7) with (s * 8 + 8 - 1) by lia. apply RET; [lia|exact E]. }
        unfold sgn in Tb. change (2 ^ (32 - 1)) with (2 ^ 31) in Tb.
        destruct (Z.ltb_spec (child_sum A (s * 8 + 7) - b0) (2 ^ 31)).
        -- assert (s = 3) as -> by (destruct (Z.eq_dec s 3); auto; specialize (S2' ltac:(lia)); lia).
           left. split; [intros F; destruct (FAILS F) as [(F1 & F2 & F3)|[F1 F2]]; lia|].
           change (3 * 8 + 7 + 1) with 32. lia.
        -- right. destruct BASE as [[-> ->]|[Q BASE]].
           { pose proof (RG 0 7 ltac:(lia)). change (0 * 8 + 7) with 7 in *. lia. }
           pose proof (RG (s * 8 + 6) (s * 8 + 7) ltac:(lia)).
           split; [|split].
           ++ left. exists s. replace (8 * s) with (s * 8) by lia. lia.
           ++ unfold wrap. rewrite <- (Z_mod_plus_full _ 1). rewrite Z.mod_small; lia.
           ++ replace (s * 8 + 7 - 1) with (s * 8 + 6) by lia. lia.
Qed.

(** The search a level below with a remainder whose low 32 bits look negative. *)
Definition search_failure {T} (c : cfg) : res T := if c_debug c then AssertFail else Ub UB_bounds.
Ltac c64 := change (nd_seg (desc A2_64)) with 8 in *; change (nd_nseg (desc A2_64)) with 8 in *; change (nd_fanout (desc A2_64)) with 64 in *;
  change (kbits (desc A2_64)) with 32 in *; change (sbits (desc A2_64)) with 32 in *.

(** A remainder whose low 32 bits look negative is smaller than every summary. *)
Lemma node64_negative c cnt q m S A mx k a x : level_inv A2_64 cnt q m (V_in 64 S A) -> (forall i, 0 <= A i <= mx) -> 0 <= S ->
  mx * S * 64 < 2 ^ 31 -> 0 <= k < cnt -> a = q + k * bytes_of A2_64 -> zlen m < 2 ^ 64 ->
  c_avx2 c = true -> 2 ^ 31 <= wrap 32 x ->
  node_search c A2_64 m a x = search_failure c.
Proof.
  intros L HA HS B Hk -> Hm C Hx. pose proof (HA 0) as H0. set (p := q + k * bytes_of A2_64).
  pose proof (level_node_in _ _ _ _ _ k L Hk) as I. fold p in I. pose proof I as [I1 I2].
  assert (R : repr (desc A2_64) m p (V_in 64 S A k)) by (apply L; auto).
  pose proof (desc_wf A2_64) as W.
  assert (G : range (desc A2_64) (V_in 64 S A k)).
  { apply range_bounded with (b := mx * S); auto; [nia| |c64; lia|c64; lia]. intros; apply V_in_bound; auto. }
  unfold node_search. rewrite C. unfold search_avx2. change (nd_bytes (desc A2_64)) with 288 in *.
  change (nd_sb (desc A2_64)) with 4%nat. change (nd_nseg (desc A2_64)) with 8. change (8 * Z.of_nat 4) with 32.
  assert (A0 : sm_addr (desc A2_64) p 0 = p) by (unfold sm_addr; lia).
  rewrite loadu_ok by (rewrite A0; lia). cbn [bind]. rewrite vcmpgt_lane.
  rewrite (cmp_bits 32 _ x 8 0).
  - rewrite index_fs_thr by (try exact fs_32; lia). change (u64 (0 - 1)) with (2 ^ 64 - 1).
    unfold search_failure. destruct (c_debug c); [reflexivity|]. cbn [massert bind]. unfold load_sm, load.
    unfold in_bounds. change (nd_sb (desc A2_64)) with 4%nat. unfold sm_addr. change (nd_sb (desc A2_64)) with 4%nat.
    replace ((0 <=? p + Z.of_nat 4 * (2 ^ 64 - 1)) && (p + Z.of_nat 4 * (2 ^ 64 - 1) + Z.of_nat 4 <=? zlen m)) with false by lia.
    reflexivity.
  - rewrite zlen_rdv. lia.
  - lia.
  - intros u Hu. change (Z.to_nat 8) with 8%nat. rewrite zn_rdv by lia.
    assert (E : rd 4 m (sm_addr (desc A2_64) p 0 + Z.of_nat 4 * u) = sm (desc A2_64) m p u) by (unfold sm; f_equal; unfold sm_addr; change (nd_sb (desc A2_64)) with 4%nat; lia).
    rewrite E, (sm_val _ m p _ u W R G) by (c64; lia).
    pose proof (wrap_bound 32 x ltac:(lia)) as WB.
    pose proof (sumf_bound (V_in 64 S A k) (mx * S) 0 (u * nd_seg (desc A2_64)) ltac:(c64; lia) (fun i _ => V_in_bound 64 S A mx k i HS HA)) as SB.
    c64. unfold sgn. change (2 ^ (32 - 1)) with (2 ^ 31).
    replace (wrap 32 x <? 2 ^ 31) with false by lia.
    replace (sumf (V_in 64 S A k) 0 (u * 8) <? 2 ^ 31) with true by nia. lia.
Qed.
