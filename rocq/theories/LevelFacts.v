(** One level of a segment tree. *)
From Verif Require Import Base BaseFacts Mem MemFacts Tables Nodes NodeFacts SearchFacts Trees.

Notation fan n := (nd_fanout (desc n)).

(** Contents of inner node [k] of a level with fanout [F] whose children span [S] counters. *)
Definition V_in (F S : Z) (A : Z -> Z) (k t : Z) : Z :=
  if t =? 0 then 0 else sumf A ((k * F + t - 1) * S) ((k * F + t) * S).

Definition V_leaf (F : Z) (G : Z -> Z) (k t : Z) : Z := G (k * F + t).

(** [cnt] nodes of class [N] starting at [q], node [k] holding [V k]. *)
Definition level_inv (N : node) (cnt q : Z) (m : list Z) (V : Z -> Z -> Z) : Prop :=
  0 <= q /\ q + cnt * bytes_of N <= zlen m /\
  forall k, 0 <= k < cnt -> repr (desc N) m (q + k * bytes_of N) (V k).

Lemma bytes_pos N : 0 < bytes_of N.
Proof. destruct N; reflexivity. Qed.

Lemma level_node_in N cnt q m V k : level_inv N cnt q m V -> 0 <= k < cnt -> node_in (desc N) m (q + k * bytes_of N).
Proof. intros (H1 & H2 & _) Hk. pose proof (bytes_pos N). split; nia. Qed.

Lemma level_frame N cnt q m m' V lo hi : level_inv N cnt q m V -> frame m m' lo hi ->
  (q + cnt * bytes_of N <= lo \/ hi <= q) -> level_inv N cnt q m' V.
Proof.
  intros (H1 & H2 & H3) F H. split; [lia|]. split; [destruct F; lia|].
  intros k Hk. pose proof (bytes_pos N). eapply frame_repr; eauto using desc_wf; nia.
Qed.

Lemma level_ext N cnt q m V V' : level_inv N cnt q m V ->
  (forall k t, 0 <= k < cnt -> 0 <= t < fan N -> V k t = V' k t) -> level_inv N cnt q m V'.
Proof.
  intros (H1 & H2 & H3) H. split; [auto|]. split; [auto|].
  intros k Hk. eapply repr_ext; [apply desc_wf| |apply H3; auto]. auto.
Qed.

Lemma V_in_prefix F S A k t : 0 <= S -> 0 <= t ->
  sumf (V_in F S A k) 0 (t + 1) = sumf A (k * F * S) ((k * F + t) * S).
Proof.
  intros HS Ht. rewrite sumf_first by lia. unfold V_in at 1. rewrite Z.eqb_refl.
  set (g := fun c => sumf A (c * S) ((c + 1) * S)).
  rewrite (sumf_ext _ (fun u => g (u + (k * F - 1)))).
  - rewrite sumf_shift. unfold g. rewrite sumf_groups by lia. rewrite Z.add_0_l. f_equal; f_equal; lia.
  - intros i Hi. unfold V_in, g. replace (i =? 0) with false by lia. f_equal; f_equal; lia.
Qed.

Lemma V_leaf_prefix F G k t : sumf (V_leaf F G k) 0 t = sumf G (k * F) (k * F + t).
Proof.
  unfold V_leaf. rewrite (sumf_ext _ (fun u => G (u + k * F))) by (intros; f_equal; lia).
  rewrite sumf_shift. f_equal; lia.
Qed.

Lemma V_in_bound F S A mx k t : 0 <= S -> (forall i, 0 <= A i <= mx) -> 0 <= V_in F S A k t <= mx * S.
Proof.
  intros HS HA. pose proof (HA 0). unfold V_in. destruct (t =? 0); [nia|].
  pose proof (sumf_bound A mx ((k * F + t - 1) * S) ((k * F + t) * S) ltac:(nia) (fun i _ => HA i)). nia.
Qed.

(** Bounded values fit the node's types. *)
Lemma range_bounded d A b : wf_desc d -> 0 <= b -> (forall t, 0 <= t < nd_fanout d -> 0 <= A t <= b) ->
  b * nd_seg d < 2 ^ kbits d -> b * nd_fanout d < 2 ^ sbits d -> range d A.
Proof.
  intros W Hb HA H1 H2. split.
  - intros; apply HA; auto.
  - intros j Hj. pose proof (seg_in d j W Hj). pose proof (wf_seg d W).
    pose proof (sumf_bound A b (j * nd_seg d) ((j + 1) * nd_seg d) ltac:(lia) (fun i Hi => HA i ltac:(lia))). nia.
  - pose proof (wf_fanout d W). pose proof (wf_seg d W). pose proof (wf_nseg d W).
    pose proof (sumf_bound A b 0 (nd_fanout d) ltac:(nia) (fun i Hi => HA i ltac:(lia))). nia.
Qed.

Lemma last_seg d : wf_desc d -> 0 <= (nd_nseg d - 1) * nd_seg d /\ (nd_nseg d - 1) * nd_seg d + nd_seg d = nd_fanout d.
Proof. intros []. nia. Qed.

(** ** Sum *)
Lemma leaf_sum_ok c N cnt q m G mx k t : level_inv N cnt q m (V_leaf (fan N) G) -> (forall i, 0 <= G i <= mx) ->
  mx * nd_seg (desc N) < 2 ^ kbits (desc N) -> mx * fan N < 2 ^ sbits (desc N) ->
  0 <= k < cnt -> 0 <= t < fan N ->
  node_sum c N m (q + k * bytes_of N) t = Ok (sumf G (k * fan N) (k * fan N + t + 1)).
Proof.
  intros L HG B1 B2 Hk Ht. pose proof (HG 0).
  rewrite (node_sum_ok c N m _ (V_leaf (fan N) G k)); auto.
  - rewrite V_leaf_prefix. f_equal. f_equal. lia.
  - eapply level_node_in; eauto.
  - apply L; auto.
  - apply range_bounded with (b := mx); auto using desc_wf; try lia. intros; apply HG.
Qed.

Lemma inner_sum_ok c N cnt q m S A mx k t : level_inv N cnt q m (V_in (fan N) S A) -> (forall i, 0 <= A i <= mx) -> 0 <= S ->
  mx * S * nd_seg (desc N) < 2 ^ kbits (desc N) -> mx * S * fan N < 2 ^ sbits (desc N) ->
  0 <= k < cnt -> 0 <= t < fan N ->
  node_sum c N m (q + k * bytes_of N) t = Ok (sumf A (k * fan N * S) ((k * fan N + t) * S)).
Proof.
  intros L HA HS B1 B2 Hk Ht. pose proof (HA 0).
  rewrite (node_sum_ok c N m _ (V_in (fan N) S A k)); auto.
  - rewrite V_in_prefix by lia. reflexivity.
  - eapply level_node_in; eauto.
  - apply L; auto.
  - apply range_bounded with (b := mx * S); auto using desc_wf; try nia. intros; apply V_in_bound; auto.
Qed.

(** ** Update *)
Lemma V_leaf_upd F G i delta k t : 0 < F -> 0 <= t < F -> 0 <= i ->
  V_leaf F (fadd G i delta) k t =
  if k =? i / F then fadd (V_leaf F G k) (i mod F) delta t else V_leaf F G k t.
Proof.
  intros HF Ht Hi. unfold V_leaf, fadd.
  pose proof (Z.div_mod i F ltac:(lia)) as DM. pose proof (Z.mod_pos_bound i F HF).
  destruct (Z.eqb_spec k (i / F)) as [->|N].
  - destruct (Z.eqb_spec (i / F * F + t) i), (Z.eqb_spec t (i mod F)); auto; lia.
  - destruct (Z.eqb_spec (k * F + t) i) as [E|E]; auto.
    exfalso. apply N. apply (Z.div_unique i F k t); lia.
Qed.

Lemma V_in_upd F S A i delta k t : 0 < F -> 0 < S -> 0 <= t < F -> 0 <= i ->
  V_in F S (fadd A i delta) k t =
  if k =? i / (F * S) then fadd (V_in F S A k) ((i / S) mod F + 1) delta t else V_in F S A k t.
Proof.
  intros HF HS Ht Hi. unfold V_in, fadd.
  assert (E : i / (F * S) = (i / S) / F) by (rewrite Z.mul_comm, Z.div_div by lia; reflexivity).
  rewrite E. pose proof (Z.div_mod i S ltac:(lia)) as D1. pose proof (Z.mod_pos_bound i S HS).
  set (c := i / S) in *. pose proof (Z.div_mod c F ltac:(lia)) as D2. pose proof (Z.mod_pos_bound c F HF).
  fold (fadd A i delta). destruct (Z.eqb_spec t 0) as [->|T0].
  - destruct (k =? c / F); auto. replace (0 =? c mod F + 1) with false by lia. reflexivity.
  - rewrite sumf_fadd by nia.
    assert (C : ((k * F + t - 1) * S <=? i) && (i <? (k * F + t) * S) = (k * F + t - 1 =? c)).
    { destruct (Z.eqb_spec (k * F + t - 1) c) as [Q|Q].
      - rewrite Q. replace (k * F + t) with (c + 1) by lia.
        destruct (Z.leb_spec (c * S) i), (Z.ltb_spec i ((c + 1) * S)); auto; lia.
      - destruct (Z.leb_spec ((k * F + t - 1) * S) i), (Z.ltb_spec i ((k * F + t) * S)); auto.
        exfalso. apply Q. assert (k * F + t - 1 < c + 1) by nia. assert (c < k * F + t) by nia. lia. }
    rewrite C. destruct (Z.eqb_spec k (c / F)) as [->|N].
    + destruct (Z.eqb_spec (c / F * F + t - 1) c), (Z.eqb_spec t (c mod F + 1)); try lia.
    + destruct (Z.eqb_spec (k * F + t - 1) c) as [Q|Q]; [|lia].
      exfalso. apply N. apply (Z.div_unique c F k (t - 1)); lia.
Qed.

Lemma fan_pos N : 0 < fan N.
Proof. destruct N; reflexivity. Qed.

Lemma level_update_gen c base N cnt q m V V' k t sign : level_inv N cnt q m V -> 0 <= k < cnt -> 0 <= t < fan N ->
  al_ok c N base (q + k * bytes_of N) ->
  (forall k' t', 0 <= k' < cnt -> 0 <= t' < fan N ->
     V' k' t' = if k' =? k then fadd (V k') t (sdelta sign) t' else V k' t') ->
  exists m', node_update c base N m (q + k * bytes_of N) t sign = Ok m' /\
    level_inv N cnt q m' V' /\ frame m m' q (q + cnt * bytes_of N).
Proof.
  intros L Hk Ht AL HV. pose proof (level_node_in _ _ _ _ _ _ L Hk) as I.
  pose proof L as (L1 & L2 & L3). pose proof (L3 k Hk) as R. pose proof (bytes_pos N) as HB.
  destruct (node_update_ok c base N m (q + k * bytes_of N) t sign I (repr_in_type _ _ _ _ R) Ht AL) as (m' & E & U).
  pose proof (upd_eff_repr _ _ _ _ _ _ _ (desc_wf N) Ht R U) as R'. destruct U as (FR & _).
  exists m'. split; auto. split.
  - split; [lia|]. split; [destruct FR; lia|]. intros k' Hk'.
    destruct (Z.eq_dec k' k) as [->|NE].
    + eapply repr_ext; [apply desc_wf| |exact R']. intros t' Ht'. rewrite HV by auto. rewrite Z.eqb_refl. reflexivity.
    + eapply frame_repr; [apply desc_wf| |exact FR| |].
      * nia.
      * assert (k' < k \/ k < k') as [?|?] by lia; [left|right]; nia.
      * eapply repr_ext; [apply desc_wf| |apply (L3 k' Hk')]. intros t' Ht'. rewrite HV by auto.
        replace (k' =? k) with false by lia. reflexivity.
  - eapply frame_weaken; [exact FR|..]; nia.
Qed.

Lemma leaf_update_ok c base N cnt q m G i sign : level_inv N cnt q m (V_leaf (fan N) G) ->
  0 <= i -> i / fan N < cnt ->
  al_ok c N base (q + i / fan N * bytes_of N) ->
  exists m', node_update c base N m (q + i / fan N * bytes_of N) (i mod fan N) sign = Ok m' /\
    level_inv N cnt q m' (V_leaf (fan N) (fadd G i (sdelta sign))) /\ frame m m' q (q + cnt * bytes_of N).
Proof.
  intros L Hi Hc AL. pose proof (fan_pos N) as HF.
  assert (0 <= i / fan N) by (apply Z.div_pos; lia).
  apply level_update_gen with (V := V_leaf (fan N) G); auto.
  - apply Z.mod_pos_bound; lia.
  - intros. apply V_leaf_upd; auto.
Qed.

Lemma inner_update_ok c base N cnt q m S A i sign : level_inv N cnt q m (V_in (fan N) S A) ->
  0 < S -> 0 <= i -> i / (fan N * S) < cnt -> N <> A2_128 ->
  exists m', node_update c base N m (q + i / (fan N * S) * bytes_of N) ((i / S) mod fan N + 1) sign = Ok m' /\
    level_inv N cnt q m' (V_in (fan N) S (fadd A i (sdelta sign))) /\ frame m m' q (q + cnt * bytes_of N).
Proof.
  intros L HS Hi Hc NL. pose proof (fan_pos N) as HF.
  assert (0 <= i / (fan N * S)) by (apply Z.div_pos; nia).
  pose proof (Z.mod_pos_bound (i / S) (fan N) HF).
  destruct (Z.eq_dec ((i / S) mod fan N + 1) (fan N)) as [E|E].
  - rewrite E. rewrite node_update_fanout. exists m. split; auto. split; [|apply frame_refl].
    eapply level_ext; [exact L|]. intros k t Hk Ht. rewrite V_in_upd by lia.
    destruct (k =? i / (fan N * S)); auto. unfold fadd. replace (t =? (i / S) mod fan N + 1) with false by lia. reflexivity.
  - apply level_update_gen with (V := V_in (fan N) S A); auto.
    + lia.
    + intros Q; contradiction.
    + intros. apply V_in_upd; auto.
Qed.

(** ** Search *)
Lemma inner_search_ok c N cnt q m S A mx k x : level_inv N cnt q m (V_in (fan N) S A) -> (forall i, 0 <= A i <= mx) -> 0 < S ->
  is_leaf_class N = false -> 1 < nd_nseg (desc N) ->
  mx * S * nd_seg (desc N) < 2 ^ kbits (desc N) -> mx * S * fan N < 2 ^ (sbits (desc N) - 1) ->
  (vectorised c N = true -> mx * S * (nd_seg (desc N) + 1) <= 2 ^ (kbits (desc N) - 1)) ->
  0 <= k < cnt -> 0 <= x < 2 ^ 64 -> x < sumf A (k * fan N * S) ((k + 1) * fan N * S) ->
  exists c', node_search c N m (q + k * bytes_of N) x =
      Ok (c' + 1, sumf A (k * fan N * S) ((k * fan N + c') * S)) /\
    0 <= c' < fan N /\
    sumf A (k * fan N * S) ((k * fan N + c') * S) <= x < sumf A (k * fan N * S) ((k * fan N + c' + 1) * S).
Proof.
  intros L HA HS NL NSEG B1 B2 VS Hk Hx HT. pose proof (HA 0) as H0.
  pose proof (desc_wf N) as W. pose proof (wf_seg _ W) as Hseg. pose proof (wf_fanout _ W) as Hfan.
  pose proof (fan_pos N) as HF.
  pose proof (pow_half (sbits (desc N)) ltac:(unfold sbits; pose proof (wf_sb _ W); lia)) as P2.
  assert (HP : 0 < 2 ^ (sbits (desc N) - 1)).
  { apply Z.pow_pos_nonneg; [lia|]. unfold sbits. pose proof (wf_sb _ W). lia. }
  set (V := V_in (fan N) S A k).
  assert (PRE : forall t, 0 <= t -> sumf V 0 (t + 1) = sumf A (k * fan N * S) ((k * fan N + t) * S)).
  { intros; apply V_in_prefix; lia. }
  assert (NN : forall a b, 0 <= sumf A a b) by (intros; apply sumf_nonneg; intros; apply HA).
  assert (SP : forall t u, 0 <= t <= u -> sumf A (k * fan N * S) ((k * fan N + u) * S) =
     sumf A (k * fan N * S) ((k * fan N + t) * S) + sumf A ((k * fan N + t) * S) ((k * fan N + u) * S)).
  { intros; apply sumf_split. nia. }
  assert (ALL : sumf A (k * fan N * S) ((k + 1) * fan N * S) = sumf A (k * fan N * S) ((k * fan N + fan N) * S)).
  { f_equal. ring. }
  assert (G : range (desc N) V).
  { apply range_bounded with (b := mx * S); auto; try nia. intros; apply V_in_bound; auto; lia. }
  assert (TOT : sumf A (k * fan N * S) ((k + 1) * fan N * S) <= mx * S * fan N).
  { pose proof (sumf_bound A mx (k * fan N * S) ((k + 1) * fan N * S) ltac:(nia) (fun i _ => HA i)). nia. }
  set (L1 := (nd_nseg (desc N) - 1) * nd_seg (desc N)).
  assert (HL1 : 1 <= L1 /\ L1 + nd_seg (desc N) = fan N) by (unfold L1; nia).
  assert (PL1 : sumf V 0 L1 = sumf A (k * fan N * S) ((k * fan N + (L1 - 1)) * S)).
  { rewrite <- PRE by lia. f_equal. lia. }
  assert (VR : vectorised c N = true -> vrange (desc N) V x).
  { intros VC. specialize (VS VC). split.
    - intros j Hj. pose proof (seg_in _ j W Hj) as [J1 J2].
      pose proof (sumf_bound V (mx * S) (j * nd_seg (desc N)) ((j + 1) * nd_seg (desc N)) ltac:(nia)
        (fun i _ => V_in_bound (fan N) S A mx k i ltac:(lia) HA)).
      destruct (Z.eq_dec mx 0) as [->|]; [|nia].
      assert (0 < 2 ^ (kbits (desc N) - 1)) by (apply Z.pow_pos_nonneg; [lia|]; unfold kbits; pose proof (wf_kb _ W); lia). nia.
    - fold L1. rewrite PL1. rewrite ALL in TOT, HT. rewrite (SP (L1 - 1) (fan N)) in TOT by lia.
      pose proof (NN ((k * fan N + (L1 - 1)) * S) ((k * fan N + fan N) * S)). lia.
    - lia.
    - fold L1. rewrite PL1. rewrite ALL in HT. rewrite (SP (L1 - 1) (fan N)) in HT by lia.
      pose proof (sumf_bound A mx ((k * fan N + (L1 - 1)) * S) ((k * fan N + fan N) * S) ltac:(nia) (fun i _ => HA i)). nia. }
  destruct (node_search_ok c N m (q + k * bytes_of N) V x) as (r & E & B & F1 & F2); auto.
  { eapply level_node_in; eauto. }
  { apply L; auto. }
  { rewrite NL. discriminate. }
  assert (R0 : r <> 0).
  { intros ->. specialize (F2 ltac:(lia)). rewrite PRE in F2 by lia. rewrite sumf_empty in F2 by nia. lia. }
  exists (r - 1). replace (r - 1 + 1) with r by lia.
  rewrite E. replace r with (r - 1 + 1) at 2 by lia. rewrite PRE by lia.
  split; [reflexivity|]. split; [lia|]. split.
  - specialize (F1 (r - 1) ltac:(lia)). cbv beta in F1. rewrite PRE in F1 by lia. auto.
  - replace (k * fan N + (r - 1) + 1) with (k * fan N + r) by lia.
    destruct (Z.eq_dec r (fan N)) as [->|NE]; [rewrite <- ALL; auto|].
    specialize (F2 ltac:(lia)). rewrite PRE in F2 by lia. auto.
Qed.

Lemma leaf_search_ok c N cnt q m G A n mx k x : level_inv N cnt q m (V_leaf (fan N) G) ->
  (forall i, 0 <= G i <= mx) -> (forall i, 0 <= i < n -> G i = A i) -> (forall i, n <= i -> A i = 0) ->
  (forall i, 0 <= A i <= mx) ->
  mx * nd_seg (desc N) < 2 ^ (kbits (desc N) - 1) -> mx * fan N < 2 ^ (sbits (desc N) - 1) ->
  0 <= k < cnt -> 0 <= x < 2 ^ 64 -> x < sumf A (k * fan N) ((k + 1) * fan N) ->
  exists r, node_search c N m (q + k * bytes_of N) x = Ok (r, sumf A (k * fan N) (k * fan N + r)) /\
    0 <= r < fan N /\ k * fan N + r < n /\
    sumf A (k * fan N) (k * fan N + r) <= x < sumf A (k * fan N) (k * fan N + r + 1).
Proof.
  intros L HG GA A0 HA B1 B2 Hk Hx HT. pose proof (HG 0) as H0.
  pose proof (desc_wf N) as W. pose proof (wf_seg _ W) as Hseg. pose proof (fan_pos N) as HF. pose proof (wf_sb _ W). pose proof (wf_kb _ W).
  pose proof (pow_half (sbits (desc N)) ltac:(unfold sbits; lia)) as P2.
  pose proof (pow_half (kbits (desc N)) ltac:(unfold kbits; lia)) as P3.
  assert (HP2 : 0 < 2 ^ (sbits (desc N) - 1)) by (apply Z.pow_pos_nonneg; unfold sbits; lia).
  assert (HP3 : 0 < 2 ^ (kbits (desc N) - 1)) by (apply Z.pow_pos_nonneg; unfold kbits; lia).
  set (b := k * fan N) in *.
  replace ((k + 1) * fan N) with (b + fan N) in HT by (unfold b; ring).
  assert (Hb : 0 <= b) by (unfold b; nia).
  set (V := V_leaf (fan N) G k).
  assert (PRE : forall t, sumf V 0 t = sumf G b (b + t)) by (intros; apply V_leaf_prefix).
  assert (VB : forall t, 0 <= V t <= mx) by (intros; apply HG).
  assert (LE : forall i, 0 <= i -> A i <= G i).
  { intros i Hi. destruct (Z.lt_ge_cases i n); [rewrite GA by lia; lia|rewrite A0 by lia; apply HG]. }
  assert (AG : forall t, 0 <= t -> b + t <= n -> sumf A b (b + t) = sumf G b (b + t)).
  { intros; apply sumf_ext. intros; rewrite GA by lia; auto. }
  assert (LES : sumf A b (b + fan N) <= sumf G b (b + fan N)).
  { assert (D : sumf G b (b + fan N) = sumf (fun i => A i + (G i - A i)) b (b + fan N)).
    { apply sumf_ext. intros; lia. }
    rewrite D, sumf_plus. pose proof (sumf_nonneg (fun i => G i - A i) b (b + fan N)) as Q. cbv beta in Q.
    specialize (Q (fun i Hi => ltac:(pose proof (LE i ltac:(lia)); lia))). lia. }
  assert (G' : range (desc N) V) by (apply range_bounded with (b := mx); auto; lia).
  assert (TOT : sumf V 0 (fan N) <= mx * fan N).
  { pose proof (sumf_bound V mx 0 (fan N) ltac:(lia) (fun i _ => VB i)). lia. }
  pose proof (last_seg _ W) as HL1.
  remember ((nd_nseg (desc N) - 1) * nd_seg (desc N)) as L1 eqn:EL1.
  assert (S1 : sumf V 0 (fan N) = sumf V 0 L1 + sumf V L1 (fan N)) by (apply sumf_split; lia).
  pose proof (sumf_bound V mx L1 (fan N) ltac:(lia) (fun i _ => VB i)) as S2.
  assert (VR : vrange (desc N) V x).
  { split.
    - intros j Hj.
      pose proof (sumf_bound V mx (j * nd_seg (desc N)) ((j + 1) * nd_seg (desc N)) ltac:(lia) (fun i _ => VB i)).
      replace ((j + 1) * nd_seg (desc N) - j * nd_seg (desc N)) with (nd_seg (desc N)) in * by lia. lia.
    - rewrite <- EL1. lia.
    - rewrite <- PRE in LES. lia.
    - rewrite <- EL1. rewrite <- PRE in LES. replace (fan N - L1) with (nd_seg (desc N)) in S2 by lia. lia. }
  clear EL1 S1 S2 TOT B1 B2 P2 P3 HP2 HP3.
  destruct (node_search_ok c N m (q + k * bytes_of N) V x) as (r & E & B & F1 & F2); auto.
  { eapply level_node_in; eauto. }
  { apply L; auto. }
  { rewrite <- PRE in LES. lia. }
  clear G' VR L Hseg HL1. clearbody b V.
  assert (BN : b < n).
  { destruct (Z.lt_ge_cases b n); auto. rewrite (sumf_const0 A) in HT by (intros; apply A0; lia). lia. }
  assert (RN : b + r < n /\ r < fan N).
  { assert (HM : Z.min n (b + fan N) <= b + r -> False).
    { intros HM. set (e := Z.min n (b + fan N)) in *.
      assert (EQ : sumf A b (b + fan N) = sumf A b e).
      { rewrite (sumf_split A b e (b + fan N)) by lia.
        destruct (Z.le_ge_cases (b + fan N) n).
        - replace e with (b + fan N) by lia. rewrite (sumf_empty A (b + fan N)) by lia. lia.
        - rewrite (sumf_const0 A e) by (intros; apply A0; lia). lia. }
      specialize (F1 (e - b - 1) ltac:(lia)). cbv beta in F1. rewrite PRE in F1.
      rewrite <- AG in F1 by lia. replace (b + (e - b - 1 + 1)) with e in F1 by lia. lia. }
    lia. }
  exists r. rewrite E. rewrite PRE, <- AG by lia.
  split; [reflexivity|]. split; [lia|]. split; [lia|]. split.
  - destruct (Z.eq_dec r 0) as [->|N0]; [rewrite sumf_empty by lia; lia|].
    specialize (F1 (r - 1) ltac:(lia)). cbv beta in F1. rewrite PRE in F1.
    replace (r - 1 + 1) with r in F1 by lia. rewrite AG by lia. auto.
  - specialize (F2 ltac:(lia)). rewrite PRE in F2. rewrite <- AG in F2 by lia.
    replace (b + (r + 1)) with (b + r + 1) in F2 by lia. auto.
Qed.
