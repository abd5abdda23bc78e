(** Correctness of the node classes. *)
From Verif Require Import Base BaseFacts Mem MemFacts Tables Nodes.

Record wf_desc (d : ndesc) : Prop := {
  wf_seg : 0 < nd_seg d;
  wf_nseg : 1 <= nd_nseg d;
  wf_fanout : nd_fanout d = nd_seg d * nd_nseg d;
  wf_kb : (1 <= nd_kb d)%nat;
  wf_sb : (1 <= nd_sb d)%nat }.

Lemma desc_wf n : wf_desc (desc n).
Proof. destruct n; constructor; cbn; lia. Qed.

Definition sbits (d : ndesc) : Z := 8 * Z.of_nat (nd_sb d).
Definition kbits (d : ndesc) : Z := 8 * Z.of_nat (nd_kb d).

Definition sm (d : ndesc) (m : list Z) (p j : Z) : Z := rd (nd_sb d) m (sm_addr d p j).
Definition ky (d : ndesc) (m : list Z) (p i : Z) : Z := rd (nd_kb d) m (ky_addr d p i).

(** The node at [p] lies inside the buffer. *)
Definition node_in (d : ndesc) (m : list Z) (p : Z) : Prop := 0 <= p /\ p + nd_bytes d <= zlen m.

(** The node at [p] stores the prefix sums of [A]. *)
Definition repr (d : ndesc) (m : list Z) (p : Z) (A : Z -> Z) : Prop :=
  (forall j, 0 <= j < nd_nseg d -> sm d m p j = wrap (sbits d) (sumf A 0 (j * nd_seg d))) /\
  (forall i, 0 <= i < nd_fanout d ->
     ky d m p i = wrap (kbits d) (sumf A (i / nd_seg d * nd_seg d) (i + 1))).

(** Outside [lo, hi) nothing changed. *)
Definition frame (m m' : list Z) (lo hi : Z) : Prop :=
  zlen m' = zlen m /\ forall k, 0 <= k -> (k < lo \/ hi <= k) -> zn 0 m' k = zn 0 m k.

Lemma frame_refl m lo hi : frame m m lo hi.
Proof. split; auto. Qed.

Lemma frame_trans m1 m2 m3 lo hi : frame m1 m2 lo hi -> frame m2 m3 lo hi -> frame m1 m3 lo hi.
Proof.
  intros [L1 F1] [L2 F2]; split; [congruence|]. intros; rewrite F2, F1; auto.
Qed.

Lemma frame_weaken m m' lo hi lo' hi' : frame m m' lo hi -> lo' <= lo -> hi <= hi' -> frame m m' lo' hi'.
Proof. intros [L F] ? ?; split; auto. intros; apply F; lia. Qed.

Lemma frame_rd w : forall m m' lo hi off, frame m m' lo hi -> 0 <= off -> (off + Z.of_nat w <= lo \/ hi <= off) ->
  rd w m' off = rd w m off.
Proof.
  induction w; intros m m' lo hi off F Ho H; cbn [rd]; [reflexivity|].
  rewrite (IHw m m' lo hi) by (auto; lia). destruct F as [_ F]. rewrite F by lia. reflexivity.
Qed.

Lemma frame_wr n m off v : 0 <= off -> off + Z.of_nat n <= zlen m -> frame m (wr n m off v) off (off + Z.of_nat n).
Proof. intros; split; [apply zlen_wr|]. intros; apply zn_wr_other; lia. Qed.

Lemma zn_wrv_other w v : forall m off k, 0 <= off -> off + Z.of_nat w * zlen v <= zlen m -> 0 <= k ->
  (k < off \/ off + Z.of_nat w * zlen v <= k) -> zn 0 (wrv w m off v) k = zn 0 m k.
Proof.
  induction v; intros m off k Ho Hn Hk H; cbn [wrv]; [reflexivity|].
  rewrite zlen_cons in *. pose proof (zlen_nonneg v).
  rewrite IHv by (rewrite ?zlen_wr; nia). apply zn_wr_other; nia.
Qed.

Lemma frame_wrv w v m off : 0 <= off -> off + Z.of_nat w * zlen v <= zlen m ->
  frame m (wrv w m off v) off (off + Z.of_nat w * zlen v).
Proof. intros; split; [apply zlen_wrv|]. intros; apply zn_wrv_other; auto. Qed.

Lemma sm_range d p j : wf_desc d -> 0 <= j < nd_nseg d ->
  p <= sm_addr d p j /\ sm_addr d p j + Z.of_nat (nd_sb d) <= p + nd_nseg d * Z.of_nat (nd_sb d).
Proof. intros [] H. unfold sm_addr. nia. Qed.

Lemma ky_range d p i : wf_desc d -> 0 <= i < nd_fanout d ->
  p + nd_nseg d * Z.of_nat (nd_sb d) <= ky_addr d p i /\
  ky_addr d p i + Z.of_nat (nd_kb d) <= p + nd_bytes d.
Proof. intros [] H. unfold ky_addr, nd_bytes. nia. Qed.

Lemma sm_bytes d : wf_desc d -> 0 <= nd_nseg d * Z.of_nat (nd_sb d) <= nd_bytes d.
Proof. intros []. unfold nd_bytes. nia. Qed.

Lemma sm_disj d p j j' : j <> j' ->
  sm_addr d p j + Z.of_nat (nd_sb d) <= sm_addr d p j' \/ sm_addr d p j' + Z.of_nat (nd_sb d) <= sm_addr d p j.
Proof. unfold sm_addr. intros. assert (j < j' \/ j' < j) as [|] by lia; [left|right]; nia. Qed.

Lemma ky_disj d p i i' : i <> i' ->
  ky_addr d p i + Z.of_nat (nd_kb d) <= ky_addr d p i' \/ ky_addr d p i' + Z.of_nat (nd_kb d) <= ky_addr d p i.
Proof. unfold ky_addr. intros. assert (i < i' \/ i' < i) as [|] by lia; [left|right]; nia. Qed.

Ltac nrange d p :=
  repeat match goal with
  | W : wf_desc d, H : 0 <= ?j < nd_nseg d |- _ =>
      lazymatch goal with
      | _ : p <= sm_addr d p j /\ _ |- _ => fail
      | _ => pose proof (sm_range d p j W H)
      end
  | W : wf_desc d, H : 0 <= ?j < nd_fanout d |- _ =>
      lazymatch goal with
      | _ : _ <= ky_addr d p j /\ _ |- _ => fail
      | _ => pose proof (ky_range d p j W H)
      end
  end;
  match goal with W : wf_desc d |- _ => pose proof (sm_bytes d W) end.

Lemma frame_repr d m m' lo hi p A : wf_desc d -> 0 <= p -> frame m m' lo hi -> (p + nd_bytes d <= lo \/ hi <= p) ->
  repr d m p A -> repr d m' p A.
Proof.
  intros W Hp F H [R1 R2]. split.
  - intros j Hj. rewrite <- R1 by auto. unfold sm. nrange d p. eapply frame_rd; eauto; lia.
  - intros i Hi. rewrite <- R2 by auto. unfold ky. nrange d p. eapply frame_rd; eauto; lia.
Qed.

Lemma frame_in d m m' lo hi p : frame m m' lo hi -> node_in d m p -> node_in d m' p.
Proof. intros [L _] [? ?]; split; auto; lia. Qed.

Lemma seg_of d i : wf_desc d -> 0 <= i < nd_fanout d ->
  0 <= i / nd_seg d < nd_nseg d /\ 0 <= i mod nd_seg d < nd_seg d /\
  i = i / nd_seg d * nd_seg d + i mod nd_seg d /\ (i / nd_seg d + 1) * nd_seg d <= nd_fanout d.
Proof.
  intros [Hs Hn Hf _ _] H.
  pose proof (Z.div_mod i (nd_seg d) ltac:(lia)). pose proof (Z.mod_pos_bound i (nd_seg d) Hs).
  assert (0 <= i / nd_seg d) by (apply Z.div_pos; lia).
  assert (i / nd_seg d < nd_nseg d) by (apply Z.div_lt_upper_bound; lia).
  repeat split; try lia. nia.
Qed.

Lemma seg_in d j : wf_desc d -> 0 <= j < nd_nseg d -> 0 <= j * nd_seg d /\ (j + 1) * nd_seg d <= nd_fanout d.
Proof. intros [] H. split; nia. Qed.

Lemma repr_ext d m p A A' : wf_desc d -> (forall i, 0 <= i < nd_fanout d -> A i = A' i) -> repr d m p A -> repr d m p A'.
Proof.
  intros W E [R1 R2]. split.
  - intros j Hj. rewrite R1 by auto. f_equal. apply sumf_ext. intros; apply E.
    pose proof (seg_in d j W Hj). destruct W; lia.
  - intros i Hi. rewrite R2 by auto. f_equal. apply sumf_ext. intros; apply E.
    pose proof (seg_of d i W Hi). destruct W; nia.
Qed.

(** ** Loads and stores succeed inside the node *)
Lemma load_sm_ok d m p j : wf_desc d -> node_in d m p -> 0 <= j < nd_nseg d -> load_sm d m p j = Ok (sm d m p j).
Proof. intros W [? ?] ?. nrange d p. unfold load_sm, sm. apply load_ok; lia. Qed.

Lemma load_ky_ok d m p i : wf_desc d -> node_in d m p -> 0 <= i < nd_fanout d -> load_ky d m p i = Ok (ky d m p i).
Proof. intros W [? ?] ?. nrange d p. unfold load_ky, ky. apply load_ok; lia. Qed.

Definition put_sm d m p j v := wr (nd_sb d) m (sm_addr d p j) v.
Definition put_ky d m p i v := wr (nd_kb d) m (ky_addr d p i) v.

Lemma store_sm_ok d m p j v : wf_desc d -> node_in d m p -> 0 <= j < nd_nseg d ->
  store_sm d m p j v = Ok (put_sm d m p j v).
Proof. intros W [? ?] ?. nrange d p. unfold store_sm, put_sm. apply store_ok; lia. Qed.

Lemma store_ky_ok d m p i v : wf_desc d -> node_in d m p -> 0 <= i < nd_fanout d ->
  store_ky d m p i v = Ok (put_ky d m p i v).
Proof. intros W [? ?] ?. nrange d p. unfold store_ky, put_ky. apply store_ok; lia. Qed.

Lemma put_sm_frame d m p j v : wf_desc d -> node_in d m p -> 0 <= j < nd_nseg d ->
  frame m (put_sm d m p j v) p (p + nd_bytes d).
Proof. intros W [? ?] ?. nrange d p. eapply frame_weaken; [apply frame_wr|..]; lia. Qed.

Lemma put_ky_frame d m p i v : wf_desc d -> node_in d m p -> 0 <= i < nd_fanout d ->
  frame m (put_ky d m p i v) p (p + nd_bytes d).
Proof. intros W [? ?] ?. nrange d p. eapply frame_weaken; [apply frame_wr|..]; lia. Qed.

Lemma sm_put_sm d m p j v j' : wf_desc d -> node_in d m p -> 0 <= j < nd_nseg d -> 0 <= j' < nd_nseg d ->
  sm d (put_sm d m p j v) p j' = if j' =? j then wrap (sbits d) v else sm d m p j'.
Proof.
  intros W [? ?] ? ?. nrange d p. unfold sm, put_sm. destruct (Z.eqb_spec j' j) as [->|N].
  - apply rd_wr_same_w; lia.
  - pose proof (sm_disj d p j j'). apply rd_wr_other; lia.
Qed.

Lemma ky_put_ky d m p i v i' : wf_desc d -> node_in d m p -> 0 <= i < nd_fanout d -> 0 <= i' < nd_fanout d ->
  ky d (put_ky d m p i v) p i' = if i' =? i then wrap (kbits d) v else ky d m p i'.
Proof.
  intros W [? ?] ? ?. nrange d p. unfold ky, put_ky. destruct (Z.eqb_spec i' i) as [->|N].
  - apply rd_wr_same_w; lia.
  - pose proof (ky_disj d p i i'). apply rd_wr_other; lia.
Qed.

Lemma sm_put_ky d m p i v j : wf_desc d -> node_in d m p -> 0 <= i < nd_fanout d -> 0 <= j < nd_nseg d ->
  sm d (put_ky d m p i v) p j = sm d m p j.
Proof. intros W [? ?] ? ?. nrange d p. unfold sm, put_ky. apply rd_wr_other; lia. Qed.

Lemma ky_put_sm d m p j v i : wf_desc d -> node_in d m p -> 0 <= j < nd_nseg d -> 0 <= i < nd_fanout d ->
  ky d (put_sm d m p j v) p i = ky d m p i.
Proof. intros W [? ?] ? ?. nrange d p. unfold ky, put_sm. apply rd_wr_other; lia. Qed.

(** ** Loops *)
Lemma foldM_inv {S} (f : S -> Z -> res S) (P : Z -> S -> Prop) n : forall lo s,
  P lo s ->
  (forall k s, lo <= k < lo + Z.of_nat n -> P k s -> exists s', f s k = Ok s' /\ P (k + 1) s') ->
  exists s', foldM f (zrange lo n) s = Ok s' /\ P (lo + Z.of_nat n) s'.
Proof.
  induction n; intros lo s H0 HS.
  - exists s. cbn. replace (lo + 0) with lo by lia. auto.
  - destruct (HS lo s ltac:(lia) H0) as (s1 & E1 & H1).
    destruct (IHn (lo + 1) s1 H1) as (s2 & E2 & H2).
    { intros; apply HS; auto; lia. }
    exists s2. cbn [zrange foldM]. rewrite E1. cbn [bind]. rewrite E2. split; auto.
    replace (lo + Z.of_nat (Datatypes.S n)) with (lo + 1 + Z.of_nat n) by lia. auto.
Qed.

(** Values whose prefix sums fit the node's element types. *)
Record range (d : ndesc) (A : Z -> Z) : Prop := {
  rg_pos : forall i, 0 <= i < nd_fanout d -> 0 <= A i;
  rg_seg : forall j, 0 <= j < nd_nseg d -> sumf A (j * nd_seg d) ((j + 1) * nd_seg d) < 2 ^ kbits d;
  rg_tot : sumf A 0 (nd_fanout d) < 2 ^ sbits d }.

(** ** build_node *)
Lemma build_node_ok d input m out : wf_desc d -> node_in d m out -> nd_fanout d <= zlen input ->
  range d (zn 0 input) ->
  exists m', build_node d input m out = Ok m' /\ repr d m' out (zn 0 input) /\ frame m m' out (out + nd_bytes d).
Proof.
  intros W I HL RG. unfold build_node.
  pose proof W as W'. destruct W'. pose proof I as I'. destruct I' as [I1 I2].
  assert (Hb : 0 <= nd_bytes d) by (unfold nd_bytes; nia).
  rewrite storeu_ok; [|lia|rewrite repeat_length; lia].
  cbn [bind]. set (m1 := wrv 1 m out _).
  assert (F1 : frame m m1 out (out + nd_bytes d)).
  { eapply frame_weaken; [apply frame_wrv|..]; rewrite ?zlen_repeat; lia. }
  pose proof (frame_in d _ _ _ _ _ F1 I) as In1.
  rewrite store_sm_ok by (auto; lia). cbn [bind].
  set (m2 := put_sm d m1 out 0 0).
  assert (F2 : frame m m2 out (out + nd_bytes d)).
  { eapply frame_trans; [exact F1|]. apply put_sm_frame; auto; lia. }
  pose (P := fun i s => frame m s out (out + nd_bytes d) /\
     (forall j, 0 <= j < nd_nseg d -> j <= i -> sm d s out j = wrap (sbits d) (sumf (zn 0 input) 0 (j * nd_seg d))) /\
     (forall t, 0 <= t < i * nd_seg d ->
        ky d s out t = wrap (kbits d) (sumf (zn 0 input) (t / nd_seg d * nd_seg d) (t + 1)))).
  destruct (foldM_inv
    (fun m0 i => let* v := geti input (i * nd_seg d) in
       let* m3 := store_ky d m0 out (i * nd_seg d) v in
       let* m4 := foldM (fun m4 j => let* a := load_ky d m4 out (i * nd_seg d + (j - 1)) in
             let* b := geti input (i * nd_seg d + j) in store_ky d m4 out (i * nd_seg d + j) (a + b))
           (zrange 1 (Z.to_nat (nd_seg d - 1))) m3 in
       if i + 1 <? nd_nseg d then
         let* a := load_sm d m4 out i in
         let* b := load_ky d m4 out (i * nd_seg d + (nd_seg d - 1)) in
         store_sm d m4 out (i + 1) (a + b)
       else Ok m4) P (Z.to_nat (nd_nseg d)) 0 m2) as (m' & E & HP).
  - repeat split.
    + apply F2.
    + apply F2.
    + intros j Hj Hj0. replace j with 0 by lia. unfold m2.
      rewrite sm_put_sm by (auto; lia). rewrite Z.eqb_refl.
      rewrite sumf_empty by lia. reflexivity.
    + intros; lia.
  - intros i s Hi (FS & PS & PK).
    assert (Hseg : (i + 1) * nd_seg d <= nd_fanout d) by nia.
    rewrite geti_ok by nia. cbn [bind].
    pose proof (frame_in d _ _ _ _ _ FS I) as InS.
    rewrite store_ky_ok by (auto; nia). cbn [bind].
    pose (Q := fun j s' => frame m s' out (out + nd_bytes d) /\
       (forall j', 0 <= j' < nd_nseg d -> j' <= i -> sm d s' out j' = wrap (sbits d) (sumf (zn 0 input) 0 (j' * nd_seg d))) /\
       (forall t, 0 <= t < i * nd_seg d + j ->
          ky d s' out t = wrap (kbits d) (sumf (zn 0 input) (t / nd_seg d * nd_seg d) (t + 1)))).
    destruct (foldM_inv
      (fun m4 j => let* a := load_ky d m4 out (i * nd_seg d + (j - 1)) in
             let* b := geti input (i * nd_seg d + j) in store_ky d m4 out (i * nd_seg d + j) (a + b))
      Q (Z.to_nat (nd_seg d - 1)) 1 (put_ky d s out (i * nd_seg d) (zn 0 input (i * nd_seg d)))) as (s4 & E4 & F4 & Q1 & Q2).
    + repeat split.
      * destruct (put_ky_frame d s out (i * nd_seg d) (zn 0 input (i * nd_seg d))) as [L _]; auto; [nia|].
        destruct FS; congruence.
      * eapply frame_trans; [apply FS|]. apply put_ky_frame; auto; nia.
      * intros. rewrite sm_put_ky by (auto; nia). apply PS; lia.
      * intros t Ht. rewrite ky_put_ky by (auto; nia).
        destruct (Z.eqb_spec t (i * nd_seg d)) as [->|N]; [|apply PK; nia].
        rewrite Z.div_mul by lia. rewrite sumf_one. reflexivity.
    + intros j s' Hj (F' & Q1 & Q2).
      pose proof (frame_in d _ _ _ _ _ F' I) as In'.
      rewrite load_ky_ok by (auto; nia). cbn [bind].
      rewrite geti_ok by nia. cbn [bind].
      rewrite store_ky_ok by (auto; nia).
      eexists; split; [reflexivity|]. repeat split.
      * destruct (put_ky_frame d s' out (i * nd_seg d + j) (ky d s' out (i * nd_seg d + (j - 1)) + zn 0 input (i * nd_seg d + j))) as [L _]; auto; [nia|].
        destruct F'; congruence.
      * eapply frame_trans; [apply F'|]. apply put_ky_frame; auto; nia.
      * intros. rewrite sm_put_ky by (auto; nia). apply Q1; lia.
      * intros t Ht. rewrite ky_put_ky by (auto; nia).
        destruct (Z.eqb_spec t (i * nd_seg d + j)) as [->|N]; [|apply Q2; nia].
        rewrite Q2 by nia. fold (kbits d). rewrite wrap_add_l. f_equal.
        assert (D1 : (i * nd_seg d + (j - 1)) / nd_seg d = i).
        { symmetry. apply Z.div_unique with (r := j - 1); lia. }
        assert (D2 : (i * nd_seg d + j) / nd_seg d = i).
        { symmetry. apply Z.div_unique with (r := j); lia. }
        rewrite D1, D2. replace (i * nd_seg d + (j - 1) + 1) with (i * nd_seg d + j) by lia.
        rewrite sumf_succ by lia. reflexivity.
    + rewrite E4. cbn [bind].
      pose proof (frame_in d _ _ _ _ _ F4 I) as In4.
      replace (1 + Z.of_nat (Z.to_nat (nd_seg d - 1))) with (nd_seg d) in Q2 by lia.
      destruct (Z.ltb_spec (i + 1) (nd_nseg d)).
      * rewrite load_sm_ok by (auto; lia). cbn [bind].
        rewrite load_ky_ok by (auto; nia). cbn [bind].
        rewrite store_sm_ok by (auto; lia).
        eexists; split; [reflexivity|]. repeat split.
        -- match goal with |- zlen (put_sm ?d ?m ?p ?j ?v) = _ =>
             destruct (put_sm_frame d m p j v) as [L _]; auto; [lia|] end.
           destruct F4; congruence.
        -- eapply frame_trans; [apply F4|]. apply put_sm_frame; auto; lia.
        -- intros j Hj Hji. rewrite sm_put_sm by (auto; lia).
           destruct (Z.eqb_spec j (i + 1)) as [->|N]; [|apply Q1; lia].
           rewrite Q1 by lia. rewrite Q2 by nia.
           fold (sbits d).
           assert (D1 : (i * nd_seg d + (nd_seg d - 1)) / nd_seg d = i).
           { symmetry. apply Z.div_unique with (r := nd_seg d - 1); lia. }
           rewrite D1. replace (i * nd_seg d + (nd_seg d - 1) + 1) with ((i + 1) * nd_seg d) by lia.
           rewrite (wrap_small (kbits d)).
           2:{ split; [|apply (rg_seg d _ RG); lia].
               apply sumf_nonneg. intros t Ht. apply (rg_pos d _ RG). nia. }
           rewrite wrap_add_l. f_equal. symmetry. apply sumf_split. nia.
        -- intros t Ht. rewrite ky_put_sm by (auto; nia). apply Q2. nia.
      * exists s4. split; [reflexivity|]. repeat split.
        -- apply F4.
        -- apply F4.
        -- intros; apply Q1; lia.
        -- intros; apply Q2; nia.
  - exists m'. rewrite E. replace (0 + Z.of_nat (Z.to_nat (nd_nseg d))) with (nd_nseg d) in HP by lia.
    destruct HP as (F & HS & HK). repeat split; try apply F.
    + intros; apply HS; lia.
    + intros; apply HK. nia.
Qed.

(** ** sum *)
Lemma sm_val d m p A j : wf_desc d -> repr d m p A -> range d A -> 0 <= j < nd_nseg d ->
  sm d m p j = sumf A 0 (j * nd_seg d).
Proof.
  intros W [R1 _] [G1 _ G3] Hj. rewrite R1 by auto.
  pose proof (seg_in d j W Hj) as [? ?]. pose proof (wf_seg d W).
  apply wrap_small. split.
  - apply sumf_nonneg. intros; apply G1. lia.
  - eapply Z.le_lt_trans; [|exact G3]. apply sumf_mono; [lia|]. intros; apply G1; lia.
Qed.

Lemma ky_val d m p A i : wf_desc d -> repr d m p A -> range d A -> 0 <= i < nd_fanout d ->
  ky d m p i = sumf A (i / nd_seg d * nd_seg d) (i + 1).
Proof.
  intros W [_ R2] [G1 G2 _] Hi. rewrite R2 by auto.
  pose proof (seg_of d i W Hi) as (H1 & H2 & H3 & H4). pose proof (wf_seg d W).
  assert (0 <= i / nd_seg d * nd_seg d) by nia.
  apply wrap_small. split.
  - apply sumf_nonneg. intros; apply G1. lia.
  - eapply Z.le_lt_trans; [|apply (G2 (i / nd_seg d)); auto].
    apply sumf_mono; [lia|]. intros; apply G1; lia.
Qed.

Lemma sm_ky_val d m p A i : wf_desc d -> repr d m p A -> range d A -> 0 <= i < nd_fanout d ->
  sm d m p (i / nd_seg d) + ky d m p i = sumf A 0 (i + 1).
Proof.
  intros W R G Hi. pose proof (seg_of d i W Hi) as (H1 & H2 & H3 & H4). pose proof (wf_seg d W).
  rewrite (sm_val d m p A), (ky_val d m p A) by auto. symmetry. apply sumf_split. nia.
Qed.

Lemma node_sum_ok c n m p A i : node_in (desc n) m p -> repr (desc n) m p A -> range (desc n) A ->
  0 <= i < nd_fanout (desc n) -> node_sum c n m p i = Ok (sumf A 0 (i + 1)).
Proof.
  intros I R G Hi. pose proof (desc_wf n) as W. unfold node_sum.
  rewrite massert_true by lia. cbn [bind].
  pose proof (seg_of _ i W Hi) as (H1 & H2 & H3 & H4).
  rewrite load_sm_ok, load_ky_ok by auto. cbn [bind].
  rewrite (sm_ky_val _ m p A) by auto. f_equal. apply wrap_small. fold (sbits (desc n)).
  destruct G as [G1 G2 G3]. split.
  - apply sumf_nonneg. intros; apply G1; lia.
  - eapply Z.le_lt_trans; [|exact G3]. apply sumf_mono; [lia|]. intros; apply G1; lia.
Qed.

(** ** update *)
Definition in_type (d : ndesc) (m : list Z) (p : Z) : Prop :=
  (forall j, 0 <= j < nd_nseg d -> wrap (sbits d) (sm d m p j) = sm d m p j) /\
  (forall t, 0 <= t < nd_fanout d -> wrap (kbits d) (ky d m p t) = ky d m p t).

Lemma repr_in_type d m p A : repr d m p A -> in_type d m p.
Proof.
  intros [R1 R2]; split; intros; rewrite ?R1, ?R2 by auto; apply wrap_wrap; unfold sbits, kbits; lia.
Qed.

Definition upd_eff (d : ndesc) (m m' : list Z) (p i delta : Z) : Prop :=
  frame m m' p (p + nd_bytes d) /\
  (forall j, 0 <= j < nd_nseg d ->
     sm d m' p j = wrap (sbits d) (sm d m p j + if i / nd_seg d <? j then delta else 0)) /\
  (forall t, 0 <= t < nd_fanout d ->
     ky d m' p t =
       wrap (kbits d) (ky d m p t + if (t / nd_seg d =? i / nd_seg d) && (i <=? t) then delta else 0)).

Lemma upd_eff_repr d m m' p i delta A : wf_desc d -> 0 <= i < nd_fanout d ->
  repr d m p A -> upd_eff d m m' p i delta -> repr d m' p (fadd A i delta).
Proof.
  intros W Hi [R1 R2] (_ & U1 & U2). pose proof (wf_seg d W) as Hs.
  pose proof (seg_of d i W Hi) as (I1 & I2 & I3 & I4).
  split.
  - intros j Hj. rewrite U1, R1 by auto. rewrite wrap_add_l. f_equal.
    rewrite sumf_fadd by nia. f_equal.
    destruct (Z.ltb_spec (i / nd_seg d) j), (Z.leb_spec 0 i), (Z.ltb_spec i (j * nd_seg d)); cbn; try lia; nia.
  - intros t Ht. rewrite U2, R2 by auto. rewrite wrap_add_l. f_equal.
    pose proof (seg_of d t W Ht) as (T1 & T2 & T3 & T4).
    rewrite sumf_fadd by lia. f_equal.
    destruct (Z.eqb_spec (t / nd_seg d) (i / nd_seg d)) as [E|E].
    + rewrite E in *. destruct (Z.leb_spec i t), (Z.leb_spec (i / nd_seg d * nd_seg d) i), (Z.ltb_spec i (t + 1)); cbn; lia.
    + cbn. destruct (Z.leb_spec (t / nd_seg d * nd_seg d) i), (Z.ltb_spec i (t + 1)); cbn; try reflexivity.
      exfalso. apply E. apply (Z.div_unique i (nd_seg d) _ (i - t / nd_seg d * nd_seg d)); lia.
Qed.

Definition sdelta (sign : bool) : Z := if sign then -1 else 1.

Lemma update_scalar_ok d m p i sign : wf_desc d -> node_in d m p -> in_type d m p -> 0 <= i < nd_fanout d ->
  exists m', update_scalar d m p i sign = Ok m' /\ upd_eff d m m' p i (sdelta sign).
Proof.
  intros W I [T1 T2] Hi. unfold update_scalar.
  replace (nd_fanout d <? i) with false by lia.
  pose proof (wf_seg d W) as Hs.
  pose proof (seg_of d i W Hi) as (I1 & I2 & I3 & I4).
  set (J := i / nd_seg d) in *. set (K := i mod nd_seg d) in *.
  fold (sdelta sign). set (dl := sdelta sign).
  pose (P := fun z s => frame m s p (p + nd_bytes d) /\
     (forall j, 0 <= j < nd_nseg d -> sm d s p j = wrap (sbits d) (sm d m p j + if (J <? j) && (j <? z) then dl else 0)) /\
     (forall t, 0 <= t < nd_fanout d -> ky d s p t = ky d m p t)).
  match goal with |- context [foldM ?f (zrange (J + 1) ?n) m] =>
    destruct (foldM_inv f P n (J + 1) m) as (m1 & E1 & F1 & S1 & K1) end.
  - repeat split; auto.
    intros j Hj. replace ((J <? j) && (j <? J + 1)) with false by lia. rewrite Z.add_0_r. symmetry; auto.
  - intros z s Hz (F & S1 & K1). pose proof (frame_in d _ _ _ _ _ F I) as Is.
    rewrite load_sm_ok by (auto; lia). cbn [bind]. rewrite store_sm_ok by (auto; lia).
    eexists; split; [reflexivity|]. split; [|split].
    + eapply frame_trans; [exact F|]. apply put_sm_frame; auto; lia.
    + intros j Hj. rewrite sm_put_sm by (auto; lia). destruct (Z.eqb_spec j z) as [->|N].
      * rewrite S1 by lia. replace ((J <? z) && (z <? z)) with false by lia.
        replace ((J <? z) && (z <? z + 1)) with true by lia.
        rewrite wrap_add_l. f_equal. lia.
      * rewrite S1 by lia. replace (j <? z + 1) with (j <? z) by lia. reflexivity.
    + intros t Ht. rewrite ky_put_sm by (auto; lia). auto.
  - rewrite E1. cbn [bind].
    replace (J + 1 + Z.of_nat (Z.to_nat (nd_nseg d - (J + 1)))) with (nd_nseg d) in S1 by lia.
    pose (Q := fun z s => frame m s p (p + nd_bytes d) /\
     (forall j, 0 <= j < nd_nseg d -> sm d s p j = wrap (sbits d) (sm d m p j + if J <? j then dl else 0)) /\
     (forall t, 0 <= t < nd_fanout d -> ky d s p t = wrap (kbits d) (ky d m p t + if (i <=? t) && (t <? J * nd_seg d + z) then dl else 0))).
    match goal with |- context [foldM ?f (zrange K ?n) m1] =>
      destruct (foldM_inv f Q n K m1) as (m2 & E2 & F2 & S2 & K2) end.
    + split; [auto|]. split.
      * intros j Hj. rewrite S1 by auto. replace ((J <? j) && (j <? nd_nseg d)) with (J <? j) by lia. reflexivity.
      * intros t Ht. rewrite K1 by auto. replace ((i <=? t) && (t <? J * nd_seg d + K)) with false by lia.
        rewrite Z.add_0_r. symmetry; auto.
    + intros z s Hz (F & S3 & K3). pose proof (frame_in d _ _ _ _ _ F I) as Is.
      assert (0 <= J * nd_seg d) by (apply Z.mul_nonneg_nonneg; lia).
      rewrite load_ky_ok by (auto; lia). cbn [bind]. rewrite store_ky_ok by (auto; lia).
      eexists; split; [reflexivity|]. split; [|split].
      * eapply frame_trans; [exact F|]. apply put_ky_frame; auto; lia.
      * intros j Hj. rewrite sm_put_ky by (auto; lia). auto.
      * intros t Ht. rewrite ky_put_ky by (auto; lia). destruct (Z.eqb_spec t (J * nd_seg d + z)) as [->|N].
        -- rewrite K3 by lia.
           replace ((i <=? J * nd_seg d + z) && (J * nd_seg d + z <? J * nd_seg d + z)) with false by lia.
           replace ((i <=? J * nd_seg d + z) && (J * nd_seg d + z <? J * nd_seg d + (z + 1))) with true by lia.
           rewrite wrap_add_l. f_equal. lia.
        -- rewrite K3 by lia. replace (t <? J * nd_seg d + (z + 1)) with (t <? J * nd_seg d + z) by lia. reflexivity.
    + exists m2. split; [exact E2|]. split; [exact F2|]. split; [exact S2|].
      intros t Ht. fold J. rewrite K2 by auto. do 2 f_equal.
      pose proof (seg_of d t W Ht) as (T3 & T4 & T5 & T6).
      replace (K + Z.of_nat (Z.to_nat (nd_seg d - K))) with (nd_seg d) by lia.
      destruct (Z.eqb_spec (t / nd_seg d) J) as [E|E]; cbn [andb].
      * rewrite E in *. replace (t <? J * nd_seg d + nd_seg d) with true by lia. rewrite andb_true_r. reflexivity.
      * destruct (Z.leb_spec i t), (Z.ltb_spec t (J * nd_seg d + nd_seg d)); cbn; try reflexivity.
        exfalso. apply E. symmetry. apply (Z.div_unique t (nd_seg d) _ (t - J * nd_seg d)); lia.
Qed.

(** A row of [n] lanes whose entry [l] is [e l], as seen by [tbl_row]. *)
Definition is_row (bits : Z) (n : Z) (row : res (list Z)) (e : Z -> Z) : Prop :=
  exists r, row = Ok r /\ zlen r = n /\ forall l, 0 <= l < n -> zn 0 r l = wrap bits (e l).

Lemma zlen_rdv w n m off : zlen (rdv w n m off) = Z.of_nat n.
Proof. unfold zlen; now rewrite length_rdv. Qed.

Lemma of_nat_len {T} w (v : list T) : Z.of_nat (w * length v) = Z.of_nat w * zlen v.
Proof. unfold zlen. lia. Qed.

Lemma ky_seg_range d p j : wf_desc d -> 0 <= j -> (j + 1) * nd_seg d <= nd_fanout d ->
  p + nd_nseg d * Z.of_nat (nd_sb d) <= ky_addr d p (j * nd_seg d) /\
  ky_addr d p (j * nd_seg d) + Z.of_nat (nd_kb d) * nd_seg d <= p + nd_bytes d.
Proof. intros [] H1 H2. unfold ky_addr, nd_bytes. nia. Qed.

Lemma ky_seg_disj d p j j' u : wf_desc d -> 0 <= u < nd_seg d -> j <> j' ->
  ky_addr d p (j' * nd_seg d + u) + Z.of_nat (nd_kb d) <= ky_addr d p (j * nd_seg d) \/
  ky_addr d p (j * nd_seg d) + Z.of_nat (nd_kb d) * nd_seg d <= ky_addr d p (j' * nd_seg d + u).
Proof.
  intros [] Hu Hj. unfold ky_addr. assert (j' < j \/ j < j') as [L|L] by lia; [left|right].
  - assert (j' * nd_seg d + u + 1 <= j * nd_seg d) by nia. nia.
  - assert (j * nd_seg d + nd_seg d <= j' * nd_seg d + u) by nia. nia.
Qed.

Lemma vec_add_ok w n m a r : 0 <= a -> 0 <= n -> a + Z.of_nat w * n <= zlen m -> zlen r = n ->
  exists m', storeu w m a (vadd (8 * Z.of_nat w) (rdv w (Z.to_nat n) m a) r) = Ok m' /\
    frame m m' a (a + Z.of_nat w * n) /\
    forall l, 0 <= l < n -> rd w m' (a + Z.of_nat w * l) =
      wrap (8 * Z.of_nat w) (rd w m (a + Z.of_nat w * l) + zn 0 r l).
Proof.
  intros Ha Hn Hm Hr.
  assert (LV : zlen (rdv w (Z.to_nat n) m a) = n) by (rewrite zlen_rdv; lia).
  assert (LA : zlen (vadd (8 * Z.of_nat w) (rdv w (Z.to_nat n) m a) r) = n)
    by (unfold vadd; rewrite zlen_map2; lia).
  rewrite storeu_ok; [|lia|rewrite of_nat_len, LA; lia].
  eexists; split; [reflexivity|]. split.
  - eapply frame_weaken; [apply frame_wrv|..]; rewrite ?LA; lia.
  - intros l Hl. rewrite rd_wrv_same by lia.
    unfold vadd. rewrite zn_map2 with (da := 0) (db := 0) by lia.
    rewrite wrap_wrap by lia. rewrite zn_rdv by lia. reflexivity.
Qed.

Lemma update_vector_ok c base d al row1 row2 m p i delta : wf_desc d -> node_in d m p -> in_type d m p ->
  0 <= i < nd_fanout d ->
  (al = true -> c_trap c = true -> (base + p) mod (Z.of_nat (nd_sb d) * nd_nseg d) = 0) ->
  is_row (sbits d) (nd_nseg d) row1 (fun l => if i / nd_seg d <? l then delta else 0) ->
  is_row (kbits d) (nd_seg d) row2 (fun l => if i mod nd_seg d <=? l then delta else 0) ->
  exists m', update_vector c base d al row1 row2 m p (i / nd_seg d) = Ok m' /\ upd_eff d m m' p i delta.
Proof.
  intros W I [T1 T2] Hi AL (r1 & -> & L1 & Z1) (r2 & -> & L2 & Z2). unfold update_vector, upd_eff. cbn [bind].
  pose proof (wf_seg d W) as Hs. pose proof (wf_nseg d W) as Hn.
  pose proof (seg_of d i W Hi) as (I1 & I2 & I3 & I4).
  pose proof (sm_bytes d W) as HB. destruct I as [Ip Ib].
  remember (i / nd_seg d) as J eqn:EJ. remember (i mod nd_seg d) as K eqn:EK. clear EJ EK.
  assert (A0 : sm_addr d p 0 = p) by (unfold sm_addr; lia).
  assert (E1 : (if al then load_aligned (c_trap c) base (nd_sb d) (Z.to_nat (nd_nseg d)) m (sm_addr d p 0)
                else loadu (nd_sb d) (Z.to_nat (nd_nseg d)) m (sm_addr d p 0)) =
               Ok (rdv (nd_sb d) (Z.to_nat (nd_nseg d)) m p)).
  { assert (SB : Z.of_nat (nd_sb d * Z.to_nat (nd_nseg d)) = Z.of_nat (nd_sb d) * nd_nseg d) by lia.
    rewrite A0. destruct al.
    - apply load_aligned_ok; [lia|lia|]. rewrite SB. auto.
    - apply loadu_ok; lia. }
  rewrite E1. cbn [bind]. rewrite A0. clear E1.
  destruct (vec_add_ok (nd_sb d) (nd_nseg d) m p r1) as (m1 & S1 & F1 & V1); [lia|lia|lia|lia|].
  rewrite S1. cbn [bind]. clear S1.
  destruct (ky_seg_range d p J W (proj1 I1) I4) as [KB KS].
  assert (LM1 : zlen m1 = zlen m) by apply F1.
  rewrite loadu_ok by lia. cbn [bind].
  destruct (vec_add_ok (nd_kb d) (nd_seg d) m1 (ky_addr d p (J * nd_seg d)) r2) as (m2 & S2 & F2 & V2); [lia|lia|lia|lia|].
  rewrite S2. clear S2. exists m2; split; [reflexivity|]. split; [|split].
  - eapply frame_trans.
    + eapply frame_weaken; [exact F1|..]; lia.
    + eapply frame_weaken; [exact F2|..]; lia.
  - clear Z2 V2. intros j Hj. unfold sm at 1. pose proof (sm_range d p j W Hj).
    erewrite frame_rd; [|exact F2|lia|lia].
    unfold sm_addr. rewrite V1 by lia. rewrite Z1 by lia. apply wrap_add_r.
  - clear Z1 V1. intros t Ht. pose proof (seg_of d t W Ht) as (T3 & T4 & T5 & T6). pose proof (ky_range d p t W Ht).
    specialize (T2 t Ht).
    remember (t / nd_seg d) as J' eqn:EJ. remember (t mod nd_seg d) as u eqn:EK. clear EJ EK.
    destruct (Z.eqb_spec J' J) as [->|E]; cbn [andb].
    + assert (AT : ky_addr d p t = ky_addr d p (J * nd_seg d) + Z.of_nat (nd_kb d) * u)
        by (unfold ky_addr; rewrite T5; ring).
      unfold ky at 1. rewrite AT. rewrite V2 by lia. rewrite Z2 by lia. fold (kbits d). rewrite wrap_add_r.
      rewrite <- AT. f_equal. f_equal.
      * unfold ky. eapply frame_rd; [exact F1|lia|lia].
      * replace (i <=? t) with (K <=? u) by lia. reflexivity.
    + rewrite Z.add_0_r, T2. unfold ky.
      assert (D : ky_addr d p t + Z.of_nat (nd_kb d) <= ky_addr d p (J * nd_seg d) \/
                  ky_addr d p (J * nd_seg d) + Z.of_nat (nd_kb d) * nd_seg d <= ky_addr d p t).
      { rewrite T5. apply ky_seg_disj; auto. }
      erewrite frame_rd; [|exact F2|lia|lia].
      eapply frame_rd; [exact F1|lia|lia].
Qed.

Lemma forallb_zrange (f : Z -> bool) lo n : forallb f (zrange lo n) = true -> forall k, lo <= k < lo + Z.of_nat n -> f k = true.
Proof. intros H k Hk. rewrite forallb_forall in H. apply H. apply in_zrange. auto. Qed.

(** Row [r0 + sg * stride] of the table holds the sign at the lanes from [r0 - off] on. *)
Definition tbl_check (tbl : list Z) (n : nat) (rows stride off : Z) : bool :=
  forallb (fun r => forallb (fun sg =>
    ((r + sg * stride + 1) * Z.of_nat n <=? zlen tbl) &&
    forallb (fun l => zn 0 tbl ((r + sg * stride) * Z.of_nat n + l) =?
                      (if r <=? l + off then (if sg =? 0 then 1 else -1) else 0))
      (zrange 0 n)) [0; 1]) (zrange 0 (Z.to_nat rows)).

Lemma tbl_check_row bits tbl n rows stride off r sign : tbl_check tbl n rows stride off = true ->
  0 <= stride -> 0 <= r < rows ->
  is_row bits (Z.of_nat n) (tbl_row bits n tbl (r + b2z sign * stride))
    (fun l => if r <=? l + off then sdelta sign else 0).
Proof.
  intros H Hs Hr. unfold tbl_check in H.
  pose proof (forallb_zrange _ _ _ H r ltac:(lia)) as Hk. cbv beta in Hk.
  rewrite forallb_forall in Hk. specialize (Hk (b2z sign)).
  assert (IN : In (b2z sign) [0; 1]) by (destruct sign; cbn; auto).
  specialize (Hk IN). apply andb_prop in Hk as [L Hk]. apply Z.leb_le in L.
  assert (0 <= b2z sign <= 1) by (destruct sign; cbn; lia).
  unfold is_row. rewrite tbl_row_ok by nia.
  eexists; split; [reflexivity|]. split; [rewrite zlen_map; unfold zlen; rewrite length_zrange; lia|].
  intros l Hl. rewrite zn_map with (da := 0) by (unfold zlen; rewrite length_zrange; lia).
  rewrite zn_zrange by lia. rewrite Z.add_0_l.
  pose proof (forallb_zrange _ _ _ Hk l ltac:(lia)) as Hl'. cbv beta in Hl'.
  apply Z.eqb_eq in Hl'. rewrite Hl'. destruct sign; reflexivity.
Qed.

Lemma is_row_ext bits n row e e' : (forall l, 0 <= l < n -> e l = e' l) -> is_row bits n row e -> is_row bits n row e'.
Proof. intros H (r & E & L & Z1). exists r; repeat split; auto. intros; rewrite Z1, H; auto. Qed.

Lemma chk_8_32 : tbl_check update_8_32 8 9 9 0 = true. Proof. vm_compute; reflexivity. Qed.
Lemma chk_16_16 : tbl_check update_16_16 16 16 16 0 = true. Proof. vm_compute; reflexivity. Qed.
Lemma chk_4_64 : tbl_check update_4_64 4 4 4 (-1) = true. Proof. vm_compute; reflexivity. Qed.
Lemma chk_16_32 : tbl_check update_16_32 16 17 17 0 = true. Proof. vm_compute; reflexivity. Qed.
Lemma chk_32_16 : tbl_check update_32_16 32 32 32 0 = true. Proof. vm_compute; reflexivity. Qed.
Lemma chk_8_64 : tbl_check update_8_64 8 8 8 (-1) = true. Proof. vm_compute; reflexivity. Qed.

(** Does this build run the vector body for this class? *)
Definition vectorised (c : cfg) (n : node) : bool :=
  match n with A2_128 | A2_64 | A2_32 => c_avx2 c | _ => c_avx512 c end.

(** The aligned load in avx2 node128. *)
Definition al_ok (c : cfg) (n : node) (base p : Z) : Prop :=
  n = A2_128 -> c_avx2 c = true -> c_trap c = true -> (base + p) mod 32 = 0.

Ltac row chk :=
  eapply is_row_ext; [|eapply tbl_check_row with (1 := chk)];
  [intros l Hl; cbv beta; cbn [desc nd_seg nd_nseg] in *;
   match goal with |- (if ?a then _ else _) = (if ?b then _ else _) => replace a with b by lia; reflexivity end
  |lia|cbn [desc nd_seg nd_nseg nd_fanout] in *; lia].

Lemma node_update_ok c base n m p i sign : node_in (desc n) m p -> in_type (desc n) m p ->
  0 <= i < nd_fanout (desc n) -> al_ok c n base p ->
  exists m', node_update c base n m p i sign = Ok m' /\ upd_eff (desc n) m m' p i (sdelta sign).
Proof.
  intros I T Hi AL. pose proof (desc_wf n) as W. unfold node_update.
  replace (i =? nd_fanout (desc n)) with false by lia.
  rewrite massert_true by lia. cbn [bind].
  pose proof (seg_of _ i W Hi) as (I1 & I2 & I3 & I4).
  destruct n;
    match goal with |- exists _, (if ?b then _ else _) = _ /\ _ => destruct b eqn:EB end;
    try (apply update_scalar_ok; auto; fail);
    (apply update_vector_ok; [auto|auto|auto|auto| | | ]; [try discriminate; auto|..]).
  - row chk_8_32.
  - row chk_16_16.
  - row chk_8_32.
  - row chk_8_32.
  - row chk_4_64.
  - row chk_8_32.
  - row chk_16_32.
  - row chk_32_16.
  - row chk_16_32.
  - row chk_16_32.
  - row chk_8_64.
  - row chk_16_32.
Qed.

Lemma node_update_fanout c base n m p sign : node_update c base n m p (nd_fanout (desc n)) sign = Ok m.
Proof. unfold node_update. rewrite Z.eqb_refl. reflexivity. Qed.
