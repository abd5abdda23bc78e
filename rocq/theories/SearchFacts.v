(** Correctness of the search of the node classes. *)
From Verif Require Import Base BaseFacts Mem MemFacts Tables Nodes NodeFacts.

(** [t] is the first index of [0,n) whose value exceeds [x], or [n]. *)
Definition first_gt (g : Z -> Z) (x n t : Z) : Prop :=
  0 <= t <= n /\ (forall u, 0 <= u < t -> g u <= x) /\ (t < n -> x < g t).

Lemma first_gt_unique g x n t t' : first_gt g x n t -> first_gt g x n t' -> t = t'.
Proof.
  intros (B & L & G) (B' & L' & G').
  assert (t < t' \/ t' < t \/ t = t') as [H|[H|H]] by lia; auto.
  - specialize (L' t ltac:(lia)). specialize (G ltac:(lia)). lia.
  - specialize (L t' ltac:(lia)). specialize (G' ltac:(lia)). lia.
Qed.

Lemma first_gt_ext g g' x n t : (forall u, 0 <= u < n -> g u = g' u) -> first_gt g x n t -> first_gt g' x n t.
Proof.
  intros E (B & L & G). split; [lia|]. split.
  - intros u Hu. rewrite <- E by lia. auto.
  - intros H. rewrite <- E by lia. auto.
Qed.

Lemma scan_gt_ok ld g x n : forall a i, (forall u, 0 <= u < Z.of_nat n -> ld (a + u) = Ok (g u)) ->
  exists t, scan_gt ld x (zrange a n) i = Ok (i + t) /\ first_gt g x (Z.of_nat n) t.
Proof.
  revert g. induction n; intros g a i H; cbn [zrange scan_gt].
  - exists 0. rewrite Z.add_0_r. split; auto. repeat split; intros; lia.
  - pose proof (H 0 ltac:(lia)) as H0. rewrite Z.add_0_r in H0. rewrite H0. cbn [bind].
    destruct (Z.ltb_spec x (g 0)) as [L|L].
    + exists 0. rewrite Z.add_0_r. split; auto. repeat split; intros; try lia.
    + destruct (IHn (fun u => g (u + 1)) (a + 1) (i + 1)) as (t & E & B & F1 & F2).
      { intros u Hu. replace (a + 1 + u) with (a + (u + 1)) by lia. apply H. lia. }
      exists (t + 1). split; [rewrite E; f_equal; lia|]. split; [lia|]. split.
      * intros u Hu. destruct (Z.eq_dec u 0) as [->|N]; [lia|].
        replace u with (u - 1 + 1) by lia. apply F1. lia.
      * intros Ht. apply F2. lia.
Qed.

Lemma first_gt_ex g x n : 0 <= n -> exists t, first_gt g x n t.
Proof.
  intros Hn. destruct (scan_gt_ok (fun u => Ok (g u)) g x (Z.to_nat n) 0 0) as (t & _ & F).
  - intros; reflexivity.
  - exists t. replace (Z.of_nat (Z.to_nat n)) with n in F by lia. exact F.
Qed.

(** Comparison lanes of a sorted vector. *)
Definition thr (n t : Z) : list bool := repeat false (Z.to_nat t) ++ repeat true (Z.to_nat (n - t)).

Lemma zlen_thr n t : 0 <= t <= n -> zlen (thr n t) = n.
Proof. intros; unfold thr. rewrite zlen_app, !zlen_repeat. lia. Qed.

Lemma zn_repeat {A} (d x : A) n i : 0 <= i < Z.of_nat n -> zn d (repeat x n) i = x.
Proof.
  intros; unfold zn. rewrite nth_indep with (d' := x); [apply nth_repeat|]. rewrite repeat_length; lia.
Qed.

Lemma zn_thr n t i : 0 <= t <= n -> 0 <= i < n -> zn false (thr n t) i = (t <=? i).
Proof.
  intros Ht Hi. unfold thr. destruct (Z.leb_spec t i).
  - rewrite zn_app_r; rewrite zlen_repeat; [|lia]. apply zn_repeat. lia.
  - rewrite zn_app_l by (rewrite zlen_repeat; lia). apply zn_repeat. lia.
Qed.

Lemma sgn_small w x : 0 <= x < 2 ^ (w - 1) -> sgn w x = x.
Proof. intros; unfold sgn. destruct (Z.ltb_spec x (2 ^ (w - 1))); lia. Qed.

Lemma pow_half w : 1 <= w -> 2 ^ w = 2 * 2 ^ (w - 1).
Proof. intros. rewrite <- Z.pow_succ_r by lia. f_equal. lia. Qed.

Lemma cmp_thr bits v x n t : 1 <= bits -> zlen v = n -> 0 <= x < 2 ^ (bits - 1) ->
  (forall u, 0 <= u < n -> 0 <= zn 0 v u < 2 ^ (bits - 1)) ->
  (forall u u', 0 <= u <= u' -> u' < n -> zn 0 v u <= zn 0 v u') ->
  first_gt (zn 0 v) x n t ->
  map2 (fun a b => sgn bits b <? sgn bits a) v (set1 bits (Z.to_nat n) x) = thr n t.
Proof.
  intros Hb HL Hx HV HM (B & F1 & F2).
  assert (LS : zlen (set1 bits (Z.to_nat n) x) = n) by (unfold set1; rewrite zlen_repeat; lia).
  apply (list_ext false).
  - rewrite zlen_map2, zlen_thr by lia. lia.
  - rewrite zlen_map2 by lia. intros i Hi. rewrite HL in Hi.
    rewrite zn_map2 with (da := 0) (db := 0) by lia.
    rewrite zn_set1 by lia. rewrite zn_thr by lia.
    rewrite (wrap_small bits) by (pose proof (pow_half bits Hb); lia).
    rewrite !sgn_small by auto.
    destruct (Z.leb_spec t i).
    + apply Z.ltb_lt. pose proof (HM t i ltac:(lia) ltac:(lia)). specialize (F2 ltac:(lia)). lia.
    + apply Z.ltb_ge. apply F1. lia.
Qed.

Lemma map2_map {A B C D} (f : A -> B -> C) (h : C -> D) a : forall b,
  map2 (fun x y => h (f x y)) a b = map h (map2 f a b).
Proof. induction a; intros [|y b]; cbn; auto. rewrite IHa. reflexivity. Qed.

Definition lane (bits : Z) (b : bool) : Z := if b then 2 ^ bits - 1 else 0.

Lemma vcmpgt_lane bits a b : vcmpgt bits a b = map (lane bits) (map2 (fun x y => sgn bits y <? sgn bits x) a b).
Proof. unfold vcmpgt. rewrite <- map2_map. reflexivity. Qed.

Definition fs_check (bits n : Z) : bool :=
  forallb (fun t => index_fs bits (map (lane bits) (thr n t)) =? t) (zrange 0 (Z.to_nat (n + 1))).

Definition mask_of (l : list bool) : Z := fold_right (fun c acc => b2z c + 2 * acc) 0 l.

Definition mask_check (n : Z) : bool :=
  forallb (fun t => match mask_of (thr n t) with Zpos p => (ctz_pos p =? t) && (t <? n) | Z0 => t =? n | _ => false end)
    (zrange 0 (Z.to_nat (n + 1))).

Lemma fs_16 : fs_check 16 16 = true. Proof. vm_compute; reflexivity. Qed.
Lemma fs_32 : fs_check 32 8 = true. Proof. vm_compute; reflexivity. Qed.
Lemma fs_64 : fs_check 64 4 = true. Proof. vm_compute; reflexivity. Qed.
Lemma mask_8 : mask_check 8 = true. Proof. vm_compute; reflexivity. Qed.
Lemma mask_16 : mask_check 16 = true. Proof. vm_compute; reflexivity. Qed.
Lemma mask_32 : mask_check 32 = true. Proof. vm_compute; reflexivity. Qed.

Lemma index_fs_thr bits n t : fs_check bits n = true -> 0 <= t <= n ->
  index_fs bits (map (lane bits) (thr n t)) = t.
Proof.
  intros H Ht. pose proof (forallb_zrange _ _ _ H t ltac:(lia)) as E. cbv beta in E. lia.
Qed.

Lemma mask_thr n t : mask_check n = true -> 0 <= t < n -> exists p, mask_of (thr n t) = Zpos p /\ ctz_pos p = t.
Proof.
  intros H Ht. pose proof (forallb_zrange _ _ _ H t ltac:(lia)) as E. cbv beta in E.
  destruct (mask_of (thr n t)) as [|p|p]; [lia| |discriminate]. exists p; split; auto. lia.
Qed.

Lemma mask_thr_n n : mask_check n = true -> 0 <= n -> mask_of (thr n n) = 0.
Proof.
  intros H Ht. pose proof (forallb_zrange _ _ _ H n ltac:(lia)) as E. cbv beta in E.
  destruct (mask_of (thr n n)) as [|p|p]; auto; [|discriminate]. lia.
Qed.

(** ** What every search body computes *)
Definition search_idx (d : ndesc) (m : list Z) (p x r : Z) : Prop :=
  exists s k, r = s * nd_seg d + k /\ 0 <= s < nd_nseg d /\
    sm d m p s <= x /\ (s + 1 < nd_nseg d -> x < sm d m p (s + 1)) /\
    first_gt (fun u => ky d m p (s * nd_seg d + u)) (x - sm d m p s) (nd_seg d) k.

Lemma seg_sum d A s k : wf_desc d -> 0 <= s < nd_nseg d -> 0 <= k < nd_seg d ->
  (s * nd_seg d + k) / nd_seg d = s /\ 0 <= s * nd_seg d + k < nd_fanout d /\
  sumf A 0 (s * nd_seg d + k + 1) = sumf A 0 (s * nd_seg d) + sumf A (s * nd_seg d) (s * nd_seg d + k + 1).
Proof.
  intros W Hs Hk. pose proof (seg_in d s W Hs) as [? ?]. split; [|split].
  - symmetry. apply (Z.div_unique _ (nd_seg d) _ k); lia.
  - lia.
  - apply sumf_split. lia.
Qed.

Lemma search_idx_spec d m p A x r : wf_desc d -> repr d m p A -> range d A ->
  search_idx d m p x r -> first_gt (fun i => sumf A 0 (i + 1)) x (nd_fanout d) r.
Proof.
  intros W R G (s & k & -> & Hs & S1 & S2 & B & K1 & K2).
  pose proof (wf_seg d W) as Hseg. pose proof (seg_in d s W Hs) as [I1 I2].
  rewrite (sm_val d m p A s) in * by auto.
  split; [lia|]. split.
  - intros u Hu. destruct (Z.lt_ge_cases u (s * nd_seg d)) as [L|L].
    + eapply Z.le_trans; [|exact S1]. apply sumf_mono; [lia|]. intros; apply (rg_pos d A G). lia.
    + specialize (K1 (u - s * nd_seg d) ltac:(lia)). cbv beta in K1.
      destruct (seg_sum d A s (u - s * nd_seg d) W Hs ltac:(lia)) as (D1 & D2 & D3).
      rewrite (ky_val d m p A) in K1 by auto. rewrite D1 in K1.
      replace (s * nd_seg d + (u - s * nd_seg d)) with u in * by lia. lia.
  - intros Hr. destruct (Z.eq_dec k (nd_seg d)) as [->|N].
    + pose proof (wf_fanout d W).
      assert (Hs1 : s + 1 < nd_nseg d) by nia.
      specialize (S2 Hs1). rewrite (sm_val d m p A) in S2 by (auto; lia).
      replace ((s + 1) * nd_seg d) with (s * nd_seg d + nd_seg d) in S2 by lia.
      assert (sumf A 0 (s * nd_seg d + nd_seg d) <= sumf A 0 (s * nd_seg d + nd_seg d + 1)); [|lia].
      apply sumf_mono; [lia|]. intros; apply (rg_pos d A G). lia.
    + specialize (K2 ltac:(lia)). cbv beta in K2.
      destruct (seg_sum d A s k W Hs ltac:(lia)) as (D1 & D2 & D3).
      rewrite (ky_val d m p A) in K2 by auto. rewrite D1 in K2. lia.
Qed.

Lemma sm_0 d m p A : wf_desc d -> repr d m p A -> range d A -> sm d m p 0 = 0.
Proof.
  intros W R G. rewrite (sm_val d m p A) by (auto; pose proof (wf_nseg d W); lia). apply sumf_empty. lia.
Qed.

Lemma sm_le d m p A s s' : wf_desc d -> repr d m p A -> range d A -> 0 <= s <= s' -> s' < nd_nseg d ->
  0 <= sm d m p s <= sm d m p s'.
Proof.
  intros W R G H1 H2. rewrite !(sm_val d m p A) by (auto; lia).
  pose proof (seg_in d s' W ltac:(lia)) as [? ?]. pose proof (wf_seg d W).
  assert (s * nd_seg d <= s' * nd_seg d) by (apply Z.mul_le_mono_nonneg_r; lia).
  assert (0 <= s * nd_seg d) by (apply Z.mul_nonneg_nonneg; lia).
  split; [apply sumf_nonneg|apply sumf_mono; [lia|]]; intros; apply (rg_pos d A G); lia.
Qed.

Lemma ky_le d m p A s u u' : wf_desc d -> repr d m p A -> range d A -> 0 <= s < nd_nseg d -> 0 <= u <= u' -> u' < nd_seg d ->
  0 <= ky d m p (s * nd_seg d + u) <= ky d m p (s * nd_seg d + u').
Proof.
  intros W R G Hs H1 H2.
  destruct (seg_sum d A s u W Hs ltac:(lia)) as (D1 & D2 & D3).
  destruct (seg_sum d A s u' W Hs ltac:(lia)) as (E1 & E2 & E3).
  rewrite !(ky_val d m p A) by auto. rewrite D1, E1. pose proof (seg_in d s W Hs) as [? ?].
  split; [apply sumf_nonneg|apply sumf_mono; [lia|]]; intros; apply (rg_pos d A G); lia.
Qed.

Lemma ky_seg_bound d m p A s u : wf_desc d -> repr d m p A -> range d A -> 0 <= s < nd_nseg d -> 0 <= u < nd_seg d ->
  0 <= ky d m p (s * nd_seg d + u) <= sumf A (s * nd_seg d) ((s + 1) * nd_seg d).
Proof.
  intros W R G Hs H1.
  destruct (seg_sum d A s u W Hs ltac:(lia)) as (D1 & D2 & D3).
  rewrite !(ky_val d m p A) by auto. rewrite D1. pose proof (seg_in d s W Hs) as [? ?].
  split; [apply sumf_nonneg|apply sumf_mono; [lia|]]; intros; apply (rg_pos d A G); lia.
Qed.

(** First-level index from [first_gt] on the summary. *)
Lemma search_scalar_ok c d m p A x : wf_desc d -> node_in d m p -> repr d m p A -> range d A ->
  0 <= x < 2 ^ 64 -> nd_fanout d < 2 ^ 32 ->
  exists r, search_scalar c d m p x = Ok r /\ search_idx d m p x r.
Proof.
  intros W I R G Hx Hf. unfold search_scalar.
  pose proof (wf_seg d W) as Hseg. pose proof (wf_nseg d W) as Hn.
  destruct (scan_gt_ok (load_sm d m p) (fun u => sm d m p (1 + u)) x (Z.to_nat (nd_nseg d - 1)) 1 0) as (s & E & B & F1 & F2).
  { intros u Hu. apply load_sm_ok; auto; lia. }
  rewrite E. cbn [bind]. rewrite Z.add_0_l.
  replace (Z.of_nat (Z.to_nat (nd_nseg d - 1))) with (nd_nseg d - 1) in * by lia.
  assert (Hs : 0 <= s < nd_nseg d) by lia.
  rewrite massert_true by lia. cbn [bind].
  rewrite load_sm_ok by auto. cbn [bind].
  assert (S1 : sm d m p s <= x).
  { destruct (Z.eq_dec s 0) as [->|N]; [rewrite (sm_0 d m p A) by auto; lia|].
    specialize (F1 (s - 1) ltac:(lia)). replace (1 + (s - 1)) with s in F1 by lia. auto. }
  pose proof (sm_le d m p A s s W R G ltac:(lia) ltac:(lia)).
  pose proof (seg_in d s W Hs) as [? ?].
  rewrite (wrap_small 64 (x - _)) by lia. rewrite (wrap_small 64 (s * _)) by lia.
  destruct (scan_gt_ok (load_ky d m p) (fun u => ky d m p (s * nd_seg d + u)) (x - sm d m p s)
     (Z.to_nat (nd_seg d)) (s * nd_seg d) (s * nd_seg d)) as (k & E2 & K).
  { intros u Hu. apply load_ky_ok; auto; lia. }
  replace (Z.of_nat (Z.to_nat (nd_seg d))) with (nd_seg d) in K by lia.
  rewrite E2. eexists; split; [reflexivity|]. exists s, k. split; [reflexivity|].
  split; [auto|]. split; [auto|]. split; [|exact K].
  intros H9. replace (s + 1) with (1 + s) by lia. apply F2. lia.
Qed.

(** Extra room the signed vector comparisons need. *)
Record vrange (d : ndesc) (A : Z -> Z) (x : Z) : Prop := {
  vr_seg : forall j, 0 <= j < nd_nseg d -> sumf A (j * nd_seg d) ((j + 1) * nd_seg d) < 2 ^ (kbits d - 1);
  vr_tot : sumf A 0 ((nd_nseg d - 1) * nd_seg d) < 2 ^ (sbits d - 1);
  vr_x : x < 2 ^ (sbits d - 1);
  vr_last : x - sumf A 0 ((nd_nseg d - 1) * nd_seg d) < 2 ^ (kbits d - 1) }.

Lemma first_level d m p A x : wf_desc d -> repr d m p A -> range d A -> 0 <= x ->
  exists s, 0 <= s < nd_nseg d /\ sm d m p s <= x /\ (s + 1 < nd_nseg d -> x < sm d m p (s + 1)) /\
    first_gt (sm d m p) x (nd_nseg d) (s + 1).
Proof.
  intros W R G Hx. pose proof (wf_nseg d W) as Hn.
  destruct (first_gt_ex (sm d m p) x (nd_nseg d) ltac:(lia)) as (t & F). pose proof F as F0. destruct F as (B & F1 & F2).
  assert (t <> 0).
  { intros ->. specialize (F2 ltac:(lia)). rewrite (sm_0 d m p A) in F2 by auto. lia. }
  exists (t - 1). replace (t - 1 + 1) with t by lia.
  split; [lia|]. split; [apply F1; lia|]. split; auto.
Qed.

Lemma rem_bound d m p A x s : wf_desc d -> repr d m p A -> range d A -> vrange d A x ->
  0 <= s < nd_nseg d -> sm d m p s <= x -> (s + 1 < nd_nseg d -> x < sm d m p (s + 1)) ->
  0 <= x - sm d m p s < 2 ^ (kbits d - 1).
Proof.
  intros W R G [V1 V2 V3 V4] Hs S1 S2. split; [lia|].
  destruct (Z.eq_dec s (nd_nseg d - 1)) as [->|N].
  - rewrite (sm_val d m p A) by (auto; lia). auto.
  - specialize (S2 ltac:(lia)). rewrite !(sm_val d m p A) in * by (auto; lia).
    specialize (V1 s Hs). pose proof (seg_in d s W Hs) as [? ?]. pose proof (wf_seg d W).
    rewrite (sumf_split A 0 (s * nd_seg d) ((s + 1) * nd_seg d)) in S2 by lia. lia.
Qed.

Lemma cmp1_thr d m p A x s : wf_desc d -> repr d m p A -> range d A -> vrange d A x -> 0 <= x ->
  first_gt (sm d m p) x (nd_nseg d) (s + 1) ->
  map2 (fun a b => sgn (sbits d) b <? sgn (sbits d) a) (rdv (nd_sb d) (Z.to_nat (nd_nseg d)) m (sm_addr d p 0))
    (set1 (sbits d) (Z.to_nat (nd_nseg d)) x) = thr (nd_nseg d) (s + 1).
Proof.
  intros W R G V Hx F. pose proof (wf_nseg d W) as Hn. pose proof (wf_sb d W).
  assert (ZE : forall u, 0 <= u < nd_nseg d -> zn 0 (rdv (nd_sb d) (Z.to_nat (nd_nseg d)) m (sm_addr d p 0)) u = sm d m p u).
  { intros u Hu. rewrite zn_rdv by lia. unfold sm. f_equal. unfold sm_addr. lia. }
  apply cmp_thr.
  - unfold sbits. lia.
  - rewrite zlen_rdv. lia.
  - split; [lia|]. apply V.
  - intros u Hu. rewrite ZE by auto.
    pose proof (sm_le d m p A u (nd_nseg d - 1) W R G ltac:(lia) ltac:(lia)).
    pose proof (vr_tot d A x V). rewrite (sm_val d m p A (nd_nseg d - 1)) in H0 by (auto; lia). lia.
  - intros u u' H1 H2. rewrite !ZE by lia. apply (sm_le d m p A u u' W R G); lia.
  - eapply first_gt_ext; [|exact F]. intros; rewrite ZE; auto.
Qed.

Lemma cmp2_thr d m p A x s k : wf_desc d -> repr d m p A -> range d A -> vrange d A x ->
  0 <= s < nd_nseg d -> 0 <= x - sm d m p s < 2 ^ (kbits d - 1) ->
  first_gt (fun u => ky d m p (s * nd_seg d + u)) (x - sm d m p s) (nd_seg d) k ->
  map2 (fun a b => sgn (kbits d) b <? sgn (kbits d) a) (rdv (nd_kb d) (Z.to_nat (nd_seg d)) m (ky_addr d p (s * nd_seg d)))
    (set1 (kbits d) (Z.to_nat (nd_seg d)) (x - sm d m p s)) = thr (nd_seg d) k.
Proof.
  intros W R G V Hs Hx F. pose proof (wf_seg d W) as Hn. pose proof (wf_kb d W).
  assert (ZE : forall u, 0 <= u < nd_seg d ->
     zn 0 (rdv (nd_kb d) (Z.to_nat (nd_seg d)) m (ky_addr d p (s * nd_seg d))) u = ky d m p (s * nd_seg d + u)).
  { intros u Hu. rewrite zn_rdv by lia. unfold ky. f_equal. unfold ky_addr. ring. }
  apply cmp_thr.
  - unfold kbits. lia.
  - rewrite zlen_rdv. lia.
  - auto.
  - intros u Hu. rewrite ZE by auto.
    pose proof (ky_seg_bound d m p A s u W R G Hs Hu). pose proof (vr_seg d A x V s Hs). lia.
  - intros u u' H1 H2. rewrite !ZE by lia. apply (ky_le d m p A s u u' W R G); lia.
  - eapply first_gt_ext; [|exact F]. intros; cbv beta; rewrite ZE; auto.
Qed.

Lemma search_avx2_ok c d m p A x : wf_desc d -> node_in d m p -> repr d m p A -> range d A -> vrange d A x ->
  0 <= x < 2 ^ 64 -> nd_fanout d < 2 ^ 32 ->
  fs_check (sbits d) (nd_nseg d) = true -> fs_check (kbits d) (nd_seg d) = true ->
  exists r, search_avx2 c d m p x = Ok r /\ search_idx d m p x r.
Proof.
  intros W I R G V Hx Hf C1 C2. unfold search_avx2.
  pose proof (wf_seg d W) as Hseg. pose proof (wf_nseg d W) as Hn. pose proof (sm_bytes d W).
  destruct (first_level d m p A x W R G ltac:(lia)) as (s & Hs & S1 & S2 & F).
  pose proof (seg_in d s W Hs) as [I1 I2].
  assert (A0 : sm_addr d p 0 = p) by (unfold sm_addr; lia).
  pose proof I as [Ip Ib].
  rewrite loadu_ok by lia. cbn [bind].
  rewrite vcmpgt_lane. fold (sbits d). rewrite (cmp1_thr d m p A x s) by (auto; lia).
  rewrite index_fs_thr by (auto; lia).
  replace (s + 1 - 1) with s by lia.
  assert (Hsf : s < 2 ^ 32) by nia.
  rewrite (wrap_small 64 s) by lia. rewrite massert_true by lia. cbn [bind].
  rewrite load_sm_ok by auto. cbn [bind].
  pose proof (sm_le d m p A s s W R G ltac:(lia) ltac:(lia)).
  rewrite (wrap_small 64 (x - _)) by lia. rewrite (wrap_small 64 (s * _)) by lia.
  destruct (ky_seg_range d p s W (proj1 Hs) I2) as [KB KS].
  rewrite loadu_ok by lia. cbn [bind].
  pose proof (rem_bound d m p A x s W R G V Hs S1 S2) as Hr.
  destruct (first_gt_ex (fun u => ky d m p (s * nd_seg d + u)) (x - sm d m p s) (nd_seg d) ltac:(lia)) as (k & K).
  rewrite vcmpgt_lane. fold (kbits d). rewrite (cmp2_thr d m p A x s k) by auto.
  pose proof (proj1 K).
  rewrite index_fs_thr by (auto; lia).
  rewrite wrap_small by lia. eexists; split; [reflexivity|]. exists s, k. auto.
Qed.

Lemma vcmpgt_mask_of bits a b : vcmpgt_mask bits a b = mask_of (map2 (fun x y => sgn bits y <? sgn bits x) a b).
Proof. reflexivity. Qed.

Lemma search_avx512_ok c d m p A x : wf_desc d -> node_in d m p -> repr d m p A -> range d A -> vrange d A x ->
  0 <= x < 2 ^ 64 -> nd_fanout d < 2 ^ 32 -> x < sumf A 0 (nd_fanout d) ->
  mask_check (nd_nseg d) = true -> mask_check (nd_seg d) = true ->
  exists r, search_avx512 c d m p x = Ok r /\ search_idx d m p x r.
Proof.
  intros W I R G V Hx Hf HT C1 C2. unfold search_avx512.
  pose proof (wf_seg d W) as Hseg. pose proof (wf_nseg d W) as Hn. pose proof (sm_bytes d W).
  destruct (first_level d m p A x W R G ltac:(lia)) as (s & Hs & S1 & S2 & F).
  pose proof (seg_in d s W Hs) as [I1 I2].
  assert (A0 : sm_addr d p 0 = p) by (unfold sm_addr; lia).
  pose proof I as [Ip Ib].
  rewrite loadu_ok by lia. cbn [bind].
  rewrite vcmpgt_mask_of. fold (sbits d). rewrite (cmp1_thr d m p A x s) by (auto; lia).
  assert (Hsf : s < 2 ^ 32) by nia.
  match goal with |- exists _, bind ?e _ = _ /\ _ => assert (E : e = Ok s) end.
  { destruct (Z.eq_dec (s + 1) (nd_nseg d)) as [E|E].
    - rewrite E. rewrite mask_thr_n by (auto; lia). cbn [Z.eqb negb]. f_equal. lia.
    - destruct (mask_thr (nd_nseg d) (s + 1) C1 ltac:(lia)) as (q & -> & Q). cbn [Z.eqb negb ctz bind].
      rewrite Q. f_equal. rewrite wrap_small; lia. }
  rewrite E. cbn [bind]. clear E. rewrite massert_true by lia. cbn [bind].
  rewrite load_sm_ok by auto. cbn [bind].
  pose proof (sm_le d m p A s s W R G ltac:(lia) ltac:(lia)).
  rewrite (wrap_small 64 (x - _)) by lia. rewrite (wrap_small 64 (s * _)) by lia.
  destruct (ky_seg_range d p s W (proj1 Hs) I2) as [KB KS].
  rewrite loadu_ok by lia. cbn [bind].
  pose proof (rem_bound d m p A x s W R G V Hs S1 S2) as Hr.
  destruct (first_gt_ex (fun u => ky d m p (s * nd_seg d + u)) (x - sm d m p s) (nd_seg d) ltac:(lia)) as (k & K).
  rewrite vcmpgt_mask_of. fold (kbits d). rewrite (cmp2_thr d m p A x s k) by auto.
  assert (SI : search_idx d m p x (s * nd_seg d + k)) by (exists s, k; auto).
  assert (Hk : 0 <= k < nd_seg d).
  { destruct K as (B & K1 & K2). split; [lia|].
    destruct (Z.eq_dec k (nd_seg d)) as [->|N]; [|lia]. exfalso.
    (* the whole segment is at most x: contradiction *)
    specialize (K1 (nd_seg d - 1) ltac:(lia)). cbv beta in K1.
    destruct (seg_sum d A s (nd_seg d - 1) W Hs ltac:(lia)) as (D1 & D2 & D3).
    rewrite (ky_val d m p A), D1, (sm_val d m p A) in K1 by auto.
    replace (s * nd_seg d + (nd_seg d - 1) + 1) with ((s + 1) * nd_seg d) in * by lia.
    destruct (Z.eq_dec (s + 1) (nd_nseg d)) as [E|E].
    - rewrite E in *. rewrite (wf_fanout d W), Z.mul_comm in HT. lia.
    - specialize (S2 ltac:(lia)). rewrite (sm_val d m p A) in S2 by (auto; lia). lia. }
  destruct (mask_thr (nd_seg d) k C2 ltac:(lia)) as (q & -> & Q).
  rewrite massert_true by reflexivity. cbn [ctz bind]. rewrite Q.
  rewrite wrap_small by lia. eexists; split; [reflexivity|]. auto.
Qed.

Lemma search_return_ok c n m p A r : node_in (desc n) m p -> repr (desc n) m p A -> range (desc n) A ->
  0 <= r <= nd_fanout (desc n) -> search_return c n m p r = Ok (r, sumf A 0 r).
Proof.
  intros I R G Hr. unfold search_return. destruct (Z.eqb_spec r 0) as [->|N].
  - rewrite sumf_empty by lia. reflexivity.
  - rewrite (node_sum_ok c n m p A) by (auto; lia). cbn [bind]. do 3 f_equal. lia.
Qed.

(** Leaf classes assert x < sum(fanout-1). *)
Definition is_leaf_class (n : node) : bool := match n with A2_128 | A5_512 => true | _ => false end.

Lemma node_search_ok c n m p A x : node_in (desc n) m p -> repr (desc n) m p A -> range (desc n) A ->
  (vectorised c n = true -> vrange (desc n) A x) -> 0 <= x < 2 ^ 64 ->
  (is_leaf_class n = true -> x < sumf A 0 (nd_fanout (desc n))) ->
  exists r, node_search c n m p x = Ok (r, sumf A 0 r) /\
    first_gt (fun i => sumf A 0 (i + 1)) x (nd_fanout (desc n)) r.
Proof.
  intros I R G V Hx HL. pose proof (desc_wf n) as W.
  assert (Hf : nd_fanout (desc n) < 2 ^ 32) by (destruct n; reflexivity).
  assert (B : forall e, (exists r, e = Ok r /\ search_idx (desc n) m p x r) ->
            exists r, e = Ok r /\ first_gt (fun i => sumf A 0 (i + 1)) x (nd_fanout (desc n)) r).
  { intros e (r & E & S). exists r; split; auto. eapply search_idx_spec; eauto. }
  assert (LT : forall r, first_gt (fun i => sumf A 0 (i + 1)) x (nd_fanout (desc n)) r ->
                x < sumf A 0 (nd_fanout (desc n)) -> r < nd_fanout (desc n)).
  { intros r (Hr & F1 & F2) HT. destruct (Z.eq_dec r (nd_fanout (desc n))) as [->|N]; [|lia].
    pose proof (wf_fanout _ W). pose proof (wf_seg _ W). pose proof (wf_nseg _ W).
    specialize (F1 (nd_fanout (desc n) - 1) ltac:(nia)). cbv beta in F1.
    replace (nd_fanout (desc n) - 1 + 1) with (nd_fanout (desc n)) in F1 by lia. lia. }
  assert (LAST : 0 <= nd_fanout (desc n) - 1 < nd_fanout (desc n)) by (destruct n; cbn; lia).
  assert (LS : nd_fanout (desc n) - 1 + 1 = nd_fanout (desc n)) by lia.
  assert (A2 : match n with A2_128 | A2_64 | A2_32 => True | _ => False end ->
     exists r, (if c_avx2 c then search_avx2 c (desc n) m p x else search_scalar c (desc n) m p x) = Ok r /\
       first_gt (fun i => sumf A 0 (i + 1)) x (nd_fanout (desc n)) r).
  { intros HN. apply B. destruct (c_avx2 c) eqn:EC.
    - eapply search_avx2_ok; eauto.
      + apply V. unfold vectorised. destruct n; tauto.
      + destruct n; try contradiction; cbn; [exact fs_32|exact fs_32|exact fs_64].
      + destruct n; try contradiction; cbn; [exact fs_16|exact fs_32|exact fs_32].
    - eapply search_scalar_ok; eauto. }
  assert (A5 : match n with A2_128 | A2_64 | A2_32 => False | _ => True end -> x < sumf A 0 (nd_fanout (desc n)) ->
     exists r, (if c_avx512 c then search_avx512 c (desc n) m p x else search_scalar c (desc n) m p x) = Ok r /\
       first_gt (fun i => sumf A 0 (i + 1)) x (nd_fanout (desc n)) r).
  { intros HN HT. apply B. destruct (c_avx512 c) eqn:EC.
    - eapply search_avx512_ok; eauto.
      + apply V. unfold vectorised. destruct n; tauto.
      + destruct n; try contradiction; cbn; [exact mask_16|exact mask_16|exact mask_8].
      + destruct n; try contradiction; cbn; [exact mask_32|exact mask_16|exact mask_16].
    - eapply search_scalar_ok; eauto. }
  assert (DBG : is_leaf_class n = true ->
     (if c_debug c then let* t := node_sum c n m p (nd_fanout (desc n) - 1) in massert true (x <? t) else Ok tt) = Ok tt).
  { intros EL. destruct (c_debug c); auto. rewrite (node_sum_ok c n m p A) by auto. cbn [bind].
    rewrite LS. apply massert_true. specialize (HL EL). lia. }
  unfold node_search.
  destruct n; cbn [is_leaf_class] in *.
  - rewrite DBG by auto. cbn [bind]. destruct (A2 Logic.I) as (r & -> & F). cbn [bind].
    rewrite massert_true by (apply Z.ltb_lt; auto). cbn [bind].
    rewrite (search_return_ok c _ m p A) by (auto; apply F). eauto.
  - destruct (A2 Logic.I) as (r & -> & F). cbn [bind].
    rewrite (search_return_ok c _ m p A) by (auto; apply F). eauto.
  - destruct (A2 Logic.I) as (r & -> & F). cbn [bind].
    rewrite (search_return_ok c _ m p A) by (auto; apply F). eauto.
  - rewrite DBG by auto. cbn [bind]. destruct (A5 Logic.I (HL eq_refl)) as (r & -> & F). cbn [bind].
    rewrite massert_true by (apply Z.ltb_lt; auto). cbn [bind].
    rewrite (search_return_ok c _ m p A) by (auto; apply F). eauto.
  - rewrite (node_sum_ok c _ m p A) by auto. cbn [bind]. rewrite LS.
    destruct (Z.leb_spec (sumf A 0 (nd_fanout (desc A5_256))) x) as [L|L].
    + eexists; split; [reflexivity|]. split; [cbn; lia|]. split; [|lia].
      intros u Hu. eapply Z.le_trans; [|exact L]. apply sumf_mono; [lia|]. intros; apply (rg_pos _ _ G); lia.
    + destruct (A5 Logic.I L) as (r & -> & F). cbn [bind].
      rewrite (search_return_ok c _ m p A) by (auto; apply F). eauto.
  - rewrite (node_sum_ok c _ m p A) by auto. cbn [bind]. rewrite LS.
    destruct (Z.leb_spec (sumf A 0 (nd_fanout (desc A5_128))) x) as [L|L].
    + eexists; split; [reflexivity|]. split; [cbn; lia|]. split; [|lia].
      intros u Hu. eapply Z.le_trans; [|exact L]. apply sumf_mono; [lia|]. intros; apply (rg_pos _ _ G); lia.
    + destruct (A5 Logic.I L) as (r & -> & F). cbn [bind].
      rewrite (search_return_ok c _ m p A) by (auto; apply F). eauto.
Qed.
