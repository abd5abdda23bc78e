(** The measured loops of src/perf_hft.cpp. *)
From Coq Require Import ZifyBool.
From Verif Require Import Base BaseFacts Mem MemFacts SpecHft Hft HftFacts HftLayF HftOps HftClient HftMisuse HftPerf.
Ltac Zify.zify_post_hook ::= Z.div_mod_to_equations.

Lemma fits_perf lay n : 0 <= n <= 2 ^ 48 -> fits lay perf_bound n.
Proof.
  intros Hn. assert (Z.log2 n <= 48) by (apply Z.log2_le_mono in Hn as ? || (pose proof (Z.log2_le_mono n (2 ^ 48) ltac:(lia)) as H; rewrite Z.log2_pow2 in H by lia; exact H)).
  change perf_bound with 256. unfold fits. change (width 256) with 9. split; [lia|]. split; [lia|]. destruct lay; lia.
Qed.

(** Prefix and find of the tree that was built. *)
Lemma run_prefix sh t q outs : ft_run sh t [FPrefix q] = Ok outs -> exists x, ft_prefix t q = Ok x /\ outs = [FNum x].
Proof. unfold ft_run, ft_step. destruct (ft_prefix t q) as [x| |]; cbn [bind]; intros H; inversion H. eauto. Qed.
Lemma run_find sh t v outs : ft_run sh t [FFind v] = Ok outs -> exists k r, ft_find false t v = Ok (k, r) /\ outs = [FPair k r].
Proof. unfold ft_run, ft_step. destruct (ft_find false t v) as [[k r]| |]; cbn [bind]; intros H; inversion H. eauto. Qed.

Lemma tree_reads sh lay B A : fits lay B (zlen A) -> (lay = BitL -> sh = true) -> elems_ok B A ->
  exists t, ft_build sh lay B A = Ok t /\ (forall q, 0 <= q <= zlen A -> ft_prefix t q = Ok (u64 (seq_sum A q))) /\
    (can_search lay B (zlen A) -> forall v, 0 <= v < 2 ^ 64 -> exists k r, ft_find false t v = Ok (k, r) /\ found A v k r).
Proof.
  intros HF Hsh HE. destruct (ft_build sh lay B A) as [t| |] eqn:E.
  2,3: destruct (client_ok sh lay B A [] HF Hsh HE I) as (o & C & _); [intros (v & [[]|[]])|unfold ft_client in C; rewrite E in C; discriminate].
  exists t. split; [reflexivity|]. split.
  - intros q Hq. destruct (client_ok sh lay B A [FPrefix q] HF Hsh HE) as (o & C & F); [split; [exact Hq|exact I]|intros (v & [[D|[]]|[D|[]]]); discriminate D|].
    unfold ft_client in C. rewrite E in C. cbn [bind] in C. apply run_prefix in C. destruct C as (x & C & ->). destruct F as (F & _). cbn [fop_answer] in F. rewrite C, F. reflexivity.
  - intros CS v Hv. destruct (client_ok sh lay B A [FFind v] HF Hsh HE) as (o & C & F); [split; [exact Hv|exact I]|auto|].
    unfold ft_client in C. rewrite E in C. cbn [bind] in C. apply run_find in C. destruct C as (k & r & C & ->). destruct F as (F & _). eauto.
Qed.

(** Loops that add up. *)
Lemma u64_add_l a b : u64 (u64 a + b) = u64 (a + b).
Proof. unfold wrap. rewrite Zplus_mod_idemp_l. reflexivity. Qed.
Lemma u64_add_r a b : u64 (a + u64 b) = u64 (a + b).
Proof. unfold wrap. rewrite Zplus_mod_idemp_r. reflexivity. Qed.

Lemma acc_loop {X} (f : Z -> X -> res Z) (g : X -> Z) qs : (forall q acc, In q qs -> f (u64 acc) q = Ok (u64 (acc + g q))) ->
  forall acc, foldM f qs (u64 acc) = Ok (u64 (acc + total (map g qs))).
Proof.
  induction qs as [|q qs IH]; intros H acc; cbn [foldM map total fold_right]; [rewrite Z.add_0_r; reflexivity|].
  rewrite H by (left; reflexivity). cbn [bind]. rewrite IH by (intros; apply H; right; auto). f_equal. f_equal. unfold total. lia.
Qed.
Lemma total_const {X} (l : list X) c : total (map (fun _ => c) l) = zlen l * c.
Proof. unfold total. induction l; [reflexivity|]. rewrite zlen_cons. cbn [map fold_right]. rewrite IHl. lia. Qed.

Lemma runs_loop (f : Z -> res Z) S runs : (forall acc, f (u64 acc) = Ok (u64 (acc + S))) -> foldM (fun acc (_ : unit) => f acc) (repeat tt runs) 0 = Ok (u64 (Z.of_nat runs * S)).
Proof.
  intros H. change 0 with (u64 0) at 1. rewrite (acc_loop (fun acc _ => f acc) (fun _ => S)) by (intros; apply H).
  rewrite total_const. unfold zlen. rewrite repeat_length. reflexivity.
Qed.

Lemma measures_const sh op runs n qs t x (outs0 : list Z) : measure sh op runs n qs t = Ok (t, x) -> forall m,
  foldM (fun '(t, outs) (_ : unit) => let* '(t, x) := measure sh op runs n qs t in Ok (t, outs ++ [x])) (repeat tt m) (t, outs0) = Ok (t, outs0 ++ repeat x m).
Proof.
  intros E m. revert outs0. induction m as [|m IH]; intros outs0; cbn [repeat foldM]; [rewrite app_nil_r; reflexivity|].
  rewrite E. cbn [bind]. rewrite IH. rewrite <- app_assoc. reflexivity.
Qed.

Lemma perf_const sh lay A qs op runs m t x : ft_build sh lay perf_bound A = Ok t -> measure sh op runs (zlen A) qs t = Ok (t, x) ->
  perf_test sh lay A qs op runs m = Ok (repeat x m).
Proof. intros E H. unfold perf_test. rewrite E. cbn [bind]. rewrite (measures_const _ _ _ _ _ _ _ [] H m). reflexivity. Qed.

Lemma perf_sum_ok sh lay A qs runs m : zlen A <= 2 ^ 48 -> (lay = BitL -> sh = true) -> elems_ok 256 A -> Forall (fun q => 1 <= q <= zlen A) qs ->
  perf_test sh lay A qs PerfSum runs m = Ok (repeat ((Z.of_nat runs * total (map (seq_sum A) qs)) mod 2 ^ 64) m).
Proof.
  intros Hn Hsh HE HQ. pose proof (zlen_nonneg A). destruct (tree_reads sh lay perf_bound A) as (t & E & HP & _); auto; [apply fits_perf; lia|].
  eapply perf_const; [exact E|]. cbn [measure]. rewrite (runs_loop (sum_run t qs) (total (map (seq_sum A) qs))); [reflexivity|].
  intros acc. unfold sum_run. apply acc_loop. intros q a Hq. rewrite Forall_forall in HQ. specialize (HQ q Hq). rewrite HP by lia. cbn [bind]. rewrite u64_add_l, u64_add_r. reflexivity.
Qed.

Lemma perf_search_ok sh lay A qs runs m : 1 <= zlen A <= 2 ^ 48 -> (lay = BitL -> sh = true) -> (lay = TypeL -> can_search TypeL 256 (zlen A)) ->
  elems_ok 256 A -> Forall (fun q => 1 <= q <= zlen A) qs ->
  exists ks, Forall2 (fun q k => found A q k (q - seq_sum A k)) qs ks /\
    perf_test sh lay A qs PerfSearch runs m = Ok (repeat ((Z.of_nat runs * total ks) mod 2 ^ 64) m).
Proof.
  intros Hn Hsh HT HE HQ. destruct (tree_reads sh lay perf_bound A) as (t & E & _ & HS); auto; [apply fits_perf; lia|].
  assert (CS : can_search lay perf_bound (zlen A)). { split; [lia|]. intros EL. apply HT; auto. } specialize (HS CS).
  assert (exists g : Z -> Z, forall q, In q qs -> exists r, ft_find false t q = Ok (g q, r) /\ found A q (g q) r) as (g & Hg).
  { exists (fun q => match ft_find false t q with Ok (k, _) => k | _ => 0 end). intros q Hq. rewrite Forall_forall in HQ. specialize (HQ q Hq).
    destruct (HS q ltac:(lia)) as (k & r & E1 & F). exists r. rewrite E1. auto. }
  exists (map g qs). split.
  - clear - Hg. induction qs as [|q qs IH]; constructor; [|apply IH; intros; apply Hg; right; auto].
    destruct (Hg q ltac:(left; reflexivity)) as (r & _ & F). pose proof F as (_ & -> & _). exact F.
  - eapply perf_const; [exact E|]. cbn [measure]. rewrite (runs_loop (search_run t qs) (total (map g qs))); [reflexivity|].
    intros acc. unfold search_run. apply acc_loop. intros q a Hq. destruct (Hg q Hq) as (r & E1 & _). rewrite E1. cbn [bind]. rewrite u64_add_l. reflexivity.
Qed.

(** The update loop of the classes with 64-bit nodes. *)
Lemma seq_sum_add A q d n : 1 <= q <= zlen A -> n = zlen A -> seq_sum (seq_add A q d) n = seq_sum A n + d.
Proof.
  intros Hq ->. unfold seq_sum. pose proof (zlen_add A q d) as EL. unfold zlen in EL. rewrite !firstn_all2 by (unfold zlen; lia). clear EL.
  unfold seq_add, upd, zn, zlen in *. remember (Z.to_nat (q - 1)) as i. assert (Hi : (i < length A)%nat) by lia. clear Hq Heqi q. revert i Hi.
  induction A as [|a A IH]; intros i Hi; cbn [length] in Hi; [lia|]. destruct i; cbn [upd_nat nth fold_right]; [lia|]. rewrite IH by lia. lia.
Qed.

Lemma update_ok sh lay B n P I : 0 <= n <= 2 ^ 48 -> impl sh lay B n true P I -> forall qs t A, n = zlen A -> I t (node (elem A)) -> Forall (fun q => 1 <= q <= n) qs ->
  exists t' A', update_run sh t qs = Ok t' /\ I t' (node (elem A')) /\ zlen A' = n /\ seq_sum A' n = seq_sum A n + drift qs.
Proof.
  intros Hn IM. pose proof (im_good IM) as G. unfold update_run. induction qs as [|q qs IH]; intros t A En HI HQ.
  - exists t, A. cbn [foldM]. repeat split; auto. unfold drift. cbn. lia.
  - inversion_clear HQ as [|? ? Q1 Q2]. cbn [foldM]. set (d := if Z.odd q then -1 else 1). assert (Hd : -1 <= d <= 1) by (unfold d; destruct (Z.odd q); lia).
    destruct (add_ok sh n P I G t (elem A) q d) as (t1 & E & I1); auto; try lia. { intros k Hk Hc. apply (im_room IM k _ Hk). auto. }
    rewrite E. cbn [bind]. destruct (IH t1 (seq_add A q d)) as (t' & A' & E' & I' & N' & S'); auto; [rewrite zlen_add; exact En| |].
    { apply (g_ext G _ _ _ I1). apply node_same. intros k Hk. symmetry. apply elem_add; lia. }
    exists t', A'. repeat split; auto. rewrite S', seq_sum_add by lia. unfold drift. cbn [map total fold_right]. unfold total. fold d. lia.
Qed.

Lemma updates_ok sh lay B n P I qs : 0 <= n <= 2 ^ 48 -> impl sh lay B n true P I -> Forall (fun q => 1 <= q <= n) qs -> forall runs t A, n = zlen A -> I t (node (elem A)) ->
  exists t' A', foldM (fun t (_ : unit) => update_run sh t qs) (repeat tt runs) t = Ok t' /\ I t' (node (elem A')) /\ zlen A' = n /\ seq_sum A' n = seq_sum A n + Z.of_nat runs * drift qs.
Proof.
  intros Hn IM HQ. induction runs as [|r IH]; intros t A En HI; cbn [repeat foldM]; [exists t, A; repeat split; auto; lia|].
  destruct (update_ok sh lay B n P I Hn IM qs t A En HI HQ) as (t1 & A1 & E & I1 & N1 & S1'). rewrite E. cbn [bind].
  destruct (IH t1 A1 (eq_sym N1) I1) as (t' & A' & E' & I' & N' & S'). exists t', A'. repeat split; auto. rewrite S', S1'. lia.
Qed.

Lemma perf_update_ok sh lay A qs runs m : lay = FixedF \/ lay = FixedL -> zlen A <= 2 ^ 48 -> elems_ok 256 A -> Forall (fun q => 1 <= q <= zlen A) qs ->
  perf_test sh lay A qs PerfUpdate runs m = Ok (map (fun j => (seq_sum A (zlen A) + j * Z.of_nat runs * drift qs) mod 2 ^ 64) (zrange 1 m)).
Proof.
  intros HL Hn HE HQ. pose proof (zlen_nonneg A). set (n := zlen A) in *. destruct (impl_wide sh lay perf_bound n HL ltac:(unfold perf_bound; lia) ltac:(lia)) as (P & I & IM).
  destruct (im_build IM A eq_refl) as (t & E & HI); [apply (elems_u64 256); auto; lia|auto|]. unfold perf_test. rewrite E. cbn [bind]. fold n.
  assert (L : forall m t A0 outs j, zlen A0 = n -> I t (node (elem A0)) -> exists t',
     foldM (fun '(t, outs) (_ : unit) => let* '(t, x) := measure sh PerfUpdate runs n qs t in Ok (t, outs ++ [x])) (repeat tt m) (t, outs) =
     Ok (t', outs ++ map (fun i => (seq_sum A0 n + (i - j) * Z.of_nat runs * drift qs) mod 2 ^ 64) (zrange (j + 1) m))).
  { clear HI E t. induction m0 as [|m0 IH]; intros t A0 outs j En HI; cbn [repeat foldM zrange map]; [exists t; rewrite app_nil_r; reflexivity|].
    destruct (updates_ok sh lay perf_bound n P I qs ltac:(lia) IM HQ runs t A0 (eq_sym En) HI) as (t1 & A1 & E1 & I1 & N1 & S1').
    assert (EM : measure sh PerfUpdate runs n qs t = Ok (t1, u64 (seq_sum A1 n))).
    { cbn [measure]. rewrite E1. cbn [bind]. rewrite (prefix_ok sh n P I (im_good IM) t1 (elem A1) n) by (auto; lia). cbn [bind]. rewrite <- seq_sum_S1 by lia. reflexivity. }
    rewrite EM. cbn [bind].
    destruct (IH t1 A1 (outs ++ [u64 (seq_sum A1 n)]) (j + 1) N1 I1) as (t' & E'). exists t'. rewrite E'. rewrite <- app_assoc. do 3 f_equal. cbn [app]. f_equal.
    - rewrite S1'. unfold wrap. f_equal. lia.
    - apply map_ext. intros i. rewrite S1'. f_equal. lia. }
  destruct (L m t A [] 0 eq_refl HI) as (t' & E'). rewrite E'. cbn [bind app]. f_equal. apply map_ext. intros i. f_equal. f_equal. f_equal. f_equal. lia.
Qed.

Lemma perf_build_ok sh lay A qs runs m : zlen A <= 2 ^ 48 -> (lay = BitL -> sh = true) -> elems_ok 256 A ->
  perf_test sh lay A qs PerfBuild runs m = Ok (repeat ((Z.of_nat runs * total qs) mod 2 ^ 64) m).
Proof.
  intros Hn Hsh HE. pose proof (zlen_nonneg A). destruct (tree_reads sh lay perf_bound A) as (t & E & _); auto; [apply fits_perf; lia|].
  eapply perf_const; [exact E|]. cbn [measure]. f_equal. f_equal.
  assert (B1 : forall qs acc, build_run qs (u64 acc) = u64 (acc + total qs)).
  { clear. unfold build_run. induction qs as [|q qs IH]; intros acc; cbn [fold_left total fold_right]; [f_equal; lia|]. rewrite u64_add_l, IH. f_equal. unfold total. lia. }
  assert (B2 : forall acc, fold_left (fun total _ => build_run qs total) (repeat tt runs) (u64 acc) = u64 (acc + Z.of_nat runs * total qs)).
  { induction runs as [|r IH]; intros acc; cbn [repeat fold_left]; [f_equal; lia|]. rewrite B1, IH. f_equal. lia. }
  exact (B2 0).
Qed.

(** The update loop leaves the contract. *)
Lemma fops_ok_app B : forall l1 A l2, fops_ok B A (l1 ++ l2) -> fops_ok B A l1 /\ fops_ok B (fold_left fop_after l1 A) l2.
Proof. induction l1 as [|p l1 IH]; intros A l2 H; cbn [app fold_left fops_ok] in *; [split; [exact I|exact H]|]. destruct H as (H1 & H2). destruct (IH _ _ H2). auto. Qed.

Definition sign (q : Z) : Z := if Z.odd q then -1 else 1.
Definition hits (q : Z) (qs : list Z) : Z := total (map (fun p => if p =? q then 1 else 0) qs).

Lemma hits_nonneg q qs : 0 <= hits q qs.
Proof. unfold hits, total. induction qs as [|p qs IH]; cbn [map fold_right]; [lia|]. destruct (p =? q); lia. Qed.

Lemma one_run_moves B q qs : forall A, elems_ok B A -> fops_ok B A (map (fun q => FAdd q (sign q)) qs) ->
  let A' := fold_left fop_after (map (fun q => FAdd q (sign q)) qs) A in elems_ok B A' /\ zlen A' = zlen A /\ (1 <= q <= zlen A -> elem A' q = elem A q + sign q * hits q qs).
Proof.
  induction qs as [|p qs IH]; intros A HE HO; cbn [map fold_left fops_ok] in *; [cbn zeta; repeat split; auto; unfold hits; cbn; lia|].
  destruct HO as ((O1 & O2 & O3) & HO). cbn [fop_after] in *. destruct (IH (seq_add A p (sign p)) (elems_add B A p (sign p) HE O1 O2) HO) as (H1 & H2 & H3).
  rewrite zlen_add in H2, H3. cbn zeta. split; [exact H1|]. split; [exact H2|]. intros Hq. rewrite H3, elem_add by auto. unfold fadd, hits. cbn [map total fold_right]. unfold total.
  rewrite (Z.eqb_sym p q). destruct (Z.eqb_spec q p) as [->|]; lia.
Qed.

Lemma runs_move B q qs : forall times A, elems_ok B A -> fops_ok B A (update_calls qs times) -> 1 <= q <= zlen A ->
  exists A', elems_ok B A' /\ zlen A' = zlen A /\ elem A' q = elem A q + sign q * (Z.of_nat times * hits q qs).
Proof.
  induction times as [|k IH]; intros A HE HO Hq; [exists A; repeat split; auto; lia|].
  unfold update_calls in HO. cbn [repeat concat] in HO. apply fops_ok_app in HO. destruct HO as (O1 & O2). destruct (one_run_moves B q qs A HE O1) as (H1 & H2 & H3).
  destruct (IH _ H1 O2 ltac:(fold sign in *; rewrite H2; exact Hq)) as (A' & G1 & G2 & G3). exists A'. split; [exact G1|]. split; [congruence|]. rewrite G3. specialize (H3 Hq). unfold sign in *. rewrite H3. lia.
Qed.

Lemma updates_leave B A qs times : 0 <= B < Z.of_nat times -> elems_ok B A -> qs <> [] -> ~ fops_ok B A (update_calls qs times).
Proof.
  intros HB HE NE HO. destruct qs as [|q qs]; [congruence|]. assert (Hq : 1 <= q <= zlen A).
  { destruct times; [lia|]. unfold update_calls in HO. cbn [repeat concat map app fops_ok] in HO. apply HO. }
  destruct (runs_move B q (q :: qs) times A HE HO Hq) as (A' & H1 & H2 & H3). pose proof (elems_elem B A q HE Hq). pose proof (elems_elem B A' q H1 ltac:(lia)) as H4.
  assert (1 <= hits q (q :: qs)). { unfold hits. cbn [map total fold_right]. rewrite Z.eqb_refl. pose proof (hits_nonneg q qs). unfold hits, total in *. lia. }
  assert (Z.of_nat times * 1 <= Z.of_nat times * hits q (q :: qs)) by (apply Z.mul_le_mono_nonneg_l; lia). unfold sign in H3. destruct (Z.odd q); lia.
Qed.
