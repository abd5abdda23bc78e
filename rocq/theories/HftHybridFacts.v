(** The hybrid trees. *)
From Coq Require Import ZifyBool.
From Verif Require Import Base BaseFacts Mem MemFacts SpecHft Hft HftFacts HftBuild HftLayF HftOps HftClient HftMisuse HftPerfFacts HftHybrid PropFacts2.

(** A tree that holds the elements [a 1 .. a n]. *)
Definition rep (sh : bool) (lay : layout) (B n : Z) (a : Z -> Z) (t : ftree) : Prop :=
  exists P I, impl sh lay B n false P I /\ I t (node a) /\ fits lay B n /\ forall k, 1 <= k <= n -> 0 <= a k <= B.

Lemma rep_ext sh lay B n a b t : rep sh lay B n a t -> (forall k, 1 <= k <= n -> a k = b k) -> rep sh lay B n b t.
Proof.
  intros (P & I & IM & HI & HF & HE) H. exists P, I. split; [exact IM|]. split; [apply (g_ext (im_good IM) _ _ _ HI); apply node_same; exact H|].
  split; [exact HF|]. intros k Hk. rewrite <- H by auto. auto.
Qed.
Lemma rep_size sh lay B n a t : rep sh lay B n a t -> ft_size t = n.
Proof. intros (P & I & IM & HI & _). exact (g_size (im_good IM) _ _ HI). Qed.
Lemma rep_build sh lay B A : fits lay B (zlen A) -> (lay = BitL -> sh = true) -> elems_ok B A -> exists t, ft_build sh lay B A = Ok t /\ rep sh lay B (zlen A) (elem A) t.
Proof.
  intros HF Hsh HE. destruct (impl_all sh lay B (zlen A) HF Hsh) as (P & I & IM).
  destruct (im_build IM A eq_refl) as (t & E & HI); [eapply elems_u64; eauto; apply HF|auto|]. exists t. split; [exact E|]. exists P, I. split; [exact IM|]. split; [exact HI|]. split; [exact HF|].
  intros k Hk. apply elems_elem; auto.
Qed.
Lemma rep_prefix sh lay B n a t q : rep sh lay B n a t -> 0 <= q <= n -> ft_prefix t q = Ok (u64 (S1 a q)).
Proof. intros (P & I & IM & HI & HF & _) Hq. destruct HF as (_ & HF & _). apply (prefix_ok sh n P I (im_good IM)); auto. lia. Qed.
Lemma rep_add sh lay B n a t i d : rep sh lay B n a t -> 1 <= i <= n -> 0 <= a i + d <= B -> - 2 ^ 63 <= d < 2 ^ 63 ->
  exists t', ft_add sh t i d = Ok t' /\ rep sh lay B n (fadd a i d) t'.
Proof.
  intros (P & I & IM & HI & HF & HE) Hi Hb Hd. pose proof HF as (HB & Hn & _).
  assert (HE' : forall k, 1 <= k <= n -> 0 <= fadd a i d k <= B) by (intros k Hk; unfold fadd; destruct (Z.eqb_spec k i) as [->|]; auto).
  destruct (add_ok sh n P I (im_good IM) t a i d) as (t' & E & I'); auto; try lia.
  { intros k Hk Hc. apply (im_room IM k _ Hk). right. unfold node. pose proof (low_pos k). pose proof (low_le k ltac:(lia)). apply sum_fits; auto; try lia; intros j Hj; apply HE'; lia. }
  exists t'. split; [exact E|]. exists P, I. auto.
Qed.
Lemma rep_find sh lay B n a t comp v : rep sh lay B n a t -> can_search lay B n -> 0 <= v -> exists k rest, ft_find comp t v = Ok (k, rest) /\ found1 (comp_elem comp B a) n v k rest.
Proof.
  intros (P & I & IM & HI & (HB & Hn & HF) & HE) CS Hv. pose proof (im_good IM) as G. destruct (im_lay IM t _ HI) as (EL & EB).
  assert (HL64 : width B + Z.log2 n <= 64) by (destruct lay; lia). pose proof CS as (C1 & _). destruct (is_l lay) eqn:ISL.
  - eapply (find_L sh n P I G (im_l IM ISL CS)); eauto; try lia; [rewrite EL; exact ISL|]. intros k Hk. eapply bound_low; eauto.
  - assert (N : n <> 0) by (intros N; specialize (C1 N); discriminate C1). clear C1. eapply (find_F sh n P I G); eauto; try lia; [rewrite EL; exact ISL|]. intros k Hk. eapply bound_low; eauto.
Qed.
(** Beyond the end add does nothing. *)
Lemma add_past sh t i d : ft_size t < i -> ft_add sh t i d = Ok t.
Proof. intros H. unfold ft_add. change 65%nat with (S 64). generalize 64%nat. intros f. cbn [add_loop]. destruct (Z.leb_spec i (ft_size t)); [lia|reflexivity]. Qed.

Lemma fits_mono lay B n m : fits lay B n -> 0 <= m <= n -> fits lay B m.
Proof. intros (H1 & H2 & H3) Hm. pose proof (Z.log2_le_mono m n ltac:(lia)). split; [exact H1|]. split; [lia|]. destruct lay; lia. Qed.

(** ** Sums over blocks *)
Definition Ta (c : Z) (a : Z -> Z) (i : Z) : Z := sumf a ((i - 1) * c + 1) (i * c + 1).
Definition Ba (c : Z) (a : Z -> Z) (i j : Z) : Z := a (i * c + j).

Lemma mul_le c i k : 0 < c -> i <= k -> i * c <= k * c.
Proof. intros. apply Z.mul_le_mono_nonneg_r; lia. Qed.

Lemma S1_top c a : 0 < c -> forall k, 0 <= k -> S1 (Ta c a) k = S1 a (k * c).
Proof.
  intros Hc. apply natlike_ind; [unfold S1; rewrite !sumf_empty by lia; reflexivity|]. intros k Hk IH. unfold S1 in *. replace (Z.succ k + 1) with (k + 1 + 1) by lia.
  rewrite sumf_succ by lia. rewrite IH. unfold Ta. replace (k + 1 - 1) with k by lia. replace (Z.succ k) with (k + 1) by lia.
  assert (0 <= k * c) by (apply Z.mul_nonneg_nonneg; lia). rewrite <- sumf_split; [reflexivity|]. split; [lia|]. pose proof (mul_le c k (k + 1) Hc ltac:(lia)). lia.
Qed.

Lemma S1_bottom c a k j : 0 < c -> 0 <= k -> 0 <= j -> S1 a (k * c + j) = S1 (Ta c a) k + S1 (Ba c a k) j.
Proof.
  intros Hc Hk Hj. rewrite S1_top by auto. assert (0 <= k * c) by (apply Z.mul_nonneg_nonneg; lia). unfold S1. rewrite (sumf_split a 1 (k * c + 1)) by lia. f_equal.
  unfold Ba. rewrite (sumf_ext (fun j0 => a (k * c + j0)) (fun t => a (t + k * c))) by (intros; f_equal; lia). rewrite sumf_shift. f_equal; lia.
Qed.

Lemma S1_ext a b k : 0 <= k -> (forall i, 1 <= i <= k -> a i = b i) -> S1 a k = S1 b k.
Proof. intros Hk H. unfold S1. apply sumf_ext. intros. apply H. lia. Qed.

(** Two searches, one after the other. *)
Lemma found_both c m r b v k rest j rest2 : 0 < c -> 0 <= r < c -> 0 <= m -> (forall i, 1 <= i <= m * c + r -> 0 <= b i) ->
  found1 (Ta c b) m v k rest -> found1 (Ba c b k) (if k <? m then c - 1 else r) rest j rest2 -> found1 b (m * c + r) v (k * c + j) rest2.
Proof.
  intros Hc Hr Hm Hb (F1 & F2 & F3 & F4) (G1 & G2 & G3 & G4). assert (0 <= k * c) by (apply Z.mul_nonneg_nonneg; lia).
  assert (KJ : k * c + j <= m * c + r).
  { destruct (Z.ltb_spec k m); [|assert (k = m) by lia; subst; lia]. pose proof (mul_le c (k + 1) m Hc ltac:(lia)). lia. }
  split; [lia|]. rewrite S1_bottom by lia. split; [lia|]. split; [exact G3|]. intros i Hi.
  set (q := i / c). set (p := i mod c). assert (Ei : i = q * c + p) by (unfold q, p; rewrite Z.mul_comm; apply Z.div_mod; lia). assert (Hp : 0 <= p < c) by (apply Z.mod_pos_bound; lia).
  clearbody q p. destruct (Z.lt_trichotomy q k) as [L|[->|L]].
  - pose proof (mul_le c (q + 1) k Hc ltac:(lia)). lia.
  - rewrite Ei, S1_bottom by lia. specialize (G4 p). assert (j < p <= (if k <? m then c - 1 else r)); [|specialize (G4 ltac:(auto)); lia].
    destruct (Z.ltb_spec k m); [lia|]. assert (k = m) by lia. subst. lia.
  - assert (Q : q <= m). { destruct (Z.le_gt_cases q m); [auto|]. pose proof (mul_le c (m + 1) q Hc ltac:(lia)). lia. }
    pose proof (mul_le c (k + 1) q Hc ltac:(lia)) as QK. specialize (F4 (k + 1) ltac:(lia)). rewrite S1_top in F4 by lia. eapply Z.lt_le_trans; [exact F4|].
    unfold S1. apply sumf_mono; [lia|]. intros x Hx. apply Hb. lia.
Qed.

(** ** The invariant *)
Definition hrep (sh : bool) (top bot : layout) (B cut n : Z) (a : Z -> Z) (h : hybrid) : Prop :=
  let c := 2 ^ cut in
  hy_cut h = cut /\ hy_size h = n /\ rep sh top (B * c) (n / c) (Ta c a) (hy_top h) /\ zlen (hy_bots h) = n / c + 1 /\
  forall i, 0 <= i <= n / c -> exists t, getb (hy_bots h) i = Ok t /\ rep sh bot B (if i <? n / c then c - 1 else n mod c) (Ba c a i) t.

Lemma getb_nth l i t : getb l i = Ok t <-> 0 <= i /\ nth_error l (Z.to_nat i) = Some t.
Proof.
  unfold getb. destruct (Z.ltb_spec i 0); [split; [discriminate|lia]|]. destruct (nth_error l (Z.to_nat i)); split; intros E; try discriminate.
  - inversion E. auto. - destruct E as (_ & E). congruence. - destruct E as (_ & E). discriminate.
Qed.
Lemma getb_upd l i t k : 0 <= i -> 0 <= k < zlen l -> getb (upd_nat l (Z.to_nat k) t) i = if i =? k then Ok t else getb l i.
Proof.
  intros Hi Hk. unfold getb. destruct (Z.ltb_spec i 0); [lia|]. assert (G : forall (l : list ftree) a b, (b < length l)%nat -> nth_error (upd_nat l b t) a = if (a =? b)%nat then Some t else nth_error l a).
  { clear. induction l as [|x l IH]; intros a b Hb; cbn [length] in Hb; [lia|]. destruct b; cbn [upd_nat]; destruct a; cbn [nth_error Nat.eqb]; auto. apply IH. lia. }
  rewrite G by (unfold zlen in Hk; lia). destruct (Z.eqb_spec i k) as [->|]; [rewrite Nat.eqb_refl; reflexivity|]. destruct (Nat.eqb_spec (Z.to_nat i) (Z.to_nat k)); [lia|reflexivity].
Qed.
Lemma getb_app l t i : 0 <= i <= zlen l -> getb (l ++ [t]) i = if i =? zlen l then Ok t else getb l i.
Proof.
  intros Hi. unfold getb. destruct (Z.ltb_spec i 0); [lia|]. unfold zlen in *. destruct (Z.eqb_spec i (Z.of_nat (length l))) as [->|].
  - rewrite Nat2Z.id, nth_error_app2, Nat.sub_diag by lia. reflexivity.
  - rewrite nth_error_app1 by lia. reflexivity.
Qed.

Lemma pow_cut cut : 0 <= cut -> 0 < 2 ^ cut.
Proof. intros. apply Z.pow_pos_nonneg; lia. Qed.
Lemma land_bottom cut i : 0 <= cut -> Z.land i (bottom_size cut) = i mod 2 ^ cut.
Proof. intros H. unfold bottom_size. replace (2 ^ cut - 1) with (Z.ones cut) by (rewrite Z.ones_equiv; lia). apply Z.land_ones. exact H. Qed.

(** Index arithmetic: i = q * c + p. *)
Lemma split_index c i n : 0 < c -> 0 <= i <= n -> let q := i / c in let p := i mod c in
  i = q * c + p /\ 0 <= p < c /\ 0 <= q <= n / c /\ p <= (if q <? n / c then c - 1 else n mod c).
Proof.
  intros Hc Hi q p. assert (Ei : i = q * c + p) by (unfold q, p; rewrite Z.mul_comm; apply Z.div_mod; lia). assert (Hp : 0 <= p < c) by (apply Z.mod_pos_bound; lia).
  assert (En : n = n / c * c + n mod c) by (rewrite Z.mul_comm; apply Z.div_mod; lia). assert (Hq : 0 <= q) by (apply Z.div_pos; lia). assert (Hqn : q <= n / c) by (apply Z.div_le_mono; lia).
  split; [exact Ei|]. split; [exact Hp|]. split; [lia|]. destruct (Z.ltb_spec q (n / c)); [lia|]. assert (E : q = n / c) by lia. rewrite <- E in En. lia.
Qed.

Lemma hprefix_ok sh top bot B cut n a h i : 0 <= cut < 64 -> hrep sh top bot B cut n a h -> 0 <= i <= n -> hy_prefix h i = Ok (u64 (S1 a i)).
Proof.
  intros Hcut (E1 & E2 & RT & EL & RB) Hi. set (c := 2 ^ cut) in *. pose proof (pow_cut cut ltac:(lia)) as Hc. fold c in Hc.
  destruct (split_index c i n Hc Hi) as (Ei & Hp & Hq & Hpn). unfold hy_prefix. rewrite E1, Z.shiftr_div_pow2, land_bottom by lia. fold c.
  rewrite (rep_prefix _ _ _ _ _ _ _ RT) by lia. cbn [bind]. destruct (RB (i / c) Hq) as (b & EB & RBi). rewrite EB. cbn [bind]. rewrite (rep_prefix _ _ _ _ _ _ _ RBi) by lia. cbn [bind].
  rewrite u64_add_l, u64_add_r. rewrite <- S1_bottom by lia. rewrite <- Ei. reflexivity.
Qed.

Lemma Ta_bound c a B n : 0 < c -> (forall k, 1 <= k <= n -> 0 <= a k <= B) -> forall i, 1 <= i <= n / c -> 0 <= Ta c a i <= B * c.
Proof.
  intros Hc Ha i Hi. assert (En : n = n / c * c + n mod c) by (rewrite Z.mul_comm; apply Z.div_mod; lia). pose proof (Z.mod_pos_bound n c Hc).
  pose proof (mul_le c i (n / c) Hc ltac:(lia)). pose proof (mul_le c 0 (i - 1) Hc ltac:(lia)). unfold Ta.
  destruct (sumf_bound a B ((i - 1) * c + 1) (i * c + 1) ltac:(lia) ltac:(intros k Hk; apply Ha; lia)) as (S1' & S2). split; [exact S1'|]. replace (i * c + 1 - ((i - 1) * c + 1)) with c in S2 by lia. lia.
Qed.

Lemma Ta_fadd c a q p d k : 0 < c -> 0 < p <= c -> Ta c (fadd a (q * c + p) d) k = fadd (Ta c a) (q + 1) d k.
Proof.
  intros Hc Hp. unfold Ta. rewrite sumf_fadd by lia. unfold fadd. destruct (Z.eqb_spec k (q + 1)) as [->|N].
  - replace (q + 1 - 1) with q by lia. replace ((q * c + 1 <=? q * c + p) && (q * c + p <? (q + 1) * c + 1)) with true by lia. reflexivity.
  - destruct (Z.lt_ge_cases k (q + 1)).
    + pose proof (mul_le c k q Hc ltac:(lia)). replace (((k - 1) * c + 1 <=? q * c + p) && (q * c + p <? k * c + 1)) with false by lia. lia.
    + pose proof (mul_le c (q + 1) (k - 1) Hc ltac:(lia)). replace (((k - 1) * c + 1 <=? q * c + p) && (q * c + p <? k * c + 1)) with false by lia. lia.
Qed.

Lemma hadd_ok sh top bot B cut n a h i d : 0 <= cut < 64 -> 0 <= n <= 2 ^ 62 -> hrep sh top bot B cut n a h -> (forall k, 1 <= k <= n -> 0 <= a k <= B) -> 1 <= i <= n -> 0 <= a i + d <= B -> - 2 ^ 63 <= d < 2 ^ 63 ->
  exists h', hy_add sh h i d = Ok h' /\ hrep sh top bot B cut n (fadd a i d) h'.
Proof.
  intros Hcut Hn62 (E1 & E2 & RT & EL & RB) Ha Hi Hd Hdr. set (c := 2 ^ cut) in *. pose proof (pow_cut cut ltac:(lia)) as Hc. fold c in Hc.
  assert (Ha' : forall k, 1 <= k <= n -> 0 <= fadd a i d k <= B) by (intros k Hk; unfold fadd; destruct (Z.eqb_spec k i) as [->|]; auto).
  destruct (split_index c i n Hc ltac:(lia)) as (Ei & Hp & Hq & Hpn). unfold hy_add. rewrite E1, Z.shiftr_div_pow2, land_bottom by lia. fold c.
  set (q := i / c) in *. set (p := i mod c) in *. assert (NB : n / c <= 2 ^ 62) by (apply Z.div_le_upper_bound; [lia|]; pose proof (Z.mul_le_mono_nonneg 1 c (2 ^ 62) (2 ^ 62) ltac:(lia) ltac:(lia) ltac:(lia) ltac:(lia)); lia).
  destruct (Z.eqb_spec p 0) as [P0|P0].
  - assert (Q1 : 1 <= q) by (destruct (Z.eq_dec q 0) as [Q|]; [rewrite Q in Ei; lia|lia]).
    assert (TF : forall k, Ta c (fadd a i d) k = fadd (Ta c a) q d k).
    { intros k. replace i with ((q - 1) * c + c) by lia. rewrite Ta_fadd by lia. replace (q - 1 + 1) with q by lia. reflexivity. }
    destruct (rep_add sh top (B * c) (n / c) (Ta c a) (hy_top h) q d RT ltac:(lia)) as (t' & E & R'); [|exact Hdr|].
    { pose proof (Ta_bound c (fadd a i d) B n Hc Ha' q ltac:(lia)) as TB. rewrite TF in TB. unfold fadd in TB. rewrite Z.eqb_refl in TB. exact TB. }
    rewrite E. cbn [bind]. eexists. split; [reflexivity|]. repeat split; cbn [hy_cut hy_size hy_top hy_bots]; auto; fold c.
    + eapply rep_ext; [exact R'|]. intros k Hk. rewrite TF. reflexivity.
    + intros k Hk. destruct (RB k Hk) as (b & EB & RBk). exists b. split; [exact EB|]. eapply rep_ext; [exact RBk|]. intros j Hj. unfold Ba, fadd. destruct (Z.eqb_spec (k * c + j) i) as [X|]; [|reflexivity]. exfalso.
      assert (JC : j < c) by (pose proof (Z.mod_pos_bound n c Hc); destruct (k <? n / c); lia).
      assert (X2 : (q - k) * c = j) by lia. destruct (Z.le_gt_cases q k) as [L|L]; [pose proof (mul_le c (q - k) 0 Hc ltac:(lia)); lia|pose proof (mul_le c 1 (q - k) Hc ltac:(lia)); lia].
  - assert (TF : forall k, Ta c (fadd a i d) k = fadd (Ta c a) (q + 1) d k) by (intros k; rewrite Ei; apply Ta_fadd; lia).
    assert (exists t', ft_add sh (hy_top h) (u64 (q + 1)) d = Ok t' /\ rep sh top (B * c) (n / c) (Ta c (fadd a i d)) t') as (t' & E & R').
    { rewrite wrap_small by lia. destruct (Z.le_gt_cases (q + 1) (n / c)) as [L|L].
      - destruct (rep_add sh top (B * c) (n / c) (Ta c a) (hy_top h) (q + 1) d RT ltac:(lia)) as (t' & E & R'); [|exact Hdr|].
        { pose proof (Ta_bound c (fadd a i d) B n Hc Ha' (q + 1) ltac:(lia)) as TB. rewrite TF in TB. unfold fadd in TB. rewrite Z.eqb_refl in TB. exact TB. }
        exists t'. split; [exact E|]. eapply rep_ext; [exact R'|]. intros k Hk. rewrite TF. reflexivity.
      - exists (hy_top h). split; [apply add_past; rewrite (rep_size _ _ _ _ _ _ RT); lia|]. eapply rep_ext; [exact RT|]. intros k Hk. rewrite TF. unfold fadd. destruct (Z.eqb_spec k (q + 1)); [lia|reflexivity]. }
    rewrite E. cbn [bind]. destruct (RB q Hq) as (b & EB & RBq). rewrite EB. cbn [bind].
    destruct (rep_add sh bot B _ (Ba c a q) b p d RBq ltac:(lia)) as (b' & E' & RB'); [unfold Ba; rewrite <- Ei; exact Hd|exact Hdr|]. rewrite E'. cbn [bind].
    eexists. split; [reflexivity|]. repeat split; cbn [hy_cut hy_size hy_top hy_bots]; auto; fold c.
    + unfold zlen in *. rewrite length_upd_nat. exact EL.
    + intros k Hk. rewrite getb_upd by lia. destruct (Z.eqb_spec k q) as [->|NK].
      * exists b'. split; [reflexivity|]. eapply rep_ext; [exact RB'|]. intros j Hj. unfold Ba, fadd. destruct (Z.eqb_spec j p), (Z.eqb_spec (q * c + j) i); lia || reflexivity.
      * destruct (RB k Hk) as (b2 & EB2 & RBk). exists b2. split; [exact EB2|]. eapply rep_ext; [exact RBk|]. intros j Hj. unfold Ba, fadd. destruct (Z.eqb_spec (k * c + j) i) as [X|]; [|reflexivity]. exfalso.
        assert (JC : j < c) by (pose proof (Z.mod_pos_bound n c Hc); destruct (k <? n / c); lia).
        assert (X2 : (q - k) * c = j - p) by lia. destruct (Z.lt_ge_cases q k) as [L|L]; [pose proof (mul_le c (q - k) (-1) Hc ltac:(lia)); lia|pose proof (mul_le c 1 (q - k) Hc ltac:(lia)); lia].
Qed.

(** ** Searching *)
Lemma comp_top comp c B a i : 0 < c -> comp_elem comp (B * c) (Ta c a) i = Ta c (comp_elem comp B a) i.
Proof.
  intros Hc. destruct comp; cbn [comp_elem]; [|reflexivity]. unfold Ta. rewrite sumf_comp by (pose proof (mul_le c (i - 1) i Hc ltac:(lia)); lia). f_equal. lia.
Qed.
Lemma comp_bot comp c B a i j : comp_elem comp B (Ba c a i) j = Ba c (comp_elem comp B a) i j.
Proof. destruct comp; reflexivity. Qed.
Lemma found1_ext a b n v k rest : (forall i, 1 <= i <= n -> a i = b i) -> found1 a n v k rest -> found1 b n v k rest.
Proof.
  intros H (F1 & F2 & F3 & F4). split; [lia|]. rewrite <- (S1_same a b n k H F1). split; [exact F2|]. split; [exact F3|]. intros j Hj. rewrite <- (S1_same a b n j H) by lia. auto.
Qed.
Lemma can_full bot B cut n : 0 <= cut -> can_search bot B (n mod 2 ^ cut) -> can_search bot B (2 ^ cut - 1).
Proof.
  intros Hc (C1 & _). split.
  - intros E. apply C1. replace (2 ^ cut) with 1 by lia. apply Z.mod_1_r.
  - intros _ h Hh E. exfalso. pose proof (pow_cut cut Hc).
    replace (2 ^ cut - 1) with (Z.ones cut) in * by (rewrite Z.ones_equiv; lia). rewrite Z.ones_spec_low in E; [discriminate|].
    split; [lia|]. assert (cut <> 0) by (intros ->; cbn in Hh; lia). assert (0 < Z.ones cut) by (rewrite Z.ones_equiv; pose proof (Z.pow_le_mono_r 2 1 cut); lia). pose proof (proj1 (Z.log2_lt_pow2 (Z.ones cut) cut ltac:(lia))) as L. rewrite Z.ones_equiv in L at 1. lia.
Qed.

Lemma comp_bound comp B a n : (forall k, 1 <= k <= n -> 0 <= a k <= B) -> forall k, 1 <= k <= n -> 0 <= comp_elem comp B a k <= B.
Proof. intros H k Hk. specialize (H k Hk). destruct comp; cbn [comp_elem]; lia. Qed.

Lemma top_found sh top bot B cut n a h comp v : 0 <= cut < 64 -> 0 <= n <= 2 ^ 62 -> hrep sh top bot B cut n a h -> 0 <= v ->
  (n / 2 ^ cut <> 0 -> can_search top (B * 2 ^ cut) (n / 2 ^ cut)) ->
  exists k rest, (if ft_size (hy_top h) =? 0 then Ok (0, v) else ft_find comp (hy_top h) v) = Ok (k, rest) /\ found1 (Ta (2 ^ cut) (comp_elem comp B a)) (n / 2 ^ cut) v k rest.
Proof.
  intros Hcut Hn (E1 & E2 & RT & EL & RB) Hv CT. set (c := 2 ^ cut) in *. pose proof (pow_cut cut ltac:(lia)) as Hc. fold c in Hc.
  rewrite (rep_size _ _ _ _ _ _ RT). destruct (Z.eqb_spec (n / c) 0) as [Z0|Z0].
  - exists 0, v. split; [reflexivity|]. rewrite Z0. split; [lia|]. rewrite S1_0. split; [lia|]. split; [lia|]. intros; lia.
  - destruct (rep_find _ _ _ _ _ _ comp v RT (CT Z0) Hv) as (k & rest & E & F). exists k, rest. split; [exact E|]. eapply found1_ext; [|exact F]. intros i Hi. apply comp_top. exact Hc.
Qed.

Lemma hfind_ok sh top bot B cut n a h comp v : 0 <= cut < 64 -> 0 <= n <= 2 ^ 62 -> hrep sh top bot B cut n a h -> (forall k, 1 <= k <= n -> 0 <= a k <= B) -> 0 <= v ->
  (n / 2 ^ cut <> 0 -> can_search top (B * 2 ^ cut) (n / 2 ^ cut)) ->
  (can_search bot B (n mod 2 ^ cut) \/ v < S1 (comp_elem comp B a) (n - n mod 2 ^ cut) /\ can_search bot B (2 ^ cut - 1)) ->
  exists k rest, hy_find comp h v = Ok (k, rest) /\ found1 (comp_elem comp B a) n v k rest.
Proof.
  intros Hcut Hn R Ha Hv CT CB. destruct (top_found _ _ _ _ _ _ _ _ comp v Hcut Hn R Hv CT) as (k & rest & ET & FT). destruct R as (E1 & E2 & RT & EL & RB).
  set (c := 2 ^ cut) in *. pose proof (pow_cut cut ltac:(lia)) as Hc. fold c in Hc. set (b := comp_elem comp B a) in *.
  assert (En : n = n / c * c + n mod c) by (rewrite Z.mul_comm; apply Z.div_mod; lia). pose proof (Z.mod_pos_bound n c Hc) as Hr. pose proof FT as (F1 & F2 & F3 & F4). assert (Hm : 0 <= n / c) by lia.
  unfold hy_find. rewrite ET. cbn [bind]. destruct (Z.ltb_spec k (zlen (hy_bots h))); [|lia]. destruct (RB k F1) as (t & EB & RBk). rewrite EB. cbn [bind].
  assert (CS : can_search bot B (if k <? n / c then c - 1 else n mod c)).
  { destruct CB as [CB|(CB & CF)]; destruct (Z.ltb_spec k (n / c)); auto.
    - eapply can_full; eauto; lia.
    - exfalso. assert (k = n / c) by lia. subst k. rewrite S1_top in F2 by lia. replace (n - n mod c) with (n / c * c) in CB by lia. lia. }
  destruct (rep_find _ _ _ _ _ _ comp rest RBk CS F3) as (j & rest2 & EF & FB). rewrite EF. cbn [bind].
  apply (found1_ext _ (Ba c b k)) in FB; [|intros; apply comp_bot].
  assert (FF : found1 b (n / c * c + n mod c) v (k * c + j) rest2) by (apply (found_both c (n / c) (n mod c) b v k rest j rest2); auto; intros i Hi; apply (comp_bound comp B a n Ha); lia).
  rewrite <- En in FF. exists (k * c + j), rest2. split; [|exact FF]. rewrite E1, Z.shiftl_mul_pow2 by lia. fold c.
  destruct FF as (FF & _). destruct FB as (FB & _). assert (0 <= k * c) by (apply Z.mul_nonneg_nonneg; lia). rewrite (wrap_small 64 (k * c)) by lia. rewrite wrap_small by lia. reflexivity.
Qed.

(** ** Building *)
Lemma Forall_firstn' (P : Z -> Prop) k : forall l, Forall P l -> Forall P (firstn k l).
Proof. induction k as [|k IH]; intros [|x l] H; cbn [firstn]; auto. inversion H; subst. constructor; auto. Qed.
Lemma Forall_skipn' (P : Z -> Prop) k : forall l, Forall P l -> Forall P (skipn k l).
Proof. induction k as [|k IH]; intros [|x l] H; cbn [skipn]; auto. inversion H; subst. auto. Qed.

Lemma build_top_ok sh top B cut A : 0 <= cut < 64 -> 0 <= zlen A <= 2 ^ 48 -> 0 <= B -> B * 2 ^ cut < 2 ^ 63 -> fits top (B * 2 ^ cut) (zlen A / 2 ^ cut) -> (top = BitL -> sh = true) -> elems_ok B A ->
  exists t, build_top sh top B cut A = Ok t /\ rep sh top (B * 2 ^ cut) (zlen A / 2 ^ cut) (fun k => elem A (k * 2 ^ cut)) t.
Proof.
  intros Hcut Hn HB HBc HF Hsh HE. set (c := 2 ^ cut) in *. pose proof (pow_cut cut ltac:(lia)) as Hc. fold c in Hc. set (n := zlen A) in *.
  assert (En : n = n / c * c + n mod c) by (rewrite Z.mul_comm; apply Z.div_mod; lia). pose proof (Z.mod_pos_bound n c Hc) as Hr. assert (Hm : 0 <= n / c) by (apply Z.div_pos; lia).
  unfold build_top. fold n. rewrite Z.shiftr_div_pow2 by lia. fold c.
  destruct (foldM_range (fun l i => let* v := geti A (u64 (i * c) - 1) in Ok (l ++ [v])) (fun i l => zlen l = i /\ forall k, 1 <= k <= i -> elem l k = elem A (k * c)) 1 (Z.to_nat (n / c)) []) as (sub & ES & LS & IS).
  - intros k l Hk (L1 & L2). pose proof (mul_le c (1 + k) (n / c) Hc ltac:(lia)). pose proof (mul_le c 1 (1 + k) Hc ltac:(lia)). rewrite wrap_small by lia. rewrite geti_ok by (fold n; lia). cbn [bind]. eexists. split; [reflexivity|].
    rewrite zlen_app. split; [cbn; lia|]. intros i Hi. unfold elem at 1. destruct (Z.lt_ge_cases (i - 1) (zlen l)); [rewrite zn_app_l by lia; apply L2; lia|rewrite zn_app_r by lia]. replace i with (1 + k) by lia. replace (1 + k - 1 - zlen l) with 0 by lia. reflexivity.
  - split; [reflexivity|]. intros; lia.
  - rewrite Z2Nat.id in * by lia. rewrite ES. cbn [bind]. replace (top_bound B cut) with (B * c) by (unfold top_bound; rewrite wrap_small by (fold c; split; [apply Z.mul_nonneg_nonneg|]; lia); reflexivity).
    rewrite <- LS in HF |- *. destruct (rep_build sh top (B * c) sub HF Hsh) as (t & E & R).
    + unfold elems_ok. apply Forall_forall. intros x Hx. destruct (In_nth sub x 0 Hx) as (j & Hj & <-). 
      assert (X : nth j sub 0 = elem sub (Z.of_nat j + 1)) by (unfold elem, zn; f_equal; lia). rewrite X. unfold zlen in LS. rewrite IS by lia. pose proof (mul_le c (Z.of_nat j + 1) (n / c) Hc ltac:(lia)). pose proof (mul_le c 1 (Z.of_nat j + 1) Hc ltac:(lia)).
      destruct (elems_elem B A ((Z.of_nat j + 1) * c) HE ltac:(fold n; lia)). split; [auto|]. pose proof (Z.mul_le_mono_nonneg_l 1 c B HB ltac:(lia)). lia.
    + exists t. split; [exact E|]. eapply rep_ext; [exact R|]. intros k Hk. apply IS. lia.
Qed.

Lemma build_bots_ok sh bot B cut A : 0 <= cut < 64 -> 0 <= zlen A <= 2 ^ 48 -> fits bot B (Z.min (zlen A) (2 ^ cut - 1)) -> (bot = BitL -> sh = true) -> elems_ok B A ->
  exists l, build_bots sh bot B cut A (zlen A / 2 ^ cut) = Ok l /\ zlen l = zlen A / 2 ^ cut + 1 /\
  forall i, 0 <= i <= zlen A / 2 ^ cut -> exists t, getb l i = Ok t /\ rep sh bot B (if i <? zlen A / 2 ^ cut then 2 ^ cut - 1 else zlen A mod 2 ^ cut) (Ba (2 ^ cut) (elem A) i) t.
Proof.
  intros Hcut Hn HF Hsh HE. set (c := 2 ^ cut) in *. pose proof (pow_cut cut ltac:(lia)) as Hc. fold c in Hc. assert (Hc2 : c <= 2 ^ 63) by (apply Z.pow_le_mono_r; lia). set (n := zlen A) in *.
  assert (En : n = n / c * c + n mod c) by (rewrite Z.mul_comm; apply Z.div_mod; lia). pose proof (Z.mod_pos_bound n c Hc) as Hr. assert (Hm : 0 <= n / c) by (apply Z.div_pos; lia).
  unfold build_bots. fold n c.
  match goal with |- context [foldM ?f _ _] => destruct (foldM_range f (fun i l => zlen l = i /\ forall k, 0 <= k < i -> exists t, getb l k = Ok t /\ rep sh bot B (if k <? n / c then c - 1 else n mod c) (Ba c (elem A) k) t) 0 (Z.to_nat (n / c + 1)) []) as (l & EL & LL & IL) end.
  - intros k l Hk (L1 & L2). rewrite Z.add_0_l. pose proof (mul_le c k (n / c) Hc ltac:(lia)). assert (0 <= k * c) by (apply Z.mul_nonneg_nonneg; lia). replace (c * k) with (k * c) by lia. rewrite (wrap_small 64 (k * c)) by lia.
    replace (bottom_size cut) with (c - 1) by reflexivity. rewrite (wrap_small 64 (c - 1 + k * c)) by lia.
    assert (BS : (if c - 1 + k * c <=? n then c - 1 else Z.land n (c - 1)) = (if k <? n / c then c - 1 else n mod c)).
    { replace (Z.land n (c - 1)) with (n mod c) by (symmetry; apply (land_bottom cut n); lia). destruct (Z.ltb_spec k (n / c)) as [L|L].
      - pose proof (mul_le c (k + 1) (n / c) Hc ltac:(lia)). destruct (Z.leb_spec (c - 1 + k * c) n); lia.
      - assert (EK : k = n / c) by lia. rewrite EK. destruct (Z.leb_spec (c - 1 + n / c * c) n); lia. }
    rewrite BS. set (bs := if k <? n / c then c - 1 else n mod c) in *.
    assert (HBS : 0 <= bs /\ k * c + bs <= n /\ bs <= c - 1).
    { unfold bs. destruct (Z.ltb_spec k (n / c)) as [L|L]; [pose proof (mul_le c (k + 1) (n / c) Hc ltac:(lia)); lia|assert (EK : k = n / c) by lia; rewrite EK; lia]. }
    unfold slice. fold n. replace ((0 <=? k * c) && (k * c + bs <=? n)) with true by lia. cbn [bind].
    set (sub := firstn (Z.to_nat bs) (skipn (Z.to_nat (k * c)) A)). assert (LS : zlen sub = bs) by (unfold sub, zlen; rewrite firstn_length_le; [lia|rewrite skipn_length; unfold n, zlen in *; lia]).
    destruct (rep_build sh bot B sub) as (t & E & R); [rewrite LS; eapply fits_mono; [exact HF|lia]|exact Hsh| |].
    { unfold sub. apply Forall_firstn'. apply Forall_skipn'. exact HE. }
    rewrite E. cbn [bind]. eexists. split; [reflexivity|]. rewrite zlen_app. split; [cbn; lia|]. intros i Hi. rewrite getb_app by lia. destruct (Z.eqb_spec i (zlen l)) as [->|].
    + exists t. split; [reflexivity|]. rewrite L1. fold bs. rewrite LS in R. eapply rep_ext; [exact R|]. intros j Hj. unfold Ba, elem, sub. rewrite zn_firstn_skipn by lia. f_equal. lia.
    + apply L2. lia.
  - split; [reflexivity|]. intros; lia.
  - rewrite Z2Nat.id in * by lia. exists l. split; [exact EL|]. split; [exact LL|]. intros i Hi. apply IL. lia.
Qed.

Lemma hbuild_ok sh top bot B cut A : hybrid_fits top bot B cut (zlen A) -> (top = BitL \/ bot = BitL -> sh = true) -> elems_ok B A ->
  exists h, hy_build sh top bot B cut A = Ok h /\ hrep sh top bot B cut (zlen A) (elem A) h.
Proof.
  intros (Hn & Hcut & HBc & FT & FB) Hsh HE. pose proof FB as ((HB & _) & _). destruct (build_top_ok sh top B cut A Hcut Hn HB HBc FT ltac:(auto) HE) as (t & E & R).
  destruct (build_bots_ok sh bot B cut A Hcut Hn FB ltac:(auto) HE) as (l & EL & LL & IL).
  unfold hy_build. rewrite E. cbn [bind]. rewrite (rep_size _ _ _ _ _ _ R). rewrite EL. cbn [bind].
  set (c := 2 ^ cut) in *. pose proof (pow_cut cut ltac:(lia)) as Hc. fold c in Hc. set (n := zlen A) in *.
  assert (En : n = n / c * c + n mod c) by (rewrite Z.mul_comm; apply Z.div_mod; lia). pose proof (Z.mod_pos_bound n c Hc) as Hr. assert (Hm : 0 <= n / c) by (apply Z.div_pos; lia).
  match goal with |- context [foldM ?f _ _] => destruct (foldM_range f (fun i t => rep sh top (B * c) (n / c) (fun k => if k <=? i then Ta c (elem A) k else elem A (k * c)) t) 0 (Z.to_nat (n / c)) t) as (t2 & E2 & R2) end.
  - intros k s Hk Rs. rewrite Z.add_0_l. destruct (IL k ltac:(lia)) as (b & EB & RB). destruct (Z.ltb_spec k (n / c)); [|lia]. rewrite EB. cbn [bind]. rewrite (rep_size _ _ _ _ _ _ RB). rewrite (rep_prefix _ _ _ _ _ _ _ RB) by lia. cbn [bind].
    pose proof (mul_le c (k + 1) (n / c) Hc ltac:(lia)). assert (0 <= k * c) by (apply Z.mul_nonneg_nonneg; lia).
    set (x := S1 (Ba c (elem A) k) (c - 1)).
    assert (HX : x + elem A ((k + 1) * c) = Ta c (elem A) (k + 1)).
    { unfold x, S1, Ta, Ba. replace (k + 1 - 1) with k by lia. rewrite (sumf_ext (fun j => elem A (k * c + j)) (fun t => elem A (t + k * c))) by (intros; f_equal; lia). rewrite sumf_shift. replace ((k + 1) * c + 1) with (k * c + c + 1) by lia.
      rewrite (sumf_succ (elem A) (k * c + 1) (k * c + c)) by lia. f_equal; f_equal; lia. }
    pose proof (Ta_bound c (elem A) B n Hc ltac:(intros i Hi; apply elems_elem; auto) (k + 1) ltac:(lia)) as TB.
    assert (HX0 : 0 <= x). { unfold x. destruct (sumf_bound (Ba c (elem A) k) B 1 (c - 1 + 1) ltac:(lia)) as (X & _); [|exact X]. intros j Hj. unfold Ba. apply elems_elem; auto. fold n. lia. }
    destruct (elems_elem B A ((k + 1) * c) HE ltac:(fold n; lia)) as (X1 & X2).
    rewrite wrap_small by lia. replace (s64 x) with x by (unfold s64; destruct (Z.ltb_spec x (2 ^ 63)); lia).
    destruct (rep_add sh top (B * c) (n / c) _ s (k + 1) x Rs ltac:(lia)) as (s' & ES & RS); [cbn beta; destruct (Z.leb_spec (k + 1) k); lia|lia|].
    exists s'. split; [exact ES|]. eapply rep_ext; [exact RS|]. intros i Hi. unfold fadd. destruct (Z.eqb_spec i (k + 1)) as [->|].
    + destruct (Z.leb_spec (k + 1) k); [lia|]. rewrite Z.leb_refl. lia.
    + destruct (Z.leb_spec i k), (Z.leb_spec i (k + 1)); try lia; reflexivity.
  - eapply rep_ext; [exact R|]. intros i Hi. destruct (Z.leb_spec i 0); [lia|reflexivity].
  - rewrite Z2Nat.id in * by lia. rewrite E2. cbn [bind]. eexists. split; [reflexivity|]. repeat split; cbn [hy_cut hy_size hy_top hy_bots]; auto. fold c.
    eapply rep_ext; [exact R2|]. intros i Hi. cbn beta. destruct (Z.leb_spec i (n / c)); [reflexivity|lia].
Qed.

(** ** Clients *)
Lemma hrep_ext sh top bot B cut n a b h : 0 <= cut < 64 -> hrep sh top bot B cut n a h -> (forall k, 1 <= k <= n -> a k = b k) -> hrep sh top bot B cut n b h.
Proof.
  intros Hcut (E1 & E2 & RT & EL & RB) H. set (c := 2 ^ cut) in *. pose proof (pow_cut cut ltac:(lia)) as Hc. fold c in Hc. repeat split; auto; fold c.
  - eapply rep_ext; [exact RT|]. intros i Hi. assert (En : n = n / c * c + n mod c) by (rewrite Z.mul_comm; apply Z.div_mod; lia). pose proof (Z.mod_pos_bound n c Hc).
    pose proof (mul_le c i (n / c) Hc ltac:(lia)). pose proof (mul_le c 0 (i - 1) Hc ltac:(lia)). unfold Ta. apply sumf_ext. intros j Hj. apply H. lia.
  - intros i Hi. destruct (RB i Hi) as (t & ET & R). exists t. split; [exact ET|]. eapply rep_ext; [exact R|]. intros j Hj. unfold Ba. apply H.
    assert (En : n = n / c * c + n mod c) by (rewrite Z.mul_comm; apply Z.div_mod; lia). assert (0 <= i * c) by (apply Z.mul_nonneg_nonneg; lia).
    destruct (Z.ltb_spec i (n / c)); [pose proof (mul_le c (i + 1) (n / c) Hc ltac:(lia)); lia|assert (i = n / c) by lia; subst i; lia].
Qed.
Lemma whole_blocks cut n : 0 <= cut -> 0 <= n -> 0 <= n - n mod 2 ^ cut <= n.
Proof. intros Hcut Hn. pose proof (pow_cut cut Hcut). pose proof (Z.mod_pos_bound n (2 ^ cut) ltac:(lia)). pose proof (Z.mod_le n (2 ^ cut) Hn ltac:(lia)). lia. Qed.

Lemma hstep_ok sh top bot B cut h A p : hybrid_fits top bot B cut (zlen A) -> hrep sh top bot B cut (zlen A) (elem A) h -> elems_ok B A -> hybrid_op_ok top bot B cut A p ->
  exists o h', hy_step sh h p = Ok (o, h') /\ fop_answer B A p o /\ hrep sh top bot B cut (zlen A) (elem (fop_after A p)) h' /\ elems_ok B (fop_after A p) /\ zlen (fop_after A p) = zlen A.
Proof.
  intros (Hn & Hcut & _) R HE (HO & HS). pose proof (zlen_nonneg A). assert (Hn62 : 0 <= zlen A <= 2 ^ 62) by lia. assert (HA : forall k, 1 <= k <= zlen A -> 0 <= elem A k <= B) by (intros; apply elems_elem; auto).
  destruct p as [i|i inc|v|v|]; cbn [hy_step fop_ok fop_after] in *.
  - rewrite (hprefix_ok _ _ _ _ _ _ _ _ i Hcut R HO). cbn [bind]. do 2 eexists. split; [reflexivity|]. split; [|auto]. cbn [fop_answer]. rewrite seq_sum_S1 by lia. reflexivity.
  - destruct HO as (O1 & O2 & O3). destruct (hadd_ok _ _ _ _ _ _ _ _ i inc Hcut Hn62 R HA O1 O2 O3) as (h' & E & R'). rewrite E. cbn [bind]. do 2 eexists. split; [reflexivity|]. split; [exact I|].
    split; [|split; [apply elems_add; auto|apply zlen_add]]. eapply hrep_ext; [exact Hcut|exact R'|]. intros k Hk. symmetry. apply elem_add; auto.
  - destruct HS as (S1' & S2). destruct (hfind_ok _ _ _ _ _ _ _ _ false v Hcut Hn62 R HA ltac:(lia) S1') as (k & rest & E & F).
    { destruct S2 as [S2|(S2 & S3)]; [left; exact S2|right]. split; [|exact S3]. cbn [comp_elem]. rewrite <- seq_sum_S1; [exact S2|]. eapply whole_blocks; lia. }
    rewrite E. cbn [bind]. do 2 eexists. split; [reflexivity|]. split; [|auto]. cbn [fop_answer]. eapply found_found1; eauto.
  - destruct HS as (S1' & S2). rewrite zlen_comp in *. destruct (hfind_ok _ _ _ _ _ _ _ _ true v Hcut Hn62 R HA ltac:(lia) S1') as (k & rest & E & F).
    { destruct S2 as [S2|(S2 & S3)]; [left; exact S2|right]. split; [|exact S3]. pose proof (whole_blocks cut (zlen A) ltac:(lia) ltac:(lia)). rewrite seq_sum_S1 in S2 by (rewrite zlen_comp; lia).
      erewrite S1_same; [exact S2| |]; [|eassumption]. intros j Hj. symmetry. apply elem_comp. lia. }
    rewrite E. cbn [bind]. do 2 eexists. split; [reflexivity|]. split; [|auto]. cbn [fop_answer]. apply (found_found1 _ (comp_elem true B (elem A)) (zlen A)); auto; [rewrite zlen_comp; auto|]. intros j Hj. apply elem_comp. lia.
  - do 2 eexists. split; [reflexivity|]. split; [|auto]. cbn [fop_answer]. apply R.
Qed.

Lemma hrun_ok sh top bot B cut : forall ops h A, hybrid_fits top bot B cut (zlen A) -> hrep sh top bot B cut (zlen A) (elem A) h -> elems_ok B A -> hybrid_ops_ok top bot B cut A ops ->
  exists outs, hy_run sh h ops = Ok outs /\ fanswers B A ops outs.
Proof.
  induction ops as [|p r IH]; intros h A HF R HE HO; [exists []; split; [reflexivity|exact I]|]. destruct HO as (O1 & O2).
  destruct (hstep_ok sh top bot B cut h A p HF R HE O1) as (o & h' & E & FA & R' & E' & N'). rewrite <- N' in R', HF. destruct (IH h' (fop_after A p) HF R' E' O2) as (outs & ER & FR).
  exists (o :: outs). split; [|split; auto]. cbn [hy_run]. rewrite E. cbn [bind]. rewrite ER. reflexivity.
Qed.

Lemma hybrid_client sh top bot B cut A ops : hybrid_fits top bot B cut (zlen A) -> (top = BitL \/ bot = BitL -> sh = true) -> elems_ok B A -> hybrid_ops_ok top bot B cut A ops ->
  exists outs, hy_client sh top bot B cut A ops = Ok outs /\ fanswers B A ops outs.
Proof.
  intros HF Hsh HE HO. destruct (hbuild_ok sh top bot B cut A HF Hsh HE) as (h & E & R). unfold hy_client. rewrite E. cbn [bind]. eapply hrun_ok; eauto.
Qed.

(** ** The limit of searching *)
Lemma hrun_after sh top bot B cut : forall ops h A, hybrid_fits top bot B cut (zlen A) -> hrep sh top bot B cut (zlen A) (elem A) h -> elems_ok B A -> hybrid_ops_ok top bot B cut A ops ->
  exists outs h', (forall r, hy_run sh h (ops ++ r) = let* l := hy_run sh h' r in Ok (outs ++ l)) /\
    hrep sh top bot B cut (zlen A) (elem (fold_left fop_after ops A)) h' /\ elems_ok B (fold_left fop_after ops A) /\ zlen (fold_left fop_after ops A) = zlen A.
Proof.
  induction ops as [|p r IH]; intros h A HF R HE HO.
  - exists [], h. split; [intros r; cbn [app]; destruct (hy_run sh h r); reflexivity|]. cbn [fold_left]. auto.
  - destruct HO as (O1 & O2). destruct (hstep_ok sh top bot B cut h A p HF R HE O1) as (o & h' & E & FA & R' & E' & N'). rewrite <- N' in R', HF. destruct (IH h' (fop_after A p) HF R' E' O2) as (outs & h2 & ER & R2 & E2 & N2).
    exists (o :: outs), h2. split; [|cbn [fold_left]; rewrite N' in R2, N2; auto]. intros s. cbn [app hy_run]. rewrite E. cbn [bind]. rewrite ER. destruct (hy_run sh h2 s); reflexivity.
Qed.

Lemma find_empty comp t v : is_l (ft_lay t) = false -> ft_size t = 0 -> ft_find comp t v = Ub UB_ctz0.
Proof. intros H1 H2. unfold ft_find. rewrite H1, H2. reflexivity. Qed.
Lemma rep_lay sh lay B n a t : rep sh lay B n a t -> ft_lay t = lay.
Proof. intros (P & I & IM & HI & _). apply (im_lay IM t _ HI). Qed.

Lemma hfind_never sh top bot B cut n a h comp v : 0 <= cut < 64 -> 0 <= n <= 2 ^ 62 -> hrep sh top bot B cut n a h -> 0 <= v ->
  (n / 2 ^ cut <> 0 -> can_search top (B * 2 ^ cut) (n / 2 ^ cut)) -> is_l bot = false -> n mod 2 ^ cut = 0 -> S1 (comp_elem comp B a) n <= v -> hy_find comp h v = Ub UB_ctz0.
Proof.
  intros Hcut Hn R Hv CT HL HM HS. destruct (top_found _ _ _ _ _ _ _ _ comp v Hcut Hn R Hv CT) as (k & rest & ET & FT). destruct R as (E1 & E2 & RT & EL & RB).
  set (c := 2 ^ cut) in *. pose proof (pow_cut cut ltac:(lia)) as Hc. fold c in Hc. assert (En : n = n / c * c + n mod c) by (rewrite Z.mul_comm; apply Z.div_mod; lia). destruct FT as (F1 & F2 & F3 & F4).
  assert (EK : k = n / c). { destruct (Z.eq_dec k (n / c)); [auto|]. specialize (F4 (n / c) ltac:(lia)). rewrite S1_top in F4 by lia. replace (n / c * c) with n in F4 by lia. lia. }
  unfold hy_find. rewrite ET. cbn [bind]. destruct (Z.ltb_spec k (zlen (hy_bots h))); [|lia]. destruct (RB k F1) as (t & EB & RBk). rewrite EB. cbn [bind]. rewrite EK in RBk. rewrite Z.ltb_irrefl in RBk.
  rewrite find_empty; [reflexivity|rewrite (rep_lay _ _ _ _ _ _ RBk); exact HL|rewrite (rep_size _ _ _ _ _ _ RBk); exact HM].
Qed.

Lemma hybrid_find_total sh top bot B cut A ops v more : hybrid_fits top bot B cut (zlen A) -> (top = BitL \/ bot = BitL -> sh = true) -> elems_ok B A -> hybrid_ops_ok top bot B cut A ops ->
  (zlen A / 2 ^ cut <> 0 -> can_search top (B * 2 ^ cut) (zlen A / 2 ^ cut)) -> is_l bot = false -> zlen A mod 2 ^ cut = 0 ->
  0 <= v -> seq_sum (fold_left fop_after ops A) (zlen A) <= v -> hy_client sh top bot B cut A (ops ++ FFind v :: more) = Ub UB_ctz0.
Proof.
  intros HF Hsh HE HO CT HL HM Hv HS. destruct (hbuild_ok sh top bot B cut A HF Hsh HE) as (h & E & R). unfold hy_client. rewrite E. cbn [bind].
  destruct (hrun_after sh top bot B cut ops h A HF R HE HO) as (outs & h' & ER & R' & E' & N'). rewrite ER. destruct HF as (Hn & Hcut & _). cbn [hy_run hy_step].
  pose proof (zlen_nonneg A). rewrite (hfind_never sh top bot B cut (zlen A) _ h' false v Hcut ltac:(lia) R' Hv CT HL HM); [reflexivity|]. cbn [comp_elem]. rewrite <- seq_sum_S1 by lia. exact HS.
Qed.

(** ** Answers are determined *)
Lemma found_fun A v k r k' r' : found A v k r -> found A v k' r' -> k = k' /\ r = r'.
Proof.
  intros (F1 & F2 & F3 & F4) (G1 & G2 & G3 & G4). assert (k = k'); [|subst; auto].
  destruct (Z.lt_trichotomy k k') as [L|[E|L]]; [specialize (F4 k' ltac:(lia)); lia|exact E|specialize (G4 k ltac:(lia)); lia].
Qed.
Lemma fanswers_fun B : forall ops A o o', fanswers B A ops o -> fanswers B A ops o' -> o = o'.
Proof.
  induction ops as [|p r IH]; intros A [|x o] [|x' o'] H H'; cbn [fanswers] in H, H'; try contradiction; [reflexivity|].
  destruct H as (H1 & H2), H' as (H1' & H2'). f_equal; [|eapply IH; eauto].
  destruct p, x, x'; cbn [fop_answer] in H1, H1'; try contradiction; try congruence; destruct (found_fun _ _ _ _ _ _ H1 H1'); congruence.
Qed.
Lemma hybrid_same sh top bot lay B cut A ops : hybrid_fits top bot B cut (zlen A) -> (top = BitL \/ bot = BitL \/ lay = BitL -> sh = true) -> elems_ok B A -> hybrid_ops_ok top bot B cut A ops ->
  fits lay B (zlen A) -> (searches ops -> can_search lay B (zlen A)) -> hy_client sh top bot B cut A ops = ft_client sh lay B A ops.
Proof.
  intros HF Hsh HE HO HL HS. destruct (hybrid_client sh top bot B cut A ops HF ltac:(tauto) HE HO) as (o & E & F).
  assert (HO' : fops_ok B A ops). { clear - HO. revert A HO. induction ops as [|p r IH]; intros A H; cbn [fops_ok]; [exact I|]. destruct H as ((H1 & _) & H2). auto. }
  destruct (client_ok sh lay B A ops HL ltac:(auto) HE HO' HS) as (o' & E' & F'). rewrite E, E'. f_equal. eapply fanswers_fun; eauto.
Qed.
