(** SelectMPE64: choosing and storing the form of one block. *)
From Coq Require Import ZifyBool.
From Verif Require Import Base BaseFacts Mem MemFacts Words WordFacts BlockFacts NodeFacts Trees TreeBuild Spec BitmapFacts KernelFacts SpecPoppy PoppyFacts PoppyFacts2 SpecText MrRank MrRankFacts MrRankFacts3 MrSelect MrSelectFacts MrMpe MrMpeFacts MrMpeFacts2 MrSmpe.
Ltac Zify.zify_post_hook ::= Z.div_mod_to_equations.

(** The bytes of a block are [g 0], ..., [g (n - 1)]. *)
Definition holds (g : Z -> Z) (n : Z) (cont : list Z) : Prop := 0 <= n <= zlen cont /\ (forall j, 0 <= j < n -> zn 0 cont j = g j) /\ forall j, 0 <= j < n -> u8 (g j) = g j.
Definition gp (v : Z) (g : Z -> Z) (n j : Z) : bool := (j <? n / 2) && ((g (2 * j) =? v) && (g (2 * j + 1) =? v)).
Definition gn (v : Z) (g : Z -> Z) (n : Z) : Z := cnt (gp v g n) (n / 2).

Lemma pair_eq_gp v g n cont j : holds g n cont -> 0 <= j < n / 2 -> pair_eq v cont (2 * j) = Ok (gp v g n j).
Proof.
  intros (H0 & H1 & _) Hj. unfold pair_eq, gp. replace (j <? n / 2) with true by lia. rewrite !geti_ok by lia. cbn [bind andb]. rewrite !H1 by lia.
  destruct (g (2 * j) =? v); reflexivity.
Qed.
Lemma gp_disj g n j : gp 0 g n j = true -> gp 255 g n j = true -> False.
Proof. unfold gp. lia. Qed.
Lemma gp_over v g n j : n / 2 <= j -> gp v g n j = false.
Proof. intros. unfold gp. replace (j <? n / 2) with false by lia. reflexivity. Qed.

Lemma pairs_any_ok g n cont : holds g n cont -> pairs_any cont n = Ok (gn 0 g n + gn 255 g n).
Proof.
  intros H. pose proof (proj1 H) as Hn. unfold pairs_any.
  match goal with |- foldM ?f _ _ = _ => destruct (foldM_inv f (fun j c => c = cnt (gp 0 g n) j + cnt (gp 255 g n) j) (Z.to_nat (n / 2)) 0 0) as (c & E & P) end.
  - reflexivity.
  - intros j c Hj ->. rewrite !(pair_eq_gp _ g n) by (auto; lia). cbn [bind]. pose proof (gp_disj g n j) as D. rewrite !cnt_succ by lia.
    destruct (gp 0 g n j); cbn [bind b2z]; [destruct (gp 255 g n j); [exfalso; auto|]|destruct (gp 255 g n j)]; cbn [b2z]; eexists; (split; [reflexivity|lia]).
  - rewrite E, P. replace (0 + Z.of_nat (Z.to_nat (n / 2))) with (n / 2) by lia. reflexivity.
Qed.
Lemma pairs_both_ok g n cont : holds g n cont -> pairs_both cont n = Ok (gn 0 g n, gn 255 g n).
Proof.
  intros H. pose proof (proj1 H) as Hn. unfold pairs_both.
  match goal with |- foldM ?f _ _ = _ => destruct (foldM_inv f (fun j c => c = (cnt (gp 0 g n) j, cnt (gp 255 g n) j)) (Z.to_nat (n / 2)) 0 (0, 0)) as (c & E & P) end.
  - reflexivity.
  - intros j c Hj ->. rewrite !(pair_eq_gp _ g n) by (auto; lia). cbn [bind]. rewrite !cnt_succ by lia.
    destruct (gp 0 g n j), (gp 255 g n j); cbn [b2z]; eexists; (split; [reflexivity|f_equal; lia]).
  - rewrite E, P. replace (0 + Z.of_nat (Z.to_nat (n / 2))) with (n / 2) by lia. reflexivity.
Qed.

(** Which pairs are left out, from their numbers and the length of a table. *)
Definition dz3 (T : mpe_type) (n0 n1 tl : Z) : bool :=
  match T with MPE1 => n0 + n1 >? tl | MPE2 => 2 * n0 >? tl | MPE3 => (n0 >? 9) && (n1 >? 9) || (n0 >=? 18) && (n1 <=? 9) end.
Definition do3 (T : mpe_type) (n0 n1 tl : Z) : bool :=
  match T with MPE1 => n0 + n1 >? tl | MPE2 => 2 * n1 >? tl | MPE3 => (n0 >? 9) && (n1 >? 9) || (n0 <=? 9) && (n1 >=? 18) end.

Definition rm (z o : bool) (g : Z -> Z) (n j : Z) : bool := z && gp 0 g n j || o && gp 255 g n j.
Definition fl (o : bool) (g : Z -> Z) (n j : Z) : bool := o && gp 255 g n j.
Definition rn (z o : bool) (g : Z -> Z) (n : Z) : Z := cnt (rm z o g n) (n / 2).
Definition heads (z o : bool) (tl : Z) : Z := tl * (b2z z + b2z o).
Definition width (z o : bool) (g : Z -> Z) (n tl : Z) : Z := heads z o tl + n - 2 * rn z o g n.

Lemma cnt_parts z o g n q : 0 <= q -> cnt (rm z o g n) q = (if z then cnt (gp 0 g n) q else 0) + (if o then cnt (gp 255 g n) q else 0).
Proof.
  intros Hq. pattern q. apply natlike_ind; auto.
  - destruct z, o; reflexivity.
  - intros x Hx IH. unfold Z.succ. rewrite !cnt_succ, IH by lia. unfold rm. pose proof (gp_disj g n x).
    destruct z, o, (gp 0 g n x), (gp 255 g n x); cbn [andb orb b2z]; try lia; exfalso; auto.
Qed.
Lemma rn_parts z o g n : 0 <= n -> rn z o g n = (if z then gn 0 g n else 0) + (if o then gn 255 g n else 0).
Proof. intros Hn. apply cnt_parts. lia. Qed.
Lemma rn_bound z o g n : 0 <= n -> 0 <= rn z o g n <= n / 2.
Proof. intros. apply cnt_bound. lia. Qed.
Lemma rm_over z o g n j : n / 2 <= j -> rm z o g n j = false.
Proof. intros. unfold rm. rewrite !gp_over by lia. rewrite !andb_false_r. reflexivity. Qed.
Lemma fl_rm z o g n j : fl o g n j = true -> rm z o g n j = true.
Proof. unfold fl, rm. intros ->. apply orb_true_r. Qed.

Ltac tri := match goal with |- Ok (?a, ?b, ?c) = Ok (?x, ?y, ?z) => assert (a = x) by lia; assert (b = y) by lia; assert (c = z) by lia; congruence end.
Lemma choose3_ok T g n cont d : holds g n cont -> let tl := table_len d in let z := dz3 T (gn 0 g n) (gn 255 g n) tl in let o := do3 T (gn 0 g n) (gn 255 g n) tl in
  choose3 T cont n d = Ok (code T z o, rn z o g n, heads z o tl).
Proof.
  intros H tl z o. pose proof (proj1 H) as Hn. unfold choose3. fold tl. rewrite rn_parts by lia. unfold heads, z, o. destruct T; cbn [dz3 do3 code].
  - rewrite (pairs_any_ok g) by auto. cbn [bind]. destruct (gn 0 g n + gn 255 g n >? tl); cbn [b2z]; tri.
  - rewrite (pairs_both_ok g) by auto. cbn [bind].
    replace (2 * gn 255 g n <=? tl) with (negb (2 * gn 255 g n >? tl)) by lia. replace (2 * gn 0 g n <=? tl) with (negb (2 * gn 0 g n >? tl)) by lia.
    destruct (2 * gn 0 g n >? tl), (2 * gn 255 g n >? tl); cbn [andb negb b2z]; tri.
  - rewrite (pairs_both_ok g) by auto. cbn [bind]. set (a := gn 0 g n). set (b := gn 255 g n). change (9 * 2) with 18.
    replace (b <=? 9) with (negb (b >? 9)) by lia. replace (a <=? 9) with (negb (a >? 9)) by lia.
    destruct (a >? 9) eqn:E1, (b >? 9) eqn:E2, (a >=? 18) eqn:E3, (b >=? 18) eqn:E4; try (exfalso; clear - E1 E2 E3 E4; lia); cbn [andb orb negb b2z]; tri.
Qed.

(** ** Tables *)
Definition tabv (R : Z -> bool) (k : Z) : Z := sumf (fun u => if R (8 * k + u) then 2 ^ (7 - u) else 0) 0 8.
Lemma sumf_scale c f lo hi : sumf (fun x => c * f x) lo hi = c * sumf f lo hi.
Proof. unfold sumf. generalize (Z.to_nat (hi - lo)) as n. intros n. revert lo. induction n; intros; cbn [sumn]; [lia|]. rewrite IHn. lia. Qed.
Lemma tabv_flags R k : 2 ^ 56 * tabv R k = sumf (fun j => if R (8 * k + j) then 2 ^ (63 - j) else 0) 0 8.
Proof.
  unfold tabv. rewrite <- sumf_scale. apply sumf_ext. intros i Hi. destruct (R (8 * k + i)); [|reflexivity]. rewrite <- Z.pow_add_r by lia. f_equal. lia.
Qed.
Lemma tabv_bit R k u : 0 <= u < 8 -> Z.testbit (tabv R k) (7 - u) = R (8 * k + u).
Proof.
  intros Hu. rewrite <- (flag_bit (fun j => R (8 * k + j)) 8 u) by lia. rewrite <- tabv_flags. rewrite Z.mul_comm, Z.mul_pow2_bits by lia. f_equal. lia.
Qed.
Lemma tabv_bound R k : 0 <= tabv R k < 256.
Proof.
  assert (B : forall n, (n <= 8)%nat -> 0 <= sumf (fun u => if R (8 * k + u) then 2 ^ (7 - u) else 0) 0 (Z.of_nat n) <= 256 - 2 ^ (8 - Z.of_nat n)).
  { induction n as [|n IH]; intros Hn; [cbn; lia|]. specialize (IH ltac:(lia)). replace (Z.of_nat (S n)) with (Z.of_nat n + 1) by lia. rewrite sumf_succ by lia.
    replace (8 - Z.of_nat n) with (7 - Z.of_nat n + 1) in IH by lia. rewrite Z.pow_add_r in IH by lia. replace (8 - (Z.of_nat n + 1)) with (7 - Z.of_nat n) by lia.
    pose proof (Z.pow_pos_nonneg 2 (7 - Z.of_nat n) ltac:(lia) ltac:(lia)). destruct (R (8 * k + Z.of_nat n)); lia. }
  specialize (B 8%nat ltac:(lia)). change (Z.of_nat 8) with 8 in B. unfold tabv. change (2 ^ (8 - 8)) with 1 in B. lia.
Qed.
Lemma tabv_ext R R' k : (forall u, 0 <= u < 8 -> R (8 * k + u) = R' (8 * k + u)) -> tabv R k = tabv R' k.
Proof. intros H. unfold tabv. apply sumf_ext. intros u Hu. rewrite H by lia. reflexivity. Qed.

Definition upto (R : Z -> bool) (j i : Z) : bool := R i && (i <? j).
Lemma tabv_skip R j k : R j = false -> tabv (upto R (j + 1)) k = tabv (upto R j) k.
Proof.
  intros E. apply tabv_ext. intros u Hu. unfold upto. destruct (Z.eq_dec (8 * k + u) j) as [X|X]; [rewrite X, E; reflexivity|].
  destruct (R (8 * k + u)); cbn [andb]; lia.
Qed.
Lemma tabv_mark R j k : 0 <= j -> R j = true -> tabv (upto R (j + 1)) k = tabv (upto R j) k + (if k =? j / 8 then 2 ^ (7 - j mod 8) else 0).
Proof.
  intros Hj E. unfold tabv. set (f := fun u => if upto R j (8 * k + u) then 2 ^ (7 - u) else 0).
  transitivity (sumf (fadd f (j - 8 * k) (2 ^ (7 - (j - 8 * k)))) 0 8).
  - apply sumf_ext. intros u Hu. unfold fadd, f, upto. destruct (u =? j - 8 * k) eqn:EU.
    + replace (8 * k + u) with j by lia. rewrite E. cbn [andb]. replace (j <? j + 1) with true by lia. replace (j <? j) with false by lia. replace (j - 8 * k) with u by lia. lia.
    + destruct (R (8 * k + u)); cbn [andb]; [|reflexivity]. replace (8 * k + u <? j + 1) with (8 * k + u <? j) by lia. reflexivity.
  - rewrite sumf_fadd by lia. f_equal. destruct (k =? j / 8) eqn:EK.
    + replace ((0 <=? j - 8 * k) && (j - 8 * k <? 8)) with true by lia. f_equal. lia.
    + replace ((0 <=? j - 8 * k) && (j - 8 * k <? 8)) with false by lia. reflexivity.
Qed.

Definition tabP (R : Z -> bool) (size j : Z) (tab : list Z) : Prop := zlen tab = size /\ forall k, 0 <= k < size -> zn 0 tab k = tabv (upto R j) k.
Lemma zn_zeros n k : zn 0 (repeat 0 n) k = 0.
Proof. unfold zn. rewrite nth_repeat. destruct (k <? 0); reflexivity. Qed.
Lemma tabP_0 R size : 0 <= size -> tabP R size 0 (repeat 0 (Z.to_nat size)).
Proof.
  intros Hs. split; [rewrite zlen_repeat; lia|]. intros k Hk. rewrite zn_zeros. symmetry. apply sumf_const0. intros u Hu. unfold upto.
  replace (8 * k + u <? 0) with false by lia. rewrite andb_false_r. reflexivity.
Qed.
Lemma tabP_skip R size j tab : R j = false -> tabP R size j tab -> tabP R size (j + 1) tab.
Proof. intros E [T1 T2]. split; [auto|]. intros k Hk. rewrite tabv_skip by auto. auto. Qed.
Lemma mark_ok R size j tab : 0 <= j -> j / 8 < size -> R j = true -> tabP R size j tab -> exists tab', mark tab j = Ok tab' /\ tabP R size (j + 1) tab'.
Proof.
  intros Hj Hs E [T1 T2]. unfold mark. rewrite geti_ok by lia. cbn [bind]. rewrite seti_ok by lia. eexists. split; [reflexivity|]. split; [rewrite zlen_upd; auto|].
  intros k Hk. rewrite zn_upd by lia. rewrite T2 by lia. pose proof (tabv_mark R j k Hj E) as M. pose proof (tabv_bound (upto R (j + 1)) k) as B.
  rewrite Z.shiftl_mul_pow2, Z.mul_1_l by lia. destruct (k =? j / 8) eqn:EK.
  - replace (j / 8) with k by lia. rewrite M in *. apply wrap_small. lia.
  - rewrite T2 by lia. lia.
Qed.

(** ** Kept pairs *)
Definition kept (R : Z -> bool) (g : Z -> Z) (bits : list Z) (base q : Z) : Prop := forall j, 0 <= j < q -> R j = false ->
  zn 0 bits (base + 2 * (j - cnt R j)) = g (2 * j) /\ zn 0 bits (base + 2 * (j - cnt R j) + 1) = g (2 * j + 1).
Definition pairs3 (R : Z -> bool) (g : Z -> Z) (bits : list Z) (base j : Z) (bits' : list Z) (bc : Z) : Prop :=
  zlen bits' = zlen bits /\ bc = base + 2 * (j - cnt R j) /\ kept R g bits' base j /\ (forall k, 0 <= k < base -> zn 0 bits' k = zn 0 bits k).

Lemma pairs3_start R g bits base : pairs3 R g bits base 0 bits base.
Proof. split; [reflexivity|]. split; [change (cnt R 0) with 0; lia|]. split; [intros j Hj; lia|auto]. Qed.
Lemma pairs3_drop R g bits base j bits' bc : 0 <= j -> R j = true -> pairs3 R g bits base j bits' bc -> pairs3 R g bits base (j + 1) bits' bc.
Proof.
  intros Hj E (L1 & L2 & L4 & L5). pose proof (cnt_succ R j Hj) as C. rewrite E in C. cbn [b2z] in C.
  split; [exact L1|]. split; [lia|]. split; [|exact L5]. intros k Hk Ek. apply L4; auto. destruct (Z.eq_dec k j) as [->|]; [congruence|lia].
Qed.
Lemma pairs3_keep R g n cont bits base j bits' bc : holds g n cont -> 0 <= j < n / 2 -> R j = false -> 0 <= base -> base + 2 * (n / 2 - cnt R (n / 2)) <= zlen bits ->
  pairs3 R g bits base j bits' bc -> exists bits2, put_pair cont bits' bc j = Ok (bits2, bc + 2) /\ pairs3 R g bits base (j + 1) bits2 (bc + 2).
Proof.
  intros (B1 & B2 & B3) Hj E Hb Hl (L1 & -> & L4 & L5). pose proof (cnt_succ R j ltac:(lia)) as C. rewrite E in C. cbn [b2z] in C.
  pose proof (cnt_diff R (j + 1) (n / 2) ltac:(lia)) as D. pose proof (cnt_diff R 0 j ltac:(lia)) as D0. change (cnt R 0) with 0 in D0. set (at_ := base + 2 * (j - cnt R j)) in *.
  unfold put_pair. rewrite !geti_ok by lia. cbn [bind]. rewrite seti_ok by lia. cbn [bind]. rewrite seti_ok by (rewrite zlen_upd; lia). cbn [bind].
  rewrite !B2, !B3 by lia. eexists. split; [reflexivity|]. unfold pairs3. rewrite !zlen_upd. split; [exact L1|]. split; [lia|]. split.
  - intros i Hi Ei. pose proof (cnt_diff R 0 i ltac:(lia)) as Q0. change (cnt R 0) with 0 in Q0. pose proof (cnt_succ R i ltac:(lia)) as Q2. rewrite Ei in Q2. cbn [b2z] in Q2.
    pose proof (cnt_diff R (i + 1) (n / 2) ltac:(lia)) as Q1. rewrite !zn_upd by (rewrite ?zlen_upd; lia).
    destruct (Z.eq_dec i j) as [->|Ne].
    + fold at_. replace (at_ =? at_ + 1) with false by lia. rewrite !Z.eqb_refl. auto.
    + assert (Q : base + 2 * (i - cnt R i) + 2 <= at_) by (unfold at_; pose proof (cnt_diff R (i + 1) j ltac:(lia)); lia).
      replace (base + 2 * (i - cnt R i) =? at_ + 1) with false by lia. replace (base + 2 * (i - cnt R i) =? at_) with false by lia.
      replace (base + 2 * (i - cnt R i) + 1 =? at_ + 1) with false by lia. replace (base + 2 * (i - cnt R i) + 1 =? at_) with false by lia. apply L4; auto. lia.
  - intros k Hk. rewrite !zn_upd by (rewrite ?zlen_upd; lia). replace (k =? at_ + 1) with false by lia. replace (k =? at_) with false by lia. apply L5. lia.
Qed.

Lemma one3_loop v g n cont bits base size R : holds g n cont -> (forall j, 0 <= j < n / 2 -> gp v g n j = R j) -> 0 <= base -> base + 2 * (n / 2 - cnt R (n / 2)) <= zlen bits -> n <= 16 * size ->
  exists bits' bc tab, foldM (one_step v cont) (zrange 0 (Z.to_nat (n / 2))) (bits, base, repeat 0 (Z.to_nat size)) = Ok (bits', bc, tab) /\
    tabP R size (n / 2) tab /\ pairs3 R g bits base (n / 2) bits' bc.
Proof.
  intros H HR Hb Hl Hs. pose proof (proj1 H) as Hn.
  destruct (foldM_inv (one_step v cont) (fun j st => let '(bits', bc, tab) := st in tabP R size j tab /\ pairs3 R g bits base j bits' bc) (Z.to_nat (n / 2)) 0 (bits, base, repeat 0 (Z.to_nat size)))
    as ([[bits' bc] tab] & E & P1 & P2).
  - split; [apply tabP_0; lia|apply pairs3_start].
  - intros j [[bits' bc] tab] Hj (TP & PP). unfold one_step. rewrite (pair_eq_gp v g n) by (auto; lia). cbn [bind]. rewrite HR by lia. destruct (R j) eqn:E.
    + destruct (mark_ok R size j tab ltac:(lia) ltac:(lia) E TP) as (tab' & -> & TP'). cbn [bind]. eexists. split; [reflexivity|]. split; [exact TP'|]. apply pairs3_drop; auto. lia.
    + destruct (pairs3_keep R g n cont bits base j bits' bc H ltac:(lia) E Hb Hl PP) as (b2 & -> & PP'). cbn [bind]. eexists. split; [reflexivity|].
      split; [apply tabP_skip; auto|exact PP'].
  - exists bits', bc, tab. replace (0 + Z.of_nat (Z.to_nat (n / 2))) with (n / 2) in * by lia. auto.
Qed.

Lemma both3_loop g n cont bits base size R F : holds g n cont -> (forall j, 0 <= j < n / 2 -> gp 0 g n j || gp 255 g n j = R j) -> (forall j, 0 <= j < n / 2 -> gp 255 g n j = F j) ->
  0 <= base -> base + 2 * (n / 2 - cnt R (n / 2)) <= zlen bits -> n <= 16 * size ->
  exists bits' bc tab1 tab2, foldM (both_step cont) (zrange 0 (Z.to_nat (n / 2))) (bits, base, repeat 0 (Z.to_nat size), repeat 0 (Z.to_nat size)) = Ok (bits', bc, tab1, tab2) /\
    tabP R size (n / 2) tab1 /\ tabP F size (n / 2) tab2 /\ pairs3 R g bits base (n / 2) bits' bc.
Proof.
  intros H HR HF Hb Hl Hs. pose proof (proj1 H) as Hn.
  destruct (foldM_inv (both_step cont) (fun j st => let '(bits', bc, tab1, tab2) := st in tabP R size j tab1 /\ tabP F size j tab2 /\ pairs3 R g bits base j bits' bc)
    (Z.to_nat (n / 2)) 0 (bits, base, repeat 0 (Z.to_nat size), repeat 0 (Z.to_nat size))) as ([[[bits' bc] tab1] tab2] & E & P1 & P2 & P3).
  - split; [apply tabP_0; lia|]. split; [apply tabP_0; lia|apply pairs3_start].
  - intros j [[[bits' bc] tab1] tab2] Hj (TP & TP2 & PP). unfold both_step. rewrite !(pair_eq_gp _ g n) by (auto; lia). cbn [bind].
    assert (W2 : exists t2, (if gp 255 g n j then mark tab2 j else Ok tab2) = Ok t2 /\ tabP F size (j + 1) t2).
    { rewrite HF by lia. destruct (F j) eqn:E; [apply mark_ok; auto; lia|]. exists tab2. split; [reflexivity|]. apply tabP_skip; auto. }
    destruct W2 as (t2 & -> & TP2'). cbn [bind].
    assert (G : (if gp 0 g n j then Ok true else Ok (gp 255 g n j)) = Ok (R j)) by (rewrite <- HR by lia; destruct (gp 0 g n j); reflexivity).
    rewrite G. cbn [bind]. destruct (R j) eqn:E.
    + destruct (mark_ok R size j tab1 ltac:(lia) ltac:(lia) E TP) as (tab' & -> & TP'). cbn [bind]. eexists. split; [reflexivity|]. split; [exact TP'|].
      split; [exact TP2'|]. apply pairs3_drop; auto. lia.
    + destruct (pairs3_keep R g n cont bits base j bits' bc H ltac:(lia) E Hb Hl PP) as (b2 & -> & PP'). cbn [bind]. eexists. split; [reflexivity|].
      split; [apply tabP_skip; auto|]. split; [exact TP2'|exact PP'].
  - exists bits', bc, tab1, tab2. replace (0 + Z.of_nat (Z.to_nat (n / 2))) with (n / 2) in * by lia. auto.
Qed.

(** ** A stored block *)
Definition packed (z o : bool) (g : Z -> Z) (n tl : Z) (bits : list Z) (p : Z) : Prop :=
  let R := rm z o g n in let base := p + heads z o tl in
  (z || o = true -> forall k, 0 <= k < tl -> zn 0 bits (p + k) = tabv R k) /\
  (z && o = true -> forall k, 0 <= k < tl -> zn 0 bits (p + tl + k) = tabv (fl o g n) k) /\
  kept R g bits base (n / 2) /\
  (n mod 2 = 1 -> zn 0 bits (base + 2 * (n / 2 - rn z o g n)) = g (n - 1)).

Lemma packed_frame z o g n tl bits bits' p : 0 <= n -> 0 <= tl -> (forall k, p <= k < p + width z o g n tl -> zn 0 bits' k = zn 0 bits k) ->
  packed z o g n tl bits p -> packed z o g n tl bits' p.
Proof.
  intros Hn Ht H (A & B & C & D). pose proof (rn_bound z o g n Hn) as RB. unfold width in H. assert (HD : heads z o tl = if z then (if o then 2 * tl else tl) else if o then tl else 0) by (unfold heads; destruct z, o; cbn [b2z]; lia).
  split; [|split; [|split]].
  - intros E k Hk. rewrite H; [auto|]. rewrite HD. destruct z, o; cbn in E; try discriminate; lia.
  - intros E k Hk. rewrite H; [auto|]. rewrite HD. destruct z, o; cbn in E; try discriminate; lia.
  - intros j Hj Ej. destruct (C j Hj Ej) as [C1 C2]. pose proof (cnt_diff (rm z o g n) 0 j ltac:(lia)) as Q0. change (cnt (rm z o g n) 0) with 0 in Q0.
    pose proof (cnt_succ (rm z o g n) j ltac:(lia)) as Q2. rewrite Ej in Q2. cbn [b2z] in Q2. pose proof (cnt_diff (rm z o g n) (j + 1) (n / 2) ltac:(lia)) as Q1.
    fold (rn z o g n) in Q1. assert (0 <= heads z o tl) by (rewrite HD; destruct z, o; lia). rewrite !H by lia. auto.
  - intros E. assert (0 <= heads z o tl) by (rewrite HD; destruct z, o; lia). rewrite H by lia. auto.
Qed.

(** The result of a store: the block is there, and nothing before it changed. *)
Definition put3 (z o : bool) (g : Z -> Z) (n tl : Z) (bits : list Z) (p : Z) (bits' : list Z) : Prop :=
  zlen bits' = zlen bits /\ packed z o g n tl bits' p /\ forall k, 0 <= k < p -> zn 0 bits' k = zn 0 bits k.

Lemma put_table_ok tab off tl bits : 0 <= off -> 0 <= tl <= zlen tab -> off + tl <= zlen bits -> exists bits', put_table bits off tl tab = Ok bits' /\ zlen bits' = zlen bits /\
  (forall k, 0 <= k < tl -> zn 0 bits' (off + k) = zn 0 tab k) /\ (forall k, 0 <= k < off \/ off + tl <= k -> zn 0 bits' k = zn 0 bits k).
Proof.
  intros H0 Ht Hl. unfold put_table.
  destruct (foldM_inv (fun bits k => let* x := geti tab k in seti bits (off + k) x) (fun q b => zlen b = zlen bits /\ (forall k, 0 <= k < q -> zn 0 b (off + k) = zn 0 tab k) /\
    (forall k, 0 <= k < off \/ off + q <= k -> zn 0 b k = zn 0 bits k)) (Z.to_nat tl) 0 bits) as (b & E & I1 & I2 & I3).
  - split; [auto|]. split; [intros; lia|auto].
  - intros q b Hq (I1 & I2 & I3). rewrite geti_ok by lia. cbn [bind]. rewrite seti_ok by lia. eexists. split; [reflexivity|]. split; [rewrite zlen_upd; auto|]. split.
    + intros k Hk. rewrite zn_upd by lia. destruct (off + k =? off + q) eqn:EK; [f_equal; lia|]. apply I2. lia.
    + intros k Hk. rewrite zn_upd by lia. replace (k =? off + q) with false by lia. apply I3. lia.
  - replace (0 + Z.of_nat (Z.to_nat tl)) with tl in * by lia. exists b. auto.
Qed.

Lemma put_odd_ok g n cont bits bc : holds g n cont -> 0 <= bc -> bc + n mod 2 <= zlen bits ->
  exists bits', put_odd cont bits bc n = Ok (bits', bc + n mod 2) /\ zlen bits' = zlen bits /\ (n mod 2 = 1 -> zn 0 bits' bc = g (n - 1)) /\
  (forall k, 0 <= k < bc -> zn 0 bits' k = zn 0 bits k).
Proof.
  intros (H0 & H1 & H2) Hb Hl. unfold put_odd. destruct (n mod 2 =? 1) eqn:E.
  - rewrite geti_ok by lia. cbn [bind]. rewrite seti_ok by lia. cbn [bind]. rewrite H1, H2 by lia. eexists. split; [do 2 f_equal; lia|]. split; [rewrite zlen_upd; auto|]. split.
    + intros _. rewrite zn_upd by lia. rewrite Z.eqb_refl. reflexivity.
    + intros k Hk. rewrite zn_upd by lia. replace (k =? bc) with false by lia. reflexivity.
  - exists bits. split; [do 2 f_equal; lia|]. split; [auto|]. split; [lia|auto].
Qed.

Lemma tabP_done R size tab n k : tabP R size (n / 2) tab -> (forall j, n / 2 <= j -> R j = false) -> 0 <= k < size -> zn 0 tab k = tabv R k.
Proof.
  intros [_ T2] H Hk. rewrite T2 by lia. apply tabv_ext. intros u Hu. unfold upto. destruct (8 * k + u <? n / 2) eqn:E; [apply andb_true_r|].
  rewrite H by lia. reflexivity.
Qed.

Lemma store_one3_ok v z o g n cont d th bits bc : holds g n cont -> (v = 0 /\ z = true /\ o = false \/ v = 255 /\ z = false /\ o = true) ->
  table_len d <= th / 8 / 2 / 8 + 1 -> n <= 16 * table_len d -> 0 <= table_len d -> 0 <= bc -> bc + width z o g n (table_len d) <= zlen bits ->
  exists bits', store_one3 v th cont n d bits bc = Ok (bits', bc + width z o g n (table_len d)) /\ put3 z o g n (table_len d) bits bc bits'.
Proof.
  intros H HV Ht Hn T0 Hb Hl. unfold store_one3. set (tl := table_len d) in *. set (size := th / 8 / 2 / 8 + 1) in *. pose proof (proj1 H) as Hn0.
  pose proof (rn_bound z o g n ltac:(lia)) as RB. assert (HD : heads z o tl = tl) by (unfold heads; destruct HV as [(_ & -> & ->)|(_ & -> & ->)]; cbn [b2z]; lia).
  unfold width in *. rewrite HD in *. unfold zero_table. fold size. replace (tl <=? size) with true by lia. cbn [bind].
  destruct (one3_loop v g n cont bits (bc + tl) size (rm z o g n) H) as (b1 & bc1 & tab & -> & TP & P1 & P2 & P3 & P4); try lia.
  { intros j Hj. unfold rm. destruct HV as [(-> & -> & ->)|(-> & -> & ->)]; cbn [andb orb]; rewrite ?orb_false_r; reflexivity. }
  { fold (rn z o g n). lia. }
  cbn [bind]. fold (rn z o g n) in P2.
  destruct (put_odd_ok g n cont b1 bc1 H ltac:(lia) ltac:(lia)) as (b2 & -> & Q1 & Q2 & Q3). cbn [bind].
  destruct (put_table_ok tab bc tl b2 Hb ltac:(destruct TP; lia) ltac:(lia)) as (b3 & -> & S1 & S2 & S3). cbn [bind].
  exists b3. split; [do 2 f_equal; lia|]. split; [lia|]. split.
  - split; [|split; [|split]].
    + intros _ k Hk. rewrite S2 by lia. apply (tabP_done _ size _ n); auto; [|lia]. intros j Hj. apply rm_over. lia.
    + intros E. destruct HV as [(_ & -> & ->)|(_ & -> & ->)]; discriminate.
    + rewrite HD. intros j Hj Ej. destruct (P3 j Hj Ej) as [C1 C2]. pose proof (cnt_diff (rm z o g n) 0 j ltac:(lia)) as Q0. change (cnt (rm z o g n) 0) with 0 in Q0.
      pose proof (cnt_succ (rm z o g n) j ltac:(lia)) as X2. rewrite Ej in X2. cbn [b2z] in X2. pose proof (cnt_diff (rm z o g n) (j + 1) (n / 2) ltac:(lia)) as X1.
      fold (rn z o g n) in X1. rewrite !S3 by lia. rewrite !Q3 by lia. auto.
    + rewrite HD. intros E. rewrite S3 by lia. rewrite <- (Q2 E). f_equal. lia.
  - intros k Hk. rewrite S3 by lia. rewrite Q3 by lia. apply P4. lia.
Qed.

Lemma store_both3_ok g n cont d th bits bc : holds g n cont ->
  table_len d <= th / 8 / 2 / 8 + 1 -> n <= 16 * table_len d -> 0 <= table_len d -> 0 <= bc -> bc + width true true g n (table_len d) <= zlen bits ->
  exists bits', store_both3 th cont n d bits bc = Ok (bits', bc + width true true g n (table_len d)) /\ put3 true true g n (table_len d) bits bc bits'.
Proof.
  intros H Ht Hn T0 Hb Hl. unfold store_both3. set (tl := table_len d) in *. set (size := th / 8 / 2 / 8 + 1) in *. pose proof (proj1 H) as Hn0.
  pose proof (rn_bound true true g n ltac:(lia)) as RB. assert (HD : heads true true tl = 2 * tl) by (unfold heads; cbn [b2z]; lia).
  unfold width in *. rewrite HD in *. unfold zero_table. fold size. replace (tl <=? size) with true by lia. cbn [bind].
  destruct (both3_loop g n cont bits (bc + 2 * tl) size (rm true true g n) (fl true g n) H) as (b1 & bc1 & tab1 & tab2 & -> & TP & TP2 & P1 & P2 & P3 & P4); try lia.
  { intros j Hj. reflexivity. }
  { intros j Hj. reflexivity. }
  { fold (rn true true g n). lia. }
  cbn [bind]. fold (rn true true g n) in P2.
  destruct (put_odd_ok g n cont b1 bc1 H ltac:(lia) ltac:(lia)) as (b2 & -> & Q1 & Q2 & Q3). cbn [bind].
  destruct (put_table_ok tab1 bc tl b2 Hb ltac:(destruct TP; lia) ltac:(lia)) as (b3 & -> & S1 & S2 & S3). cbn [bind].
  destruct (put_table_ok tab2 (bc + tl) tl b3 ltac:(lia) ltac:(destruct TP2; lia) ltac:(lia)) as (b4 & -> & U1 & U2 & U3). cbn [bind].
  exists b4. split; [do 2 f_equal; lia|]. split; [lia|]. split.
  - split; [|split; [|split]].
    + intros _ k Hk. rewrite U3 by lia. rewrite S2 by lia. apply (tabP_done _ size _ n); auto; [|lia]. intros j Hj. apply rm_over. lia.
    + intros _ k Hk. rewrite U2 by lia. apply (tabP_done _ size _ n); auto; [|lia]. intros j Hj. unfold fl. apply gp_over. lia.
    + rewrite HD. intros j Hj Ej. destruct (P3 j Hj Ej) as [C1 C2]. pose proof (cnt_diff (rm true true g n) 0 j ltac:(lia)) as Q0. change (cnt (rm true true g n) 0) with 0 in Q0.
      pose proof (cnt_succ (rm true true g n) j ltac:(lia)) as X2. rewrite Ej in X2. cbn [b2z] in X2. pose proof (cnt_diff (rm true true g n) (j + 1) (n / 2) ltac:(lia)) as X1.
      fold (rn true true g n) in X1. rewrite !U3 by lia. rewrite !S3 by lia. rewrite !Q3 by lia. auto.
    + rewrite HD. intros E. rewrite U3 by lia. rewrite S3 by lia. rewrite <- (Q2 E). f_equal. lia.
  - intros k Hk. rewrite U3 by lia. rewrite S3 by lia. rewrite Q3 by lia. apply P4. lia.
Qed.

Lemma rm_none g n j : rm false false g n j = false.
Proof. reflexivity. Qed.
Lemma cnt_none g n q : 0 <= q -> cnt (rm false false g n) q = 0.
Proof. intros. apply sumf_const0. intros. reflexivity. Qed.
Lemma width_plain g n tl : 0 <= n -> width false false g n tl = n.
Proof. intros. unfold width, heads, rn. rewrite cnt_none by lia. cbn [b2z]. lia. Qed.

(** An uncompressed block. *)
Lemma store_plain3_or g n cont bits bc : holds g n cont -> 0 <= bc ->
  (exists bits', store_plain3 cont n bits bc = Ok (bits', bc + n) /\ zlen bits' = zlen bits /\ (n = 0 \/ bc + n <= zlen bits) /\
    (forall j, 0 <= j < n -> zn 0 bits' (bc + j) = g j) /\ forall k, 0 <= k < bc -> zn 0 bits' k = zn 0 bits k) \/
  (store_plain3 cont n bits bc = Ub UB_bounds /\ zlen bits < bc + n).
Proof.
  intros (H0 & H1 & H2) Hb. unfold store_plain3.
  assert (G : forall m lo b, lo + Z.of_nat m = n -> 0 <= lo -> zlen b = zlen bits -> (lo = 0 \/ bc + lo <= zlen bits) -> (forall j, 0 <= j < lo -> zn 0 b (bc + j) = g j) -> (forall k, 0 <= k < bc -> zn 0 b k = zn 0 bits k) ->
    (exists b', foldM (fun bits k => let* x := geti cont k in seti bits (bc + k) (u8 x)) (zrange lo m) b = Ok b' /\ zlen b' = zlen bits /\ (n = 0 \/ bc + n <= zlen bits) /\
      (forall j, 0 <= j < n -> zn 0 b' (bc + j) = g j) /\ forall k, 0 <= k < bc -> zn 0 b' k = zn 0 bits k) \/
    (foldM (fun bits k => let* x := geti cont k in seti bits (bc + k) (u8 x)) (zrange lo m) b = Ub UB_bounds /\ zlen bits < bc + n)).
  { induction m as [|m IH]; intros lo b Hm Hlo Z1 B1 B2 B3.
    - left. exists b. split; [reflexivity|]. assert (lo = n) by lia. subst lo. auto.
    - cbn [zrange foldM]. rewrite geti_ok by lia. cbn [bind]. unfold seti. destruct ((0 <=? bc + lo) && (bc + lo <? zlen b)) eqn:E.
      + cbn [bind]. apply IH; try lia.
        * rewrite zlen_upd. auto.
        * intros j Hj. rewrite zn_upd by lia. destruct (bc + j =? bc + lo) eqn:EJ; [rewrite H1, H2 by lia; f_equal; lia|]. apply B2. lia.
        * intros k Hk. rewrite zn_upd by lia. replace (k =? bc + lo) with false by lia. apply B3. lia.
      + right. split; [reflexivity|lia]. }
  destruct (G (Z.to_nat n) 0 bits ltac:(lia) ltac:(lia) eq_refl ltac:(auto) ltac:(intros; lia) ltac:(auto)) as [(b' & -> & X)|[-> X]].
  - left. exists b'. split; [reflexivity|exact X].
  - right. auto.
Qed.

Lemma plain_packed g n tl bits p : 0 <= n -> (forall j, 0 <= j < n -> zn 0 bits (p + j) = g j) -> packed false false g n tl bits p.
Proof.
  intros Hn H. unfold packed. split; [discriminate|]. split; [discriminate|]. replace (heads false false tl) with 0 by (unfold heads; cbn [b2z]; lia). split.
  - intros j Hj _. rewrite cnt_none by lia. split.
    + rewrite <- H by lia. f_equal. lia.
    + rewrite <- H by lia. f_equal. lia.
  - intros E. unfold rn. rewrite cnt_none by lia. rewrite <- H by lia. f_equal. lia.
Qed.
Lemma packed_plain g n tl bits p : 0 <= n -> packed false false g n tl bits p -> forall j, 0 <= j < n -> zn 0 bits (p + j) = g j.
Proof.
  intros Hn (_ & _ & C & D) j Hj. replace (heads false false tl) with 0 in * by (unfold heads; cbn [b2z]; lia).
  destruct (Z_lt_le_dec (j / 2) (n / 2)) as [E|E].
  - destruct (C (j / 2) ltac:(lia) eq_refl) as [C1 C2]. rewrite cnt_none in * by lia. destruct (Z.eq_dec (j mod 2) 0).
    + replace (p + j) with (p + 0 + 2 * (j / 2 - 0)) by lia. rewrite C1. f_equal. lia.
    + replace (p + j) with (p + 0 + 2 * (j / 2 - 0) + 1) by lia. rewrite C2. f_equal. lia.
  - unfold rn in D. rewrite cnt_none in D by lia. specialize (D ltac:(lia)). replace (p + j) with (p + 0 + 2 * (n / 2 - 0)) by lia. rewrite D. f_equal. lia.
Qed.

Lemma mpe1_same3 n0 n1 tl : do3 MPE1 n0 n1 tl = dz3 MPE1 n0 n1 tl.
Proof. reflexivity. Qed.

Lemma store3_ok T z o g n cont d th bits bc : holds g n cont -> (T = MPE1 -> z = o) ->
  table_len d <= th / 8 / 2 / 8 + 1 -> n <= 16 * table_len d -> 0 <= table_len d -> 0 <= bc -> bc + width z o g n (table_len d) <= zlen bits ->
  exists bits', store3 T th (code T z o) cont n d bits bc = Ok (bits', bc + width z o g n (table_len d)) /\ put3 z o g n (table_len d) bits bc bits'.
Proof.
  intros H HT Ht Hn T0 Hb Hl. pose proof (proj1 H) as Hn0.
  assert (PL : z = false -> o = false -> exists bits', store_plain3 cont n bits bc = Ok (bits', bc + width z o g n (table_len d)) /\ put3 z o g n (table_len d) bits bc bits').
  { intros -> ->. rewrite width_plain in * by lia. destruct (store_plain3_or g n cont bits bc H Hb) as [(b' & -> & B1 & B2 & B3 & B4)|[-> X]]; [|lia].
    exists b'. split; [reflexivity|]. split; [auto|]. split; [|auto]. apply plain_packed; auto. lia. }
  unfold store3. destruct T.
  - specialize (HT eq_refl). subst z. cbn [code]. destruct o; cbn [b2z Z.eqb]; [apply store_both3_ok; auto|apply PL; reflexivity].
  - cbn [code]. destruct z, o; cbn [b2z Z.add Z.mul Z.eqb Pos.eqb Pos.add].
    + apply store_both3_ok; auto.
    + apply store_one3_ok; auto.
    + apply store_one3_ok; auto.
    + apply PL; reflexivity.
  - cbn [code]. destruct z, o; cbn [b2z Z.add Z.mul Z.eqb Pos.eqb Pos.add].
    + apply store_both3_ok; auto.
    + apply store_one3_ok; auto.
    + apply store_one3_ok; auto.
    + apply PL; reflexivity.
Qed.
