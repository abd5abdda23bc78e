(** The constructors of the Fenwick trees, over an abstract store of nodes. *)
From Coq Require Import ZifyBool.
From Verif Require Import Base BaseFacts SpecHft Hft HftFacts.
Ltac Zify.zify_post_hook ::= Z.div_mod_to_equations.

Lemma foldM_range {S} (f : S -> Z -> res S) (Inv : Z -> S -> Prop) lo : forall (cnt : nat) s,
  (forall k s, 0 <= k < Z.of_nat cnt -> Inv k s -> exists s', f s (lo + k) = Ok s' /\ Inv (k + 1) s') ->
  Inv 0 s -> exists s', foldM f (zrange lo cnt) s = Ok s' /\ Inv (Z.of_nat cnt) s'.
Proof.
  intros cnt. revert lo Inv. induction cnt as [|c IH]; intros lo Inv s H H0; cbn [zrange foldM]; [eauto|].
  destruct (H 0 s ltac:(lia) H0) as (s1 & E1 & I1). rewrite Z.add_0_r in E1. rewrite E1. cbn [bind].
  destruct (IH (lo + 1) (fun k => Inv (k + 1)) s1) as (s2 & E2 & I2).
  - intros k s' Hk HI. destruct (H (k + 1) s' ltac:(lia) HI) as (s3 & E3 & I3). exists s3. split; [|exact I3]. rewrite <- E3. f_equal. lia.
  - exact I1.
  - exists s2. split; [exact E2|]. replace (Z.of_nat (Datatypes.S c)) with (Z.of_nat c + 1) by lia. exact I2.
Qed.

(** ** The F classes *)
Record goodf (sh : bool) (n : Z) (P : Z -> Z -> Prop) (I : ftree -> (Z -> Z) -> Prop) : Prop := {
  f_ext : forall t V W, I t V -> (forall i, 1 <= i <= n -> V i = W i) -> I t W;
  f_leaf : forall t V i v, I t V -> 1 <= i <= n -> V i = 0 -> P i v -> 0 <= v < 2 ^ 64 ->
    exists t', leaf_set sh t i v = Ok t' /\ I t' (fadd V i v);
  f_comb : forall t V i j, I t V -> 1 <= i <= n -> 1 <= j <= n -> P i (V i + V j) ->
    exists t', node_combine sh t i j = Ok t' /\ I t' (fadd V i (V j)) }.
Arguments f_ext {sh n P I}. Arguments f_leaf {sh n P I}. Arguments f_comb {sh n P I}.

(** Sum of the last m elements below a node. *)
Definition part (a : Z -> Z) (m i : Z) : Z := sumf a (i - Z.min (low i) m + 1) (i + 1).

Lemma part_1 a i : part a 1 i = a i.
Proof. unfold part. pose proof (low_pos i). rewrite Z.min_r by lia. replace (i - 1 + 1) with i by lia. apply sumf_one. Qed.

Lemma part_all a m i : low i <= m -> part a m i = node a i.
Proof. intros H. unfold part, node. rewrite Z.min_l by lia. reflexivity. Qed.

Lemma part_small a m m' i : low i <= m -> low i <= m' -> part a m i = part a m' i.
Proof. intros. rewrite !part_all by auto. reflexivity. Qed.

(** A node that is not a multiple of 2^e is below height e. *)
Lemma low_small e k i : 1 <= e -> 0 <= k -> k * 2 ^ e < i < (k + 1) * 2 ^ e -> 0 < i -> low i <= 2 ^ (e - 1).
Proof.
  intros He Hk Hi H0. destruct (Z_lt_le_dec (ht i) e) as [L|L].
  - unfold low. apply Z.pow_le_mono_r; lia.
  - exfalso. destruct (ht_split i H0) as (q & Hq & E). unfold low in E.
    replace (2 ^ ht i) with (2 ^ e * 2 ^ (ht i - e)) in E by (rewrite <- Z.pow_add_r by lia; f_equal; lia).
    assert (E' : i = 2 ^ e * (2 ^ (ht i - e) * (2 * q + 1))) by (rewrite E at 1; ring).
    set (X := 2 ^ (ht i - e) * (2 * q + 1)) in *. set (T := 2 ^ e) in *. assert (0 < T) by (apply Z.pow_pos_nonneg; lia). clearbody X T. clear - E' Hi H. subst i. assert (k < X) by nia. assert (X < k + 1) by nia. lia.
Qed.

Lemma combine_ok sh n P I (G : goodf sh n P I) a e t : 0 <= n -> 1 <= e ->
  (forall i m, 1 <= i <= n -> 1 <= m <= low i -> P i (sumf a (i - m + 1) (i + 1))) ->
  I t (part a (2 ^ (e - 1))) -> exists t', combine_round sh n e t = Ok t' /\ I t' (part a (2 ^ e)).
Proof.
  intros Hn He HP HI. unfold combine_round. assert (T : 2 ^ e = 2 * 2 ^ (e - 1)) by (rewrite <- Z.pow_succ_r by lia; f_equal; lia).
  assert (P1 : 0 < 2 ^ (e - 1)) by (apply Z.pow_pos_nonneg; lia).
  replace (2 ^ e / 2) with (2 ^ (e - 1)) by (rewrite T, (Z.mul_comm 2), Z.div_mul by lia; reflexivity).
  set (m := 2 ^ (e - 1)) in *.
  destruct (foldM_range (fun t k => let idx := (k + 1) * 2 ^ e in node_combine sh t idx (idx - m))
     (fun k t => I t (fun i => if i <=? k * 2 ^ e then part a (2 ^ e) i else part a m i)) 0 (Z.to_nat (n / 2 ^ e)) t) as (t' & E & I').
  - intros k s Hk Hs. cbn [Z.add]. set (i := (k + 1) * 2 ^ e). assert (Hin : i <= n).
    { unfold i. rewrite Z2Nat.id in Hk by (apply Z.div_pos; lia). clear - Hk P1 T Hn. assert (k + 1 <= n / 2 ^ e) by lia.
      pose proof (Z.mul_div_le n (2 ^ e) ltac:(lia)). nia. }
    assert (Hi : 2 ^ e <= i) by (unfold i; nia).
    assert (LI : 2 ^ e <= low i) by (apply (low_divides i e (k + 1)); unfold i; lia).
    assert (LJ : low (i - m) = m).
    { unfold low, m. f_equal. apply (ht_unique _ _ k); [lia|lia|]. unfold i. rewrite T. fold m. ring. }
    assert (EV : (if i <=? k * 2 ^ e then part a (2 ^ e) i else part a m i) + (if i - m <=? k * 2 ^ e then part a (2 ^ e) (i - m) else part a m (i - m)) = part a (2 ^ e) i).
    { replace (i <=? k * 2 ^ e) with false by (unfold i; lia). replace (i - m <=? k * 2 ^ e) with false by (unfold i; lia).
      unfold part. rewrite LJ, (Z.min_r (low i) m), (Z.min_r (low i) (2 ^ e)), Z.min_id by lia.
      rewrite (sumf_split a (i - 2 ^ e + 1) (i - m + 1) (i + 1)) by lia. replace (i - m - m + 1) with (i - 2 ^ e + 1) by lia. lia. }
    replace ((0 + k + 1) * 2 ^ e) with i by (unfold i; lia).
    destruct (f_comb G s _ i (i - m) Hs) as (s' & E1 & I1); [lia|lia| |].
    + rewrite EV. unfold part. apply HP; lia.
    + exists s'. split; [exact E1|]. apply (f_ext G _ _ _ I1). intros x Hx. unfold fadd. destruct (Z.eqb_spec x i) as [->|N].
      * etransitivity; [exact EV|]. fold i. rewrite Z.leb_refl. reflexivity.
      * destruct (Z.leb_spec x (k * 2 ^ e)).
        -- fold i. replace (x <=? i) with true by (unfold i; lia). reflexivity.
        -- fold i. destruct (Z.leb_spec x i); [|reflexivity].
           pose proof (low_small e k x He ltac:(lia) ltac:(fold i; lia) ltac:(lia)) as LS. fold m in LS. apply part_small; lia.
  - apply (f_ext G _ _ _ HI). intros i Hi. replace (i <=? 0 * 2 ^ e) with false by lia. reflexivity.
  - exists t'. split; [exact E|]. apply (f_ext G _ _ _ I'). intros i Hi.
    rewrite Z2Nat.id by (apply Z.div_pos; lia). destruct (Z.leb_spec i (n / 2 ^ e * 2 ^ e)) as [L|L]; [reflexivity|].
    pose proof (Z.div_mod n (2 ^ e) ltac:(lia)). pose proof (Z.mod_pos_bound n (2 ^ e) ltac:(lia)).
    pose proof (low_small e (n / 2 ^ e) i He ltac:(apply Z.div_pos; lia) ltac:(lia) ltac:(lia)) as LS. fold m in LS. apply part_small; lia.
Qed.

Definition empty_f (lay : layout) (B n : Z) : ftree := {| ft_lay := lay; ft_bound := B; ft_size := n; ft_level := []; ft_arr := [darray 1 (f_bytes lay B n)] |}.

Lemma build_f_ok sh n P I (G : goodf sh n P I) lay B A : n = zlen A -> I (empty_f lay B n) (fun _ => 0) ->
  Forall (fun v => 0 <= v < 2 ^ 64) A ->
  (forall i m, 1 <= i <= n -> 1 <= m <= low i -> P i (sumf (elem A) (i - m + 1) (i + 1))) ->
  exists t, build_f sh lay B A n = Ok t /\ I t (node (elem A)).
Proof.
  intros En HI HA HP. unfold build_f. fold (empty_f lay B n). pose proof (zlen_nonneg A) as Hn. rewrite <- En in Hn.
  destruct (foldM_range (fun t j => let* v := geti A (j - 1) in leaf_set sh t j v) (fun k t => I t (fun i => if i <=? k then elem A i else 0)) 1 (Z.to_nat n) (empty_f lay B n)) as (t1 & E1 & I1).
  - intros k s Hk Hs. replace (1 + k - 1) with k by lia. rewrite geti_ok by lia. cbn [bind].
    assert (HE : zn 0 A k = elem A (1 + k)) by (unfold elem; f_equal; lia).
    destruct (f_leaf G s _ (1 + k) (zn 0 A k) Hs) as (s' & E & I'); [lia|now replace (1 + k <=? k) with false by lia| | |].
    + rewrite HE. specialize (HP (1 + k) 1 ltac:(lia) ltac:(pose proof (low_pos (1 + k)); lia)).
      replace (1 + k - 1 + 1) with (1 + k) in HP by lia. rewrite sumf_one in HP. exact HP.
    + apply (proj1 (Forall_forall _ _) HA). unfold zn. apply nth_In. unfold zlen in *. lia.
    + exists s'. split; [exact E|]. apply (f_ext G _ _ _ I'). intros i Hi. unfold fadd. destruct (Z.eqb_spec i (1 + k)) as [->|N].
      * replace (1 + k <=? k) with false by lia. replace (1 + k <=? k + 1) with true by lia. rewrite HE. lia.
      * replace (i <=? k + 1) with (i <=? k) by lia. reflexivity.
  - apply (f_ext G _ _ _ HI). intros i Hi. replace (i <=? 0) with false by lia. reflexivity.
  - rewrite E1. cbn [bind].
    destruct (foldM_range (fun t e => combine_round sh n e t) (fun k t => I t (part (elem A) (2 ^ k))) 1 (Z.to_nat (Z.log2 n)) t1) as (t2 & E2 & I2).
    + intros k s Hk Hs. destruct (combine_ok sh n P I G (elem A) (1 + k) s Hn ltac:(lia) HP) as (s' & E & I'); [replace (1 + k - 1) with k by lia; exact Hs|].
      exists s'. split; [exact E|]. replace (k + 1) with (1 + k) by lia. exact I'.
    + apply (f_ext G _ _ _ I1). intros i Hi. rewrite part_1. rewrite Z2Nat.id by lia. replace (i <=? n) with true by lia. reflexivity.
    + exists t2. split; [exact E2|]. apply (f_ext G _ _ _ I2). intros i Hi. rewrite Z2Nat.id by apply Z.log2_nonneg. apply part_all.
      unfold low. apply Z.pow_le_mono_r; [lia|]. pose proof (low_le i ltac:(lia)) as L. unfold low in L. apply Z.log2_le_mono in L.
      rewrite Z.log2_pow2 in L by apply ht_nonneg. pose proof (Z.log2_le_mono i n ltac:(lia)). lia.
Qed.

(** ** The L classes *)
Record goodlb (sh : bool) (n : Z) (P : Z -> Z -> Prop) (I : ftree -> (Z -> Z) -> Prop) : Prop := {
  lb_ext : forall t V W, I t V -> (forall i, 1 <= i <= n -> V i = W i) -> I t W;
  lb_size : forall t V, I t V -> ft_size t = n;
  lb_get : forall t V h i, I t V -> 0 <= h -> 0 <= i -> (2 * i + 1) * 2 ^ h <= n -> lget t h i = Ok (u64 (V ((2 * i + 1) * 2 ^ h)));
  lb_set : forall t V h i x, I t V -> 0 <= h -> 0 <= i -> (2 * i + 1) * 2 ^ h <= n -> V ((2 * i + 1) * 2 ^ h) = 0 -> P ((2 * i + 1) * 2 ^ h) x ->
    exists t', lset sh t h i (u64 x) = Ok t' /\ I t' (fadd V ((2 * i + 1) * 2 ^ h) x) }.
Arguments lb_ext {sh n P I}. Arguments lb_size {sh n P I}. Arguments lb_get {sh n P I}. Arguments lb_set {sh n P I}.

Lemma wrap_add_u64 w v x : 0 <= w <= 64 -> wrap w (v + u64 x) = wrap w (v + x).
Proof.
  intros Hw. unfold wrap. replace 64 with (w + (64 - w)) by lia. rewrite Z.pow_add_r by lia.
  rewrite Z.rem_mul_r by (try apply Z.pow_nonzero; try apply Z.pow_pos_nonneg; lia).
  replace (v + (x mod 2 ^ w + 2 ^ w * ((x / 2 ^ w) mod 2 ^ (64 - w)))) with (v + x mod 2 ^ w + (x / 2 ^ w) mod 2 ^ (64 - w) * 2 ^ w) by ring.
  rewrite Z_mod_plus_full. apply Zplus_mod_idemp_r.
Qed.

Lemma lb_value sh n P I (G : goodlb sh n P I) t A l k w : n = zlen A -> 0 <= w <= 64 -> 0 <= l -> 0 <= k -> (2 * k + 1) * 2 ^ l <= n ->
  (exists V, I t V /\ forall i, 1 <= i <= n -> ht i < l -> V i = node (elem A) i) ->
  l_value w t A l ((2 * k + 1) * 2 ^ l) = Ok (wrap w (node (elem A) ((2 * k + 1) * 2 ^ l))).
Proof.
  intros En Hw Hl Hk Hi (V & HI & HV). set (i := (2 * k + 1) * 2 ^ l) in *. assert (P1 : 0 < 2 ^ l) by (apply Z.pow_pos_nonneg; lia).
  assert (Hi1 : 2 ^ l <= i) by (unfold i; nia).
  unfold l_value. rewrite geti_ok by lia. cbn [bind].
  destruct (foldM_range (fun '(si, v) j => let si := Z.shiftr si 1 in let* x := lget t j si in Ok (si, wrap w (v + x)))
     (fun j s => s = (Z.shiftr (i - 1) j, wrap w (sumf (elem A) (i - 2 ^ j + 1) (i + 1)))) 0 (Z.to_nat l) (i - 1, wrap w (zn 0 A (i - 1)))) as (s & E & ES).
  - intros j s Hj ->. rewrite Z2Nat.id in Hj by lia. cbn [Z.add]. rewrite Z.shiftr_shiftr by lia.
    assert (PJ : 0 < 2 ^ j) by (apply Z.pow_pos_nonneg; lia). assert (TJ : 2 ^ (j + 1) = 2 * 2 ^ j) by (rewrite Z.pow_add_r by lia; lia).
    assert (EL : 2 ^ l = 2 ^ (j + 1) * 2 ^ (l - (j + 1))) by (rewrite <- Z.pow_add_r by lia; f_equal; lia).
    assert (PL : 0 < 2 ^ (l - (j + 1))) by (apply Z.pow_pos_nonneg; lia).
    assert (EQ : Z.shiftr (i - 1) (j + 1) = (2 * k + 1) * 2 ^ (l - (j + 1)) - 1).
    { rewrite Z.shiftr_div_pow2 by lia. replace (i - 1) with (((2 * k + 1) * 2 ^ (l - (j + 1)) - 1) * 2 ^ (j + 1) + (2 ^ (j + 1) - 1)).
      - rewrite Z.div_add_l by lia. rewrite Z.div_small by lia. lia.
      - unfold i. rewrite EL. ring. }
    rewrite EQ. set (q := (2 * k + 1) * 2 ^ (l - (j + 1)) - 1) in *.
    assert (Hq : 0 <= q) by (unfold q; nia).
    assert (EI : (2 * q + 1) * 2 ^ j = i - 2 ^ j) by (unfold i, q; rewrite EL, TJ; ring).
    replace (0 + j) with j by lia. rewrite (lb_get G t V j q HI) by lia. cbn [bind]. eexists. split; [reflexivity|]. rewrite EI. f_equal.
    assert (HT : ht (i - 2 ^ j) = j) by (apply (ht_unique _ _ q); [lia|lia|rewrite <- EI; ring]).
    assert (LJ : 2 ^ j < 2 ^ l) by (apply Z.pow_lt_mono_r; lia).
    rewrite HV by lia. rewrite wrap_add_u64, wrap_add_l by lia. f_equal.
    unfold node, low. rewrite HT. rewrite (sumf_split (elem A) (i - 2 ^ (j + 1) + 1) (i - 2 ^ j + 1) (i + 1)) by lia.
    replace (i - 2 ^ j - 2 ^ j + 1) with (i - 2 ^ (j + 1) + 1) by lia. lia.
  - change (2 ^ 0) with 1. replace (i - 1 + 1) with i by lia. rewrite sumf_one, Z.shiftr_0_r. reflexivity.
  - cbn zeta in E. rewrite E, ES. cbn [bind]. rewrite Z2Nat.id by lia. do 2 f_equal. unfold node. replace (low i) with (2 ^ l); [reflexivity|].
    unfold low. f_equal. symmetry. apply (ht_unique _ _ k); auto. unfold i. ring.
Qed.

Lemma fill_ok sh n P I (G : goodlb sh n P I) A l t w : n = zlen A -> n < 2 ^ 62 -> 0 <= w <= 64 -> 0 <= l < 63 ->
  (forall t V, I t V -> match ft_lay t with TypeL => 8 * Z.of_nat (type_width (bound_size (ft_bound t) + l)) | _ => 64 end = w) ->
  (forall i, 1 <= i <= n -> P i (node (elem A) i) /\ (ht i = l -> wrap w (node (elem A) i) = u64 (node (elem A) i))) ->
  I t (fun i => if ht i <? l then node (elem A) i else 0) ->
  exists t', fill_level sh A t l = Ok t' /\ I t' (fun i => if ht i <? l + 1 then node (elem A) i else 0).
Proof.
  intros En Hn Hw Hl EW HP HI. unfold fill_level. rewrite (EW _ _ HI), (lb_size G _ _ HI).
  assert (P1 : 0 < 2 ^ l) by (apply Z.pow_pos_nonneg; lia). assert (T : 2 ^ (l + 1) = 2 * 2 ^ l) by (rewrite Z.pow_add_r by lia; lia).
  pose proof (zlen_nonneg A) as Hn0. rewrite <- En in Hn0.
  destruct (foldM_range (fun t k => let node := 2 ^ l + k * 2 ^ (l + 1) in let* v := l_value w t A l node in let* i := shr false node (l + 1) in lset sh t l i v)
     (fun k t => I t (fun i => if (ht i <? l) || (ht i =? l) && (i <? 2 ^ l + k * 2 ^ (l + 1)) then node (elem A) i else 0)) 0 (Z.to_nat ((n + 2 ^ l) / 2 ^ (l + 1))) t) as (t' & E & I').
  - intros k s Hk Hs. rewrite Z2Nat.id in Hk by (apply Z.div_pos; lia). cbn [Z.add]. replace (0 + k) with k by lia.
    replace (2 ^ l + k * 2 ^ (l + 1)) with ((2 * k + 1) * 2 ^ l) in * by (rewrite T; ring). cbn zeta.
    assert (Hi : (2 * k + 1) * 2 ^ l <= n).
    { assert (k + 1 <= (n + 2 ^ l) / 2 ^ (l + 1)) by lia. pose proof (Z.mul_div_le (n + 2 ^ l) (2 ^ (l + 1)) ltac:(lia)). rewrite T in *. nia. }
    assert (HT : ht ((2 * k + 1) * 2 ^ l) = l) by (apply (ht_unique _ _ k); [lia|lia|ring]).
    assert (HV : exists V, I s V /\ forall i, 1 <= i <= n -> ht i < l -> V i = node (elem A) i).
    { eexists. split; [exact Hs|]. intros i H1 H2. cbn beta. replace (ht i <? l) with true by lia. reflexivity. }
    rewrite (lb_value sh n P I G s A l k w En Hw ltac:(lia) ltac:(lia) Hi HV).
    cbn [bind]. rewrite shr_ok by lia. cbn [bind].
    replace ((2 * k + 1) * 2 ^ l / 2 ^ (l + 1)) with k.
    2: { apply Z.div_unique with (2 ^ l); rewrite T; [lia|ring]. }
    set (i := (2 * k + 1) * 2 ^ l) in *. assert (Hi0 : 1 <= i) by (unfold i; nia).
    destruct (HP i ltac:(lia)) as [HP1 HP2]. rewrite HP2 by auto.
    destruct (lb_set G s _ l k (node (elem A) i) Hs) as (s' & E1 & I1); [lia|lia|exact Hi| |exact HP1|].
    + cbn beta. fold i. rewrite HT, Z.ltb_irrefl, Z.eqb_refl, Z.ltb_irrefl. reflexivity.
    + exists s'. split; [exact E1|]. apply (lb_ext G _ _ _ I1). fold i. intros x Hx. unfold fadd.
      destruct (Z.eqb_spec x i) as [->|N].
      * rewrite HT, Z.ltb_irrefl, Z.eqb_refl, Z.ltb_irrefl. cbn [orb andb]. replace (i <? 2 ^ l + (k + 1) * 2 ^ (l + 1)) with true by (unfold i; nia). lia.
      * destruct (Z.ltb_spec (ht x) l); [reflexivity|]. cbn [orb]. destruct (Z.eqb_spec (ht x) l); [|reflexivity]. cbn [andb].
        destruct (ht_split x ltac:(lia)) as (q & Hq & EX). unfold low in EX. rewrite e in EX.
        replace (x <? 2 ^ l + (k + 1) * 2 ^ (l + 1)) with (x <? i); [reflexivity|].
        assert (q <> k) by (intros ->; apply N; unfold i; rewrite EX; ring). rewrite T. unfold i. rewrite EX. clear - H0 P1. destruct (Z.ltb_spec (2 ^ l * (2 * q + 1)) ((2 * k + 1) * 2 ^ l)), (Z.ltb_spec (2 ^ l * (2 * q + 1)) (2 ^ l + (k + 1) * (2 * 2 ^ l))); auto; exfalso; nia.
  - apply (lb_ext G _ _ _ HI). intros i Hi. destruct (Z.ltb_spec (ht i) l); [reflexivity|]. cbn [orb].
    destruct (Z.eqb_spec (ht i) l) as [e|]; [|reflexivity]. cbn [andb]. pose proof (low_le i ltac:(lia)) as LL. unfold low in LL. rewrite e in LL.
    replace (i <? 2 ^ l + 0 * 2 ^ (l + 1)) with false by lia. reflexivity.
  - exists t'. split; [exact E|]. apply (lb_ext G _ _ _ I'). intros i Hi. rewrite Z2Nat.id by (apply Z.div_pos; lia).
    destruct (Z.ltb_spec (ht i) l); [replace (ht i <? l + 1) with true by lia; reflexivity|]. cbn [orb].
    destruct (Z.eqb_spec (ht i) l) as [e|]; [|replace (ht i <? l + 1) with false by lia; reflexivity]. cbn [andb]. replace (ht i <? l + 1) with true by lia.
    replace (i <? 2 ^ l + (n + 2 ^ l) / 2 ^ (l + 1) * 2 ^ (l + 1)) with true; [reflexivity|].
    pose proof (Z.div_mod (n + 2 ^ l) (2 ^ (l + 1)) ltac:(lia)). pose proof (Z.mod_pos_bound (n + 2 ^ l) (2 ^ (l + 1)) ltac:(lia)). lia.
Qed.

Lemma levels_ok sh n P I (G : goodlb sh n P I) A t : n = zlen A -> n < 2 ^ 62 -> (0 < n -> I t (fun _ => 0)) ->
  (forall l, 0 <= l <= Z.log2 n -> exists w, 0 <= w <= 64 /\ (forall t V, I t V -> match ft_lay t with TypeL => 8 * Z.of_nat (type_width (bound_size (ft_bound t) + l)) | _ => 64 end = w)
     /\ forall i, 1 <= i <= n -> ht i = l -> wrap w (node (elem A) i) = u64 (node (elem A) i)) ->
  (forall i, 1 <= i <= n -> P i (node (elem A) i)) -> 0 < n ->
  exists t', foldM (fill_level sh A) (zrange 0 (Z.to_nat (Z.log2 n + 1))) t = Ok t' /\ I t' (node (elem A)).
Proof.
  intros En Hn HI HW HP H0. assert (HG : 0 <= Z.log2 n < 62) by (split; [apply Z.log2_nonneg|apply Z.log2_lt_pow2; lia]).
  destruct (foldM_range (fill_level sh A) (fun l t => I t (fun i => if ht i <? l then node (elem A) i else 0)) 0 (Z.to_nat (Z.log2 n + 1)) t) as (t' & E & I').
  - intros l s Hl Hs. rewrite Z2Nat.id in Hl by lia. replace (0 + l) with l by lia. destruct (HW l ltac:(lia)) as (w & W1 & W2 & W3).
    apply (fill_ok sh n P I G A l s w); auto; lia.
  - apply (lb_ext G _ _ _ (HI H0)). intros i Hi. replace (ht i <? 0) with false by (pose proof (ht_nonneg i); lia). reflexivity.
  - exists t'. split; [exact E|]. apply (lb_ext G _ _ _ I'). intros i Hi. rewrite Z2Nat.id by lia.
    replace (ht i <? Z.log2 n + 1) with true; [reflexivity|]. pose proof (low_le i ltac:(lia)) as L. unfold low in L. apply Z.log2_le_mono in L.
    rewrite Z.log2_pow2 in L by apply ht_nonneg. pose proof (Z.log2_le_mono i n ltac:(lia)). lia.
Qed.
