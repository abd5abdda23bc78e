(** Arithmetic of Fenwick trees: least significant bits, sums over the range of
    a node, and the loops over an abstract store of nodes. *)
From Coq Require Import ZifyBool.
From Verif Require Import Base BaseFacts SpecHft Hft.
Ltac Zify.zify_post_hook ::= Z.div_mod_to_equations.

(** ** Least significant bits *)
Fixpoint ctz_odd (p : positive) : Z := match p with xO q => ctz_odd q | xI q => Zpos q | xH => 0 end.

Lemma ctz_split p : Zpos p = 2 ^ ctz_pos p * (2 * ctz_odd p + 1) /\ 0 <= ctz_pos p /\ 0 <= ctz_odd p.
Proof.
  induction p as [p IH|p IH|]; cbn [ctz_pos ctz_odd].
  - lia.
  - destruct IH as (E & H1 & H2). rewrite (Pos2Z.inj_xO p), E at 1. rewrite Z.pow_add_r by lia. split; [|lia]. ring.
  - lia.
Qed.

(** Height of a node. *)
Definition ht (i : Z) : Z := match i with Zpos p => ctz_pos p | _ => 0 end.
Definition low (i : Z) : Z := 2 ^ ht i.

Lemma ht_nonneg i : 0 <= ht i.
Proof. destruct i; cbn; try lia. destruct (ctz_split p); lia. Qed.

Lemma low_pos i : 0 < low i.
Proof. apply Z.pow_pos_nonneg; [lia|apply ht_nonneg]. Qed.

Lemma ht_split i : 0 < i -> exists q, 0 <= q /\ i = low i * (2 * q + 1).
Proof. intros H. destruct i; try lia. destruct (ctz_split p) as (E & H1 & H2). exists (ctz_odd p). auto. Qed.

Lemma rho_ok i : 0 < i -> rho i = Ok (ht i).
Proof. destruct i; try lia. reflexivity. Qed.

Lemma low_le i : 0 < i -> low i <= i.
Proof. intros H. destruct (ht_split i H) as (q & Hq & E). pose proof (low_pos i). nia. Qed.

Lemma ht_unique i h q : 0 <= h -> 0 <= q -> i = 2 ^ h * (2 * q + 1) -> ht i = h.
Proof.
  intros Hh Hq E. assert (P : 0 < 2 ^ h) by (apply Z.pow_pos_nonneg; lia).
  assert (Hi : 0 < i) by nia. destruct (ht_split i Hi) as (q' & Hq' & E'). unfold low in E'.
  pose proof (ht_nonneg i) as Hn. set (k := ht i) in *. clearbody k.
  destruct (Z.lt_trichotomy k h) as [L|[L|L]]; auto; exfalso.
  - replace (2 ^ h) with (2 ^ k * (2 * 2 ^ (h - k - 1))) in E
      by (rewrite <- (Z.pow_succ_r 2 (h - k - 1)), <- Z.pow_add_r by lia; f_equal; lia).
    assert (0 < 2 ^ k) by (apply Z.pow_pos_nonneg; lia).
    assert (2 * q' + 1 = 2 * (2 ^ (h - k - 1) * (2 * q + 1))) by nia. lia.
  - replace (2 ^ k) with (2 ^ h * (2 * 2 ^ (k - h - 1))) in E'
      by (rewrite <- (Z.pow_succ_r 2 (k - h - 1)), <- Z.pow_add_r by lia; f_equal; lia).
    assert (2 * q + 1 = 2 * (2 ^ (k - h - 1) * (2 * q' + 1))) by nia. lia.
Qed.

(** Bits of a sum without carries. *)
Lemma land_parts a b c d w : 0 <= w -> 0 <= b < 2 ^ w -> 0 <= d < 2 ^ w -> Z.land (a * 2 ^ w + b) (c * 2 ^ w + d) = Z.land a c * 2 ^ w + Z.land b d.
Proof.
  intros Hw Hb Hd.
  assert (P : forall x y, 0 <= y < 2 ^ w -> forall k, 0 <= k -> Z.testbit (x * 2 ^ w + y) k = if k <? w then Z.testbit y k else Z.testbit x (k - w)).
  { intros x y Hy k Hk. destruct (Z.ltb_spec k w).
    - rewrite <- (Z.mod_pow2_bits_low (x * 2 ^ w + y) w k) by lia. f_equal. rewrite Z.add_comm, Z_mod_plus_full. apply Z.mod_small. exact Hy.
    - replace k with (k - w + w) at 1 by lia. rewrite <- Z.div_pow2_bits by lia. f_equal. rewrite Z.div_add_l by lia. rewrite Z.div_small by lia. lia. }
  assert (0 <= Z.land b d < 2 ^ w).
  { assert (Hn : 0 <= Z.land b d) by (apply Z.land_nonneg; lia). split; [exact Hn|].
    destruct (Z.eq_dec (Z.land b d) 0) as [->|]; [apply Z.pow_pos_nonneg; lia|].
    apply Z.log2_lt_pow2; [lia|]. pose proof (Z.log2_land b d ltac:(lia) ltac:(lia)).
    destruct (Z.eq_dec b 0) as [->|]; [rewrite Z.land_0_l in *; lia|].
    assert (Z.log2 b < w) by (apply Z.log2_lt_pow2; lia). lia. }
  apply Z.bits_inj'. intros k Hk. rewrite Z.land_spec, !P by lia. destruct (k <? w); rewrite Z.land_spec; reflexivity.
Qed.

Lemma land_pow_ones h : 0 <= h -> Z.land (2 ^ h) (2 ^ h - 1) = 0.
Proof.
  intros H. replace (2 ^ h - 1) with (Z.ones h) by (rewrite Z.ones_equiv; lia). rewrite Z.land_ones by lia. apply Z_mod_same_full.
Qed.

Lemma clear_rho_ok i : 0 < i < 2 ^ 64 -> clear_rho i = i - low i.
Proof.
  intros Hi. unfold clear_rho. rewrite wrap_small by lia. destruct (ht_split i) as (q & Hq & E); [lia|]. unfold low in *.
  pose proof (ht_nonneg i). set (h := ht i) in *. clearbody h. assert (P : 0 < 2 ^ h) by (apply Z.pow_pos_nonneg; lia).
  assert (P2 : 2 ^ (h + 1) = 2 * 2 ^ h) by (rewrite Z.pow_add_r by lia; lia).
  replace (i - 1) with (q * 2 ^ (h + 1) + (2 ^ h - 1)) by (rewrite E, P2; ring).
  replace i with (q * 2 ^ (h + 1) + 2 ^ h) by (rewrite E, P2; ring).
  rewrite land_parts by lia. rewrite Z.land_diag, land_pow_ones by lia. lia.
Qed.

Lemma mask_rho_ok i : 0 < i < 2 ^ 64 -> mask_rho i = low i.
Proof.
  intros Hi. unfold mask_rho. destruct (ht_split i) as (q & Hq & E); [lia|]. unfold low in *.
  pose proof (ht_nonneg i). set (h := ht i) in *. clearbody h. assert (P : 0 < 2 ^ h) by (apply Z.pow_pos_nonneg; lia).
  assert (Hh : h < 64).
  { apply (Z.pow_lt_mono_r_iff 2); nia. }
  assert (P2 : 2 ^ (h + 1) = 2 * 2 ^ h) by (rewrite Z.pow_add_r by lia; lia).
  assert (P3 : 2 ^ 64 = 2 ^ (h + 1) * 2 ^ (63 - h)) by (rewrite <- Z.pow_add_r by lia; f_equal; lia).
  assert (P4 : 0 < 2 ^ (63 - h)) by (apply Z.pow_pos_nonneg; lia).
  assert (Hq2 : q < 2 ^ (63 - h)) by nia.
  assert (EN : u64 (- i) = (2 ^ (63 - h) - 1 - q) * 2 ^ (h + 1) + 2 ^ h).
  { unfold wrap. symmetry. apply (Z.mod_unique _ _ (-1)). { left. rewrite P3. nia. } rewrite P3, E, P2. ring. }
  rewrite EN. replace i with (q * 2 ^ (h + 1) + 2 ^ h) by (rewrite E, P2; ring).
  rewrite land_parts by lia. rewrite Z.land_diag.
  assert (Z.land q (2 ^ (63 - h) - 1 - q) = 0); [|lia].
  replace (2 ^ (63 - h) - 1 - q) with (Z.ldiff (Z.ones (63 - h)) q).
  - rewrite Z.land_comm. apply Z.bits_inj'. intros k Hk. rewrite Z.land_spec, Z.ldiff_spec, Z.bits_0. destruct (Z.testbit q k), (Z.testbit (Z.ones (63 - h)) k); reflexivity.
  - assert (Z.land (Z.ones (63 - h)) q = q) by (rewrite Z.land_comm, Z.land_ones by lia; apply Z.mod_small; lia).
    pose proof (Z.sub_nocarry_ldiff (Z.ones (63 - h)) q) as HS. rewrite <- HS.
    + rewrite Z.ones_equiv. lia.
    + apply Z.bits_inj'. intros k Hk. rewrite Z.ldiff_spec, Z.bits_0. rewrite <- H0 at 1. rewrite Z.land_spec.
      destruct (Z.testbit (Z.ones (63 - h)) k), (Z.testbit q k); reflexivity.
Qed.

(** The next node on the way up is at least one level higher. *)
Lemma low_up i : 0 < i -> 2 * low i <= low (i + low i) /\ (exists q, 0 <= q /\ i + low i = 2 * low i * (q + 1)).
Proof.
  intros Hi. destruct (ht_split i Hi) as (q & Hq & E). pose proof (low_pos i) as P.
  assert (E1 : i + low i = 2 * low i * (q + 1)) by (rewrite E at 1; ring). split; [|exists q; auto].
  destruct (ht_split (q + 1)) as (r & Hr & E2); [lia|]. pose proof (low_pos (q + 1)).
  assert (EH : ht (i + low i) = ht i + 1 + ht (q + 1)).
  { apply (ht_unique _ _ r); [pose proof (ht_nonneg i); pose proof (ht_nonneg (q + 1)); lia|auto|].
    rewrite !Z.pow_add_r by (pose proof (ht_nonneg i); pose proof (ht_nonneg (q + 1)); lia). fold (low i). fold (low (q + 1)).
    rewrite E1, E2 at 1. change (2 ^ 1) with 2. ring. }
  unfold low at 2. rewrite EH, !Z.pow_add_r by (pose proof (ht_nonneg i); pose proof (ht_nonneg (q + 1)); lia).
  fold (low i). fold (low (q + 1)). change (2 ^ 1) with 2. nia.
Qed.

(** Nodes strictly between a node and the next one up cover nothing at or below it. *)
Lemma low_between i k : 0 < i -> i < k < i + low i -> i <= k - low k.
Proof.
  intros Hi Hk. destruct (ht_split i Hi) as (q & Hq & E). destruct (ht_split k) as (r & Hr & E2); [lia|].
  pose proof (low_pos i) as P1. pose proof (low_pos k) as P2.
  assert (HL : ht k < ht i \/ ht i <= ht k) by lia. destruct HL as [HL|HL].
  - assert (D : low i = low k * (2 * 2 ^ (ht i - ht k - 1))).
    { unfold low. rewrite <- (Z.pow_succ_r 2 (ht i - ht k - 1)), <- Z.pow_add_r by (pose proof (ht_nonneg k); lia). f_equal. lia. }
    set (e := 2 ^ (ht i - ht k - 1)) in *. clearbody e. assert (EI : i = low k * (2 * e * (2 * q + 1))) by (rewrite E, D at 1; ring).
    set (X := 2 * e * (2 * q + 1)) in *. set (L := low k) in *. clearbody X L. clear - EI E2 Hk P2 Hr.
    assert (X < 2 * r + 1) by nia. nia.
  - assert (D : low k = low i * 2 ^ (ht k - ht i)).
    { unfold low. rewrite <- Z.pow_add_r by (pose proof (ht_nonneg i); lia). f_equal. lia. }
    set (e := 2 ^ (ht k - ht i)) in *. clearbody e. exfalso.
    assert (k = low i * (e * (2 * r + 1))) by (rewrite E2, D at 1; ring).
    set (X := e * (2 * r + 1)) in *. set (L := low i) in *. clearbody X L. clear - H E Hk P1 Hq.
    assert (2 * q + 1 < X) by nia. nia.
Qed.

Lemma low_divides i h q : 0 <= h -> 0 < i -> i = 2 ^ h * q -> 2 ^ h <= low i.
Proof.
  intros Hh Hi E. assert (P : 0 < 2 ^ h) by (apply Z.pow_pos_nonneg; lia). assert (Hq : 0 < q) by nia.
  destruct (ht_split q Hq) as (r & Hr & E2). pose proof (low_pos q) as P2.
  assert (EH : ht i = h + ht q).
  { apply (ht_unique _ _ r); auto; [pose proof (ht_nonneg q); lia|]. rewrite Z.pow_add_r by (pose proof (ht_nonneg q); lia). fold (low q). rewrite E, E2 at 1. ring. }
  unfold low. rewrite EH, Z.pow_add_r by (pose proof (ht_nonneg q); lia). fold (low q). nia.
Qed.

(** ** Sums over the range of a node *)

(** The elements as a function of the index, from 1. *)
Definition elem (A : list Z) (i : Z) : Z := zn 0 A (i - 1).
(** Sum of the elements 1..k. *)
Definition S1 (a : Z -> Z) (k : Z) : Z := sumf a 1 (k + 1).
Definition node (a : Z -> Z) (i : Z) : Z := sumf a (i - low i + 1) (i + 1).

Lemma S1_0 a : S1 a 0 = 0.
Proof. unfold S1. apply sumf_empty. lia. Qed.

Lemma node_S1 a i : 0 < i -> S1 a i = S1 a (i - low i) + node a i.
Proof. intros H. unfold S1, node. pose proof (low_le i H). pose proof (low_pos i). rewrite (sumf_split a 1 (i - low i + 1) (i + 1)) by lia. reflexivity. Qed.

Lemma fold_sumn l : forall d, fold_right Z.add 0 l = sumn (fun i => zn 0 l (i - d)) d (length l).
Proof.
  induction l as [|x l IH]; intros d; cbn [fold_right length sumn]; [reflexivity|].
  rewrite Z.sub_diag. change (zn 0 (x :: l) 0) with x. f_equal. rewrite (IH (d + 1)). apply sumn_ext. intros i Hi.
  rewrite (zn_cons_S _ x) by lia. f_equal. lia.
Qed.

Lemma seq_sum_S1 A k : 0 <= k <= zlen A -> seq_sum A k = S1 (elem A) k.
Proof.
  intros Hk. unfold seq_sum, S1, sumf. rewrite (fold_sumn _ 1), firstn_length_le by (unfold zlen in *; lia).
  replace (Z.to_nat (k + 1 - 1)) with (Z.to_nat k) by lia. apply sumn_ext. intros i Hi. unfold elem, zn.
  rewrite <- (firstn_skipn (Z.to_nat k) A) at 2. symmetry. apply app_nth1. rewrite firstn_length_le by (unfold zlen in *; lia). lia.
Qed.

Lemma node_fadd a i0 d k : 0 < i0 -> 0 < k -> node (fadd a i0 d) k = node a k + (if (k - low k <? i0) && (i0 <=? k) then d else 0).
Proof.
  intros H0 Hk. unfold node. rewrite sumf_fadd by (pose proof (low_pos k); lia). f_equal.
  replace (k - low k + 1 <=? i0) with (k - low k <? i0) by lia. replace (i0 <? k + 1) with (i0 <=? k) by lia. reflexivity.
Qed.

(** ** The operations over any store of nodes *)

(** [I t V]: node [i] of [t] holds [V i], as a 64-bit number.  [P i v]: node [i]
    has room for [v]. *)
Record good (sh : bool) (n : Z) (P : Z -> Z -> Prop) (I : ftree -> (Z -> Z) -> Prop) : Prop := {
  g_size : forall t V, I t V -> ft_size t = n;
  g_get : forall t V i, I t V -> 1 <= i <= n -> node_get t i = Ok (u64 (V i));
  g_add : forall t V i d, I t V -> 1 <= i <= n -> P i (V i + d) -> - 2 ^ 63 <= d < 2 ^ 64 ->
    exists t', node_add sh t i d = Ok t' /\ I t' (fadd V i d);
  g_ext : forall t V W, I t V -> (forall i, 1 <= i <= n -> V i = W i) -> I t W }.
Arguments g_size {sh n P I}. Arguments g_get {sh n P I}. Arguments g_add {sh n P I}. Arguments g_ext {sh n P I}.

Lemma prefix_loop_ok sh n P I (G : good sh n P I) t a : n < 2 ^ 64 -> I t (node a) ->
  forall (f : nat) i s, (f <= 64)%nat -> 0 <= i <= n -> (exists q, i = 2 ^ (64 - Z.of_nat f) * q) ->
  prefix_loop (S f) t i s = Ok (if i =? 0 then s else u64 (s + S1 a i)).
Proof.
  intros Hn HI. induction f as [|f IH]; intros i s Hf Hi [q Eq].
  - change (64 - Z.of_nat 0) with 64 in Eq. cbn [prefix_loop]. destruct (Z.eqb_spec i 0); [reflexivity|]. nia.
  - remember (S f) as f1. cbn [prefix_loop]. destruct (Z.eqb_spec i 0) as [->|N]; [reflexivity|].
    rewrite (g_get G _ _ i HI) by lia. cbn [bind]. rewrite clear_rho_ok by lia. subst f1.
    pose proof (low_le i ltac:(lia)). pose proof (low_pos i) as Pl.
    assert (D : exists q', i - low i = 2 ^ (64 - Z.of_nat f) * q').
    { set (g := 64 - Z.of_nat (S f)) in *. replace (64 - Z.of_nat f) with (g + 1) by lia.
      assert (Hg : 0 <= g) by lia. assert (0 < 2 ^ g) by (apply Z.pow_pos_nonneg; lia). rewrite Z.pow_add_r by lia. change (2 ^ 1) with 2.
      destruct (ht_split i) as (r & Hr & E); [lia|]. pose proof (low_divides i g q Hg ltac:(lia) Eq) as L.
      assert (HL : g <= ht i) by (unfold low in L; apply (Z.pow_le_mono_r_iff 2); [lia|apply ht_nonneg|exact L]).
      exists (2 ^ (ht i - g) * r). rewrite E at 1. replace (low i) with (2 ^ g * 2 ^ (ht i - g)).
      - ring.
      - rewrite <- Z.pow_add_r by lia. unfold low. f_equal. lia. }
    rewrite IH by (auto; lia). rewrite (node_S1 a i) by lia.
    destruct (Z.eqb_spec (i - low i) 0) as [E0|N0].
    + rewrite E0, S1_0, wrap_add_r. reflexivity.
    + rewrite wrap_add_l. f_equal. rewrite <- Z.add_assoc, (Z.add_comm s), <- Z.add_assoc, wrap_add_l. f_equal. ring.
Qed.

Lemma prefix_ok sh n P I (G : good sh n P I) t a i : n < 2 ^ 64 -> I t (node a) -> 0 <= i <= n -> ft_prefix t i = Ok (u64 (S1 a i)).
Proof.
  intros Hn HI Hi. unfold ft_prefix. rewrite (prefix_loop_ok sh n P I G t a Hn HI 64 i 0) by (try lia; exists i; lia).
  destruct (Z.eqb_spec i 0) as [->|]; [rewrite S1_0|]; reflexivity.
Qed.

(** Nodes above [i0] up to [j] increased. *)
Definition partly (a : Z -> Z) (i0 d j k : Z) : Z := node a k + (if (k - low k <? i0) && (i0 <=? k) && (k <? j) then d else 0).

Lemma add_loop_ok sh n P I (G : good sh n P I) a i0 d : n < 2 ^ 63 -> 1 <= i0 -> - 2 ^ 63 <= d < 2 ^ 64 ->
  (forall k, 1 <= k <= n -> k - low k < i0 <= k -> P k (node (fadd a i0 d) k)) ->
  forall (f : nat) t j, (f <= 64)%nat -> I t (partly a i0 d j) -> j - low j < i0 <= j -> j < 2 ^ 64 -> (exists q, j = 2 ^ (64 - Z.of_nat f) * q) ->
  exists t', add_loop sh (S f) t j d = Ok t' /\ I t' (node (fadd a i0 d)).
Proof.
  intros Hn H0 Hd HP. induction f as [|f IH]; intros t j Hf HI Hj Hj2 [q Eq].
  - change (64 - Z.of_nat 0) with 64 in Eq. nia.
  - remember (S f) as f1. cbn [add_loop]. rewrite (g_size G _ _ HI). destruct (Z.leb_spec j n) as [L|L].
    + assert (EV : partly a i0 d j j + d = node (fadd a i0 d) j).
      { unfold partly. rewrite node_fadd by lia. replace (j <? j) with false by lia. rewrite andb_false_r.
        replace ((j - low j <? i0) && (i0 <=? j)) with true by lia. lia. }
      destruct (g_add G t _ j d HI) as (t1 & E1 & I1); [lia|rewrite EV; apply HP; lia|lia|].
      rewrite E1. cbn [bind]. subst f1. rewrite mask_rho_ok by lia. pose proof (low_le j ltac:(lia)). pose proof (low_pos j).
      rewrite wrap_small by lia. destruct (low_up j ltac:(lia)) as [U (q2 & Hq2 & E2)].
      apply IH; [lia| |lia|lia|].
      * apply (g_ext G _ _ _ I1). intros k Hk. unfold fadd, partly. destruct (Z.eqb_spec k j) as [->|N].
        -- replace (j <? j) with false by lia. replace (j <? j + low j) with true by lia.
           replace ((j - low j <? i0) && (i0 <=? j)) with true by lia. cbn [andb]. lia.
        -- destruct (Z.ltb_spec k j).
           ++ replace (k <? j + low j) with true by lia. reflexivity.
           ++ destruct (Z.ltb_spec k (j + low j)); [|reflexivity]. pose proof (low_between j k ltac:(lia) ltac:(lia)).
              replace (k - low k <? i0) with false by lia. reflexivity.
      * set (g := 64 - Z.of_nat (S f)) in *. replace (64 - Z.of_nat f) with (g + 1) by lia. assert (Hg : 0 <= g) by lia.
        pose proof (low_divides j g q Hg ltac:(lia) Eq) as LD.
        assert (HL : g <= ht j) by (unfold low in LD; apply (Z.pow_le_mono_r_iff 2); [lia|apply ht_nonneg|exact LD]).
        exists (2 ^ (ht j - g) * (q2 + 1)). rewrite E2. unfold low. rewrite Z.pow_add_r by lia.
        replace (2 ^ ht j) with (2 ^ g * 2 ^ (ht j - g)) by (rewrite <- Z.pow_add_r by lia; f_equal; lia). ring.
    + exists t. split; [reflexivity|]. apply (g_ext G _ _ _ HI). intros k Hk. unfold partly. rewrite node_fadd by lia.
      replace (k <? j) with true by lia. rewrite andb_true_r. reflexivity.
Qed.

Lemma add_ok sh n P I (G : good sh n P I) t a i d : n < 2 ^ 63 -> I t (node a) -> 1 <= i <= n -> - 2 ^ 63 <= d < 2 ^ 64 ->
  (forall k, 1 <= k <= n -> k - low k < i <= k -> P k (node (fadd a i d) k)) ->
  exists t', ft_add sh t i d = Ok t' /\ I t' (node (fadd a i d)).
Proof.
  intros Hn HI Hi Hd HP. unfold ft_add. apply (add_loop_ok sh n P I G a i d Hn ltac:(lia) Hd HP 64 t i); try lia.
  - apply (g_ext G _ _ _ HI). intros k Hk. unfold partly. destruct ((k - low k <? i) && (i <=? k)) eqn:E; cbn [andb]; [|lia].
    destruct (Z.ltb_spec k i); [lia|lia].
  - pose proof (low_pos i). lia.
  - exists i. lia.
Qed.

(** *** Searching *)

(** The largest prefix of [b] not exceeding [v]. *)
Definition found1 (b : Z -> Z) (n v k rest : Z) : Prop :=
  0 <= k <= n /\ rest = v - S1 b k /\ 0 <= rest /\ forall j, k < j <= n -> v < S1 b j.

(** State of the descent before the level of [m]: the answer is within 2m. *)
Definition descent (b : Z -> Z) (n v m k rest : Z) : Prop :=
  0 <= k <= n /\ (exists q, k = 2 * m * q) /\ rest = v - S1 b k /\ 0 <= rest /\ forall j, k + 2 * m <= j <= n -> v < S1 b j.

Lemma S1_mono b n j k : (forall i, 1 <= i <= n -> 0 <= b i) -> 0 <= j <= k -> k <= n -> S1 b j <= S1 b k.
Proof. intros Hb Hj Hk. unfold S1. apply sumf_mono; [lia|]. intros i Hi. apply Hb. lia. Qed.

Lemma low_mult q h : 0 <= h -> 0 <= q -> low (2 * 2 ^ h * q + 2 ^ h) = 2 ^ h.
Proof. intros Hh Hq. unfold low. f_equal. apply (ht_unique _ _ q); auto. ring. Qed.

Lemma descend b n v h k rest : 0 <= h -> (forall i, 1 <= i <= n -> 0 <= b i) -> descent b n v (2 ^ h) k rest ->
  let m := 2 ^ h in let m' := 2 ^ h / 2 in
  (n < k + m -> 0 < h -> descent b n v m' k rest) /\
  (k + m <= n -> 0 < h -> if node b (k + m) <=? rest then descent b n v m' (k + m) (rest - node b (k + m)) else descent b n v m' k rest) /\
  (h = 0 -> (if (k + m <=? n) && (node b (k + m) <=? rest) then found1 b n v (k + m) (rest - node b (k + m)) else found1 b n v k rest)) /\
  (k + m <= n -> 1 <= k + m /\ ht (k + m) = h).
Proof.
  intros Hh Hb (Hk & [q Eq] & Hr & Hr0 & HS) m m'. subst m m'. assert (P : 0 < 2 ^ h) by (apply Z.pow_pos_nonneg; lia).
  assert (Hq : 0 <= q) by nia.
  assert (HT : ht (k + 2 ^ h) = h) by (apply (ht_unique _ _ q); auto; rewrite Eq; ring).
  assert (HN : S1 b (k + 2 ^ h) = S1 b k + node b (k + 2 ^ h)).
  { rewrite (node_S1 b (k + 2 ^ h)) by lia. unfold low. rewrite HT. do 2 f_equal. lia. }
  assert (H2 : 0 < h -> 2 * (2 ^ h / 2) = 2 ^ h).
  { intros Hp. replace h with (1 + (h - 1)) by lia. rewrite Z.pow_add_r by lia. change (2 ^ 1) with 2. rewrite (Z.mul_comm 2 (2 ^ (h - 1))) at 1. rewrite Z.div_mul by lia. lia. }
  split; [|split; [|split]].
  - intros Hn Hp. specialize (H2 Hp). split; [lia|]. split; [exists (2 * q); rewrite Eq, H2; ring|]. split; [auto|]. split; [auto|]. intros j Hj. lia.
  - intros Hn Hp. specialize (H2 Hp). destruct (Z.leb_spec (node b (k + 2 ^ h)) rest) as [L|L].
    + split; [lia|]. split; [exists (2 * q + 1); rewrite Eq, H2; ring|]. split; [lia|]. split; [lia|]. intros j Hj. apply HS. lia.
    + split; [lia|]. split; [exists (2 * q); rewrite Eq, H2; ring|]. split; [auto|]. split; [auto|]. intros j Hj.
      pose proof (S1_mono b n (k + 2 ^ h) j Hb ltac:(lia) ltac:(lia)). lia.
  - intros ->. change (2 ^ 0) with 1 in *. destruct (Z.leb_spec (k + 1) n) as [Ln|Ln]; cbn [andb]; [destruct (Z.leb_spec (node b (k + 1)) rest) as [L|L]|].
    + split; [lia|]. split; [lia|]. split; [lia|]. intros j Hj. apply HS. lia.
    + split; [lia|]. split; [auto|]. split; [auto|]. intros j Hj. pose proof (S1_mono b n (k + 1) j Hb ltac:(lia) ltac:(lia)). lia.
    + split; [lia|]. split; [auto|]. split; [auto|]. intros j Hj. lia.
  - intros Hn. split; [lia|exact HT].
Qed.

(** The values a search compares with: the nodes, or their distance to the
    largest value they can have. *)
Definition comp_elem (comp : bool) (B : Z) (a : Z -> Z) : Z -> Z := if comp then fun i => B - a i else a.

Lemma sumf_comp B a lo hi : lo <= hi -> sumf (fun i => B - a i) lo hi = B * (hi - lo) - sumf a lo hi.
Proof.
  intros H. replace hi with (lo + Z.of_nat (Z.to_nat (hi - lo))) by lia. set (k := Z.to_nat (hi - lo)). clearbody k. clear H.
  induction k as [|k IH]; [rewrite !sumf_empty by lia; lia|]. replace (lo + Z.of_nat (S k)) with (lo + Z.of_nat k + 1) by lia.
  rewrite !sumf_succ, IH by lia. ring.
Qed.

Lemma node_comp B a i : 0 < i -> node (fun k => B - a k) i = B * low i - node a i.
Proof. intros H. unfold node. pose proof (low_pos i). rewrite sumf_comp by lia. ring. Qed.

Lemma shl_ok x s : 0 <= s < 64 -> shl x s = Ok (u64 (x * 2 ^ s)).
Proof. intros H. unfold shl. replace ((0 <=? s) && (s <? 64)) with true by lia. rewrite Z.shiftl_mul_pow2 by lia. reflexivity. Qed.
Lemma shr_ok sh x s : 0 <= s < 64 -> shr sh x s = Ok (x / 2 ^ s).
Proof. intros H. unfold shr. replace ((0 <=? s) && (s <? 64)) with true by lia. rewrite Z.shiftr_div_pow2 by lia. reflexivity. Qed.

(** What a node contributes to a search. *)
Lemma compared comp B a n i : 0 <= B -> 1 <= i <= n -> n < 2 ^ 64 -> B * low i < 2 ^ 64 -> (forall k, 1 <= k <= n -> 0 <= a k <= B) ->
  complement comp B (ht i) (u64 (node a i)) = Ok (node (comp_elem comp B a) i) /\ 0 <= node (comp_elem comp B a) i < 2 ^ 64.
Proof.
  intros HB Hi Hn HL Ha. pose proof (low_le i ltac:(lia)) as L. pose proof (low_pos i) as P.
  assert (Hb : 0 <= node a i <= B * low i).
  { unfold node. pose proof (sumf_bound a B (i - low i + 1) (i + 1) ltac:(lia) ltac:(intros; apply Ha; lia)). lia. }
  assert (Hh : ht i < 64).
  { apply (Z.pow_lt_mono_r_iff 2); [lia|lia|]. fold (low i). lia. }
  unfold complement. destruct comp; cbn [comp_elem].
  - rewrite node_comp by lia. rewrite shl_ok by (pose proof (ht_nonneg i); lia). cbn [bind]. fold (low i).
    rewrite (wrap_small 64 (node a i)), (wrap_small 64 (B * low i)), wrap_small by lia. split; [reflexivity|lia].
  - rewrite wrap_small by lia. split; [reflexivity|lia].
Qed.

Lemma comp_nonneg comp B a n : (forall k, 1 <= k <= n -> 0 <= a k <= B) -> forall k, 1 <= k <= n -> 0 <= comp_elem comp B a k.
Proof. intros H k Hk. specialize (H k Hk). destruct comp; cbn; lia. Qed.

(** The F classes. *)
Lemma find_f_ok sh n P I (G : good sh n P I) t a B comp v : n < 2 ^ 63 -> ft_bound t = B -> 0 <= B -> I t (node a) ->
  (forall k, 1 <= k <= n -> 0 <= a k <= B) -> (forall k, 1 <= k <= n -> B * low k < 2 ^ 64) ->
  forall (f : nat) k rest, Z.of_nat f < 64 -> descent (comp_elem comp B a) n v (2 ^ Z.of_nat f) k rest ->
  exists k' rest', find_f (S (S f)) comp t (2 ^ Z.of_nat f) k rest = Ok (k', rest') /\ found1 (comp_elem comp B a) n v k' rest'.
Proof.
  intros Hn EB HB HI Ha Hc. induction f as [|f IH]; intros k rest Hf HD.
  - destruct (descend _ _ _ _ _ _ (Zle_0_nat 0) (comp_nonneg comp B a n Ha) HD) as (_ & _ & H0 & H1). specialize (H0 eq_refl).
    change (2 ^ Z.of_nat 0) with 1 in *. cbn [find_f Z.eqb]. rewrite (g_size G _ _ HI). pose proof HD as (Hk & _).
    rewrite wrap_small by lia. change (Z.shiftr 1 1) with 0. cbn [Z.eqb]. destruct (Z.ltb_spec n (k + 1)).
    + replace (k + 1 <=? n) with false in H0 by lia. cbn [andb] in H0. eauto.
    + destruct (H1 ltac:(lia)) as (H2 & H3). rewrite (g_get G _ _ _ HI) by lia. cbn [bind].
      destruct (compared comp B a n (k + 1) HB ltac:(lia) ltac:(lia) ltac:(apply Hc; lia) Ha) as (EC & RC).
      replace (if comp then let* h := rho (k + 1) in complement true (ft_bound t) h (u64 (node a (k + 1))) else Ok (u64 (node a (k + 1))))
        with (@Ok Z (node (comp_elem comp B a) (k + 1))).
      2: { rewrite <- EC, EB. destruct comp; [rewrite rho_ok by lia|]; reflexivity. }
      cbn [bind]. replace (k + 1 <=? n) with true in H0 by lia. cbn [andb] in H0.
      destruct (node (comp_elem comp B a) (k + 1) <=? rest); eauto.
  - assert (Hp : 0 <= Z.of_nat (S f)) by lia.
    destruct (descend _ _ _ _ _ _ Hp (comp_nonneg comp B a n Ha) HD) as (D1 & D2 & _ & H1).
    set (g := Z.of_nat (S f)) in *. assert (E2 : 2 ^ g / 2 = 2 ^ Z.of_nat f).
    { replace g with (1 + Z.of_nat f) by lia. rewrite Z.pow_add_r by lia. change (2 ^ 1) with 2. rewrite (Z.mul_comm 2). apply Z.div_mul. lia. }
    assert (P1 : 0 < 2 ^ g) by (apply Z.pow_pos_nonneg; lia).
    assert (P2 : 2 ^ g < 2 ^ 64) by (apply Z.pow_lt_mono_r; lia).
    rewrite E2 in D1, D2. remember (S (S f)) as f2. cbn [find_f]. subst f2. destruct (Z.eqb_spec (2 ^ g) 0); [lia|]. rewrite (g_size G _ _ HI). pose proof HD as (Hk & _).
    rewrite Z.shiftr_div_pow2 by lia. change (2 ^ 1) with 2. rewrite E2.
    assert (P3 : 2 ^ g <= 2 ^ 63) by (apply Z.pow_le_mono_r; lia).
    rewrite wrap_small by lia. destruct (Z.ltb_spec n (k + 2 ^ g)).
    + apply IH; [lia|]. apply D1; lia.
    + destruct (H1 ltac:(lia)) as (H2 & H3). rewrite (g_get G _ _ _ HI) by lia. cbn [bind].
      destruct (compared comp B a n (k + 2 ^ g) HB ltac:(lia) ltac:(lia) ltac:(apply Hc; lia) Ha) as (EC & RC).
      replace (if comp then let* h := rho (k + 2 ^ g) in complement true (ft_bound t) h (u64 (node a (k + 2 ^ g))) else Ok (u64 (node a (k + 2 ^ g))))
        with (@Ok Z (node (comp_elem comp B a) (k + 2 ^ g))).
      2: { rewrite <- EC, EB. destruct comp; [rewrite rho_ok by lia|]; reflexivity. }
      cbn [bind]. specialize (D2 ltac:(lia) ltac:(lia)).
      destruct (node (comp_elem comp B a) (k + 2 ^ g) <=? rest); apply IH; auto; lia.
Qed.

Lemma find_F sh n P I (G : good sh n P I) t a B comp v : 0 < n < 2 ^ 63 -> is_l (ft_lay t) = false -> ft_bound t = B -> 0 <= B -> I t (node a) ->
  (forall k, 1 <= k <= n -> 0 <= a k <= B) -> (forall k, 1 <= k <= n -> B * low k < 2 ^ 64) -> 0 <= v ->
  exists k rest, ft_find comp t v = Ok (k, rest) /\ found1 (comp_elem comp B a) n v k rest.
Proof.
  intros Hn HL EB HB HI Ha Hc Hv. unfold ft_find. rewrite HL, (g_size G _ _ HI). unfold mask_lambda, clzll.
  destruct (Z.eqb_spec n 0); [lia|]. cbn [bind].
  assert (HG : 0 <= Z.log2 n < 63) by (split; [apply Z.log2_nonneg|apply Z.log2_lt_pow2; lia]).
  pose proof (Z.log2_spec n ltac:(lia)) as [L1 L2]. rewrite Z.pow_succ_r in L2 by lia.
  rewrite shr_ok by lia. cbn [bind].
  replace (2 ^ 63 / 2 ^ (63 - Z.log2 n)) with (2 ^ Z.log2 n).
  2: { rewrite <- Z.pow_sub_r by lia. f_equal. lia. }
  set (g := Z.log2 n) in *. clearbody g.
  destruct (find_f_ok sh n P I G t a B comp v ltac:(lia) EB HB HI Ha Hc (Z.to_nat g) 0 v ltac:(lia)) as (k & rest & E & F).
  { rewrite Z2Nat.id by lia. split; [lia|]. split; [exists 0; lia|]. rewrite S1_0. split; [lia|]. split; [lia|]. intros j Hj. lia. }
  rewrite Z2Nat.id in E by lia. exists k, rest. split; auto. clear - E HG.
  assert (M : forall f f', (f <= f')%nat -> forall m k v r, find_f f comp t m k v = Ok r -> find_f f' comp t m k v = Ok r).
  { clear. induction f as [|f IH]; intros f' Hf m k v r H; cbn [find_f] in H; [discriminate|]. destruct f' as [|f']; [lia|]. cbn [find_f].
    destruct (m =? 0); auto. destruct (ft_size t <? _); [apply IH; auto; lia|].
    destruct (node_get t _) as [x| |]; cbn [bind] in *; try discriminate.
    destruct (if comp then _ else _) as [y| |]; cbn [bind] in *; try discriminate. destruct (y <=? v); apply IH; auto; lia. }
  apply (M (S (S (Z.to_nat g)))); [lia|exact E].
Qed.

(** The L classes. *)
Record goodl (n : Z) (I : ftree -> (Z -> Z) -> Prop) : Prop := {
  gl_levels : forall t V, I t V -> zlen (ft_level t) = if n =? 0 then 1 else Z.log2 n + 2;
  gl_present : forall t V h i, I t V -> 0 < n -> 0 <= h <= Z.log2 n -> 0 <= i -> (2 * i) * 2 ^ h <= n -> l_present t h i = Ok ((2 * i + 1) * 2 ^ h <=? n);
  gl_get : forall t V h i, I t V -> 0 <= h -> 0 <= i -> (2 * i + 1) * 2 ^ h <= n -> lget t h i = Ok (u64 (V ((2 * i + 1) * 2 ^ h))) }.
Arguments gl_levels {n I}. Arguments gl_present {n I}. Arguments gl_get {n I}.

Definition find_l_step (comp : bool) (t : ftree) : Z * Z * Z -> Z -> res (Z * Z * Z) :=
  fun '(node, i, val) h =>
      let* here := l_present t h i in
      let i2 := u64 (Z.shiftl i 1) in
      if here then
        let* v := lget t h i in
        let* value := complement comp (ft_bound t) h v in
        if value <=? val then let* d := shl 1 h in Ok (u64 (node + d), u64 (i2 + 1), val - value) else Ok (node, i2, val)
      else Ok (node, i2, val).

Lemma find_l_ok n I (GL : goodl n I) t a B comp v : 0 < n < 2 ^ 63 -> ft_bound t = B -> 0 <= B -> I t (node a) ->
  (forall k, 1 <= k <= n -> 0 <= a k <= B) -> (forall k, 1 <= k <= n -> B * low k < 2 ^ 64) ->
  forall (f : nat) k i rest, Z.of_nat f <= Z.log2 n -> descent (comp_elem comp B a) n v (2 ^ Z.of_nat f) k rest -> k = 2 * i * 2 ^ Z.of_nat f ->
  exists k' i' rest', foldM (find_l_step comp t) (rev (zrange 0 (S f))) (k, i, rest) = Ok (k', i', rest') /\ found1 (comp_elem comp B a) n v k' rest'.
Proof.
  intros Hn EB HB HI Ha Hc.
  assert (Z0 : forall m lo, zrange lo (S m) = zrange lo m ++ [lo + Z.of_nat m]).
  { induction m as [|m IH]; intros lo; [cbn; f_equal; lia|]. change (zrange lo (S (S m))) with (lo :: zrange (lo + 1) (S m)).
    rewrite IH. cbn [app zrange]. do 3 f_equal. lia. }
  assert (HG : 0 <= Z.log2 n < 63) by (split; [apply Z.log2_nonneg|apply Z.log2_lt_pow2; lia]).
  pose proof (Z.log2_spec n ltac:(lia)) as [L1 L2].
  assert (ST : forall h k i rest, 0 <= h <= Z.log2 n -> descent (comp_elem comp B a) n v (2 ^ h) k rest -> k = 2 * i * 2 ^ h ->
     find_l_step comp t (k, i, rest) h = Ok (if (k + 2 ^ h <=? n) && (node (comp_elem comp B a) (k + 2 ^ h) <=? rest)
        then (k + 2 ^ h, 2 * i + 1, rest - node (comp_elem comp B a) (k + 2 ^ h)) else (k, 2 * i, rest)) /\ 0 <= i).
  { intros h k i rest Hh HD Ek.
    destruct (descend _ _ _ _ _ _ (proj1 Hh) (comp_nonneg comp B a n Ha) HD) as (_ & _ & _ & H1). pose proof HD as (Hk & _).
    assert (P1 : 0 < 2 ^ h) by (apply Z.pow_pos_nonneg; lia). assert (Hi : 0 <= i) by nia. split; auto. assert (Hi2 : 2 * i <= n) by nia.
    assert (P3 : 2 ^ h <= 2 ^ 62) by (apply Z.pow_le_mono_r; lia).
    unfold find_l_step. rewrite (gl_present GL t _ h i HI) by (auto; lia). cbn [bind]. rewrite Z.shiftl_mul_pow2 by lia. change (2 ^ 1) with 2.
    rewrite (wrap_small 64 (i * 2)) by lia. replace ((2 * i + 1) * 2 ^ h) with (k + 2 ^ h) by (rewrite Ek; ring).
    destruct (Z.leb_spec (k + 2 ^ h) n); cbn [andb]; [|do 2 f_equal; f_equal; lia].
    destruct (H1 ltac:(lia)) as (H2 & H3). rewrite (gl_get GL t _ h i HI) by (auto; lia). cbn [bind].
    replace ((2 * i + 1) * 2 ^ h) with (k + 2 ^ h) by (rewrite Ek; ring).
    destruct (compared comp B a n (k + 2 ^ h) HB ltac:(lia) ltac:(lia) ltac:(apply Hc; lia) Ha) as (EC & RC).
    rewrite EB, <- H3 at 1. rewrite EC. cbn [bind]. destruct (node (comp_elem comp B a) (k + 2 ^ h) <=? rest); [|do 2 f_equal; f_equal; lia].
    rewrite shl_ok by lia. cbn [bind]. rewrite Z.mul_1_l, !wrap_small by (rewrite ?(wrap_small 64 (2 ^ h)) by lia; lia). do 3 f_equal. lia. }
  induction f as [|f IH]; intros k i rest Hf HD Ek.
  - cbn [zrange rev app foldM]. destruct (ST 0 k i rest ltac:(lia) HD Ek) as [-> Hi]. cbn [bind].
    destruct (descend _ _ _ _ _ _ (Zle_0_nat 0) (comp_nonneg comp B a n Ha) HD) as (_ & _ & H0 & _). specialize (H0 eq_refl). change (2 ^ Z.of_nat 0) with (2 ^ 0) in H0.
    destruct ((k + 2 ^ 0 <=? n) && (node (comp_elem comp B a) (k + 2 ^ 0) <=? rest)); eauto.
  - rewrite Z0, rev_app_distr. cbn [rev app foldM]. rewrite Z.add_0_l.
    destruct (ST (Z.of_nat (S f)) k i rest ltac:(lia) HD Ek) as [-> Hi]. cbn [bind].
    assert (Hp : 0 <= Z.of_nat (S f)) by lia.
    destruct (descend _ _ _ _ _ _ Hp (comp_nonneg comp B a n Ha) HD) as (D1 & D2 & _ & _).
    set (g := Z.of_nat (S f)) in *. assert (E2 : 2 ^ g = 2 * 2 ^ Z.of_nat f).
    { replace g with (1 + Z.of_nat f) by lia. rewrite Z.pow_add_r by lia. reflexivity. }
    assert (E3 : 2 ^ g / 2 = 2 ^ Z.of_nat f) by (rewrite E2, (Z.mul_comm 2); apply Z.div_mul; lia).
    rewrite E3 in D1, D2. destruct (Z.leb_spec (k + 2 ^ g) n); cbn [andb].
    + specialize (D2 ltac:(lia) ltac:(lia)). destruct (node (comp_elem comp B a) (k + 2 ^ g) <=? rest); apply IH; auto; try lia; rewrite Ek, E2; ring.
    + apply IH; [lia|apply D1; lia|]. rewrite Ek, E2. ring.
Qed.

Lemma find_L sh n P I (G : good sh n P I) (GL : goodl n I) t a B comp v : 0 <= n < 2 ^ 63 -> is_l (ft_lay t) = true -> ft_bound t = B -> 0 <= B -> I t (node a) ->
  (forall k, 1 <= k <= n -> 0 <= a k <= B) -> (forall k, 1 <= k <= n -> B * low k < 2 ^ 64) -> 0 <= v ->
  exists k rest, ft_find comp t v = Ok (k, rest) /\ found1 (comp_elem comp B a) n v k rest.
Proof.
  intros Hn HL EB HB HI Ha Hc Hv. unfold ft_find. rewrite HL. unfold find_l. fold (find_l_step comp t). rewrite (gl_levels GL t _ HI), (g_size G _ _ HI).
  destruct (Z.eqb_spec n 0) as [->|N].
  - cbn [Z.sub Z.to_nat Z.opp Z.add Z.pos_sub zrange rev foldM bind]. exists 0, v. split; [reflexivity|]. split; [lia|]. rewrite S1_0. split; [lia|]. split; [lia|]. intros j Hj. lia.
  - assert (HG : 0 <= Z.log2 n < 63) by (split; [apply Z.log2_nonneg|apply Z.log2_lt_pow2; lia]).
    pose proof (Z.log2_spec n ltac:(lia)) as [L1 L2]. rewrite Z.pow_succ_r in L2 by lia.
    destruct (find_l_ok n I GL t a B comp v ltac:(lia) EB HB HI Ha Hc (Z.to_nat (Z.log2 n)) 0 0 v ltac:(lia)) as (k & i & rest & E & F).
    { rewrite Z2Nat.id by lia. split; [lia|]. split; [exists 0; lia|]. rewrite S1_0. split; [lia|]. split; [lia|]. intros j Hj. lia. }
    { lia. }
    replace (Z.to_nat (Z.log2 n + 2 - 1)) with (S (Z.to_nat (Z.log2 n))) by lia. rewrite E. cbn [bind].
    exists k, rest. split; auto. destruct F as (Hk & _). rewrite Z.min_l by lia. reflexivity.
Qed.
