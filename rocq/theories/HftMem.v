(** Bit fields of a byte buffer: the buffer as one number, fields as parts of
    that number, and what a read-modify-write of a word does to them. *)
From Verif Require Import Base BaseFacts Mem MemFacts SpecHft Hft.
Ltac Zify.zify_post_hook ::= Z.div_mod_to_equations.

(** ** Fields of a number *)
Definition field (M s L : Z) : Z := (M / 2 ^ s) mod 2 ^ L.

Lemma pow2_pos x : 0 < 2 ^ x \/ x < 0.
Proof. destruct (Z_lt_le_dec x 0); [auto|left; apply Z.pow_pos_nonneg; lia]. Qed.

Lemma field_split M s L : 0 <= s -> 0 <= L -> exists hi lo, M = hi * 2 ^ (s + L) + field M s L * 2 ^ s + lo /\ 0 <= lo < 2 ^ s /\ 0 <= field M s L < 2 ^ L.
Proof.
  intros Hs HL. assert (P : 0 < 2 ^ s) by (apply Z.pow_pos_nonneg; lia). assert (Q : 0 < 2 ^ L) by (apply Z.pow_pos_nonneg; lia).
  exists (M / 2 ^ s / 2 ^ L), (M mod 2 ^ s). unfold field. rewrite Z.pow_add_r by lia.
  pose proof (Z.mod_pos_bound M (2 ^ s) P). pose proof (Z.mod_pos_bound (M / 2 ^ s) (2 ^ L) Q). split; [|auto].
  rewrite (Z.div_mod M (2 ^ s)) at 1 by lia. rewrite (Z.div_mod (M / 2 ^ s) (2 ^ L)) at 1 by lia. ring.
Qed.

Lemma field_eq hi lo f s L : 0 <= s -> 0 <= L -> 0 <= lo < 2 ^ s -> 0 <= f < 2 ^ L -> field (hi * 2 ^ (s + L) + f * 2 ^ s + lo) s L = f.
Proof.
  intros Hs HL Hlo Hf. unfold field. rewrite Z.pow_add_r by lia.
  replace (hi * (2 ^ s * 2 ^ L) + f * 2 ^ s + lo) with ((hi * 2 ^ L + f) * 2 ^ s + lo) by ring.
  rewrite Z.div_add_l by lia. rewrite (Z.div_small lo) by lia. rewrite Z.add_0_r, Z.add_comm, Z_mod_plus_full. apply Z.mod_small. lia.
Qed.

Lemma field_below M s2 L2 x : 0 <= s2 -> 0 <= L2 -> field (M + x * 2 ^ (s2 + L2)) s2 L2 = field M s2 L2.
Proof.
  intros. unfold field. rewrite Z.pow_add_r by lia. replace (M + x * (2 ^ s2 * 2 ^ L2)) with (M + x * 2 ^ L2 * 2 ^ s2) by ring.
  rewrite Z.div_add by (apply Z.pow_nonzero; lia). apply Z_mod_plus_full.
Qed.

(** Replacing a field. *)
Lemma field_set M s L nw : 0 <= s -> 0 <= L -> 0 <= nw < 2 ^ L ->
  let M' := M + (nw - field M s L) * 2 ^ s in
  field M' s L = nw /\ forall s2 L2, 0 <= s2 -> 0 <= L2 -> s2 + L2 <= s \/ s + L <= s2 -> field M' s2 L2 = field M s2 L2.
Proof.
  intros Hs HL Hn M'. destruct (field_split M s L Hs HL) as (hi & lo & E & Hlo & Hf). set (f := field M s L) in *. clearbody f.
  assert (E' : M' = hi * 2 ^ (s + L) + nw * 2 ^ s + lo) by (unfold M'; rewrite E; ring). clearbody M'. split.
  - rewrite E'. apply field_eq; auto.
  - intros s2 L2 H2 H3 [D|D].
    + replace M' with (M + (nw - f) * 2 ^ (s - (s2 + L2)) * 2 ^ (s2 + L2)).
      * apply field_below; auto.
      * rewrite E', E. replace (2 ^ s) with (2 ^ (s - (s2 + L2)) * 2 ^ (s2 + L2)) by (rewrite <- Z.pow_add_r by lia; f_equal; lia). ring.
    + unfold field. f_equal.
      assert (K : forall X f0, X = hi * 2 ^ (s + L) + f0 * 2 ^ s + lo -> 0 <= f0 < 2 ^ L -> X / 2 ^ s2 = hi / 2 ^ (s2 - (s + L))).
      { intros X f0 EX H0. replace (2 ^ s2) with (2 ^ (s + L) * 2 ^ (s2 - (s + L))) by (rewrite <- Z.pow_add_r by lia; f_equal; lia).
        rewrite <- Z.div_div by (try apply Z.pow_nonzero; try apply Z.pow_pos_nonneg; lia). f_equal.
        rewrite EX, <- Z.add_assoc, Z.div_add_l by (apply Z.pow_nonzero; lia). rewrite Z.div_small; [lia|].
        rewrite Z.pow_add_r by lia. nia. }
      rewrite (K M' nw), (K M f); auto.
Qed.

Lemma field_0 s L : field 0 s L = 0.
Proof. unfold field. rewrite Zdiv_0_l. apply Zmod_0_l. Qed.

Lemma field_sub M s k r L : 0 <= s -> 0 <= r -> 0 <= L -> r + L <= k -> field (field M s k) r L = field M (s + r) L.
Proof.
  intros Hs Hr HL H. unfold field. rewrite (Z.pow_add_r 2 s r) by lia. rewrite <- Z.div_div by (try apply Z.pow_nonzero; try apply Z.pow_pos_nonneg; lia).
  set (X := M / 2 ^ s). replace k with (r + (k - r)) by lia. rewrite (Z.pow_add_r 2 r) by lia.
  rewrite (Z.rem_mul_r X (2 ^ r) (2 ^ (k - r))) by (try apply Z.pow_nonzero; try apply Z.pow_pos_nonneg; lia).
  rewrite Z.add_comm, Z.mul_comm, Z.div_add_l by (apply Z.pow_nonzero; lia).
  rewrite (Z.div_small (X mod 2 ^ r)) by (apply Z.mod_pos_bound, Z.pow_pos_nonneg; lia). rewrite Z.add_0_r.
  replace (k - r) with (L + (k - r - L)) by lia. rewrite Z.pow_add_r by lia.
  rewrite (Z.rem_mul_r (X / 2 ^ r) (2 ^ L)) by (try apply Z.pow_nonzero; try apply Z.pow_pos_nonneg; lia).
  rewrite Z.add_comm, Z.mul_comm, Z.add_comm, Z_mod_plus_full. apply Z.mod_mod. apply Z.pow_nonzero; lia.
Qed.

(** ** The buffer as a number *)
Definition val (m : list Z) : Z := rd (length m) m 0.

Lemma rd_split a b : forall m p, rd (a + b) m p = rd a m p + 2 ^ (8 * Z.of_nat a) * rd b m (p + Z.of_nat a).
Proof.
  induction a as [|a IH]; intros m p.
  - cbn [Nat.add rd]. change (Z.of_nat 0) with 0. rewrite Z.add_0_r. cbn [Z.mul]. change (2 ^ 0) with 1. lia.
  - cbn [Nat.add rd]. rewrite IH. replace (p + 1 + Z.of_nat a) with (p + Z.of_nat (S a)) by lia.
    replace (8 * Z.of_nat (S a)) with (8 + 8 * Z.of_nat a) by lia. rewrite Z.pow_add_r by lia. change (2 ^ 8) with 256. ring.
Qed.

Lemma val_parts m p w : 0 <= p -> p + Z.of_nat w <= zlen m -> exists r,
  p = Z.of_nat (Z.to_nat p) /\ (length m = Z.to_nat p + (w + r))%nat /\
  val m = rd (Z.to_nat p) m 0 + 2 ^ (8 * p) * (rd w m p + 2 ^ (8 * Z.of_nat w) * rd r m (p + Z.of_nat w)).
Proof.
  intros Hp H. exists (length m - Z.to_nat p - w)%nat. unfold zlen in H. assert (E : p = Z.of_nat (Z.to_nat p)) by lia.
  split; [exact E|]. assert (E2 : (length m = Z.to_nat p + (w + (length m - Z.to_nat p - w)))%nat) by lia. split; [exact E2|].
  unfold val. rewrite E2 at 1. rewrite rd_split, <- E, rd_split, Z.add_0_l. reflexivity.
Qed.

Lemma rd_field m p w : bytes_ok m -> 0 <= p -> p + Z.of_nat w <= zlen m -> rd w m p = field (val m) (8 * p) (8 * Z.of_nat w).
Proof.
  intros Hm Hp H. destruct (val_parts m p w Hp H) as (r & E1 & E2 & ->). unfold zlen in H.
  pose proof (rd_bound (Z.to_nat p) m 0 Hm ltac:(lia) ltac:(unfold zlen; lia)) as B1. rewrite <- E1 in B1.
  pose proof (rd_bound w m p Hm Hp H) as B2.
  symmetry. replace (rd (Z.to_nat p) m 0 + 2 ^ (8 * p) * (rd w m p + 2 ^ (8 * Z.of_nat w) * rd r m (p + Z.of_nat w)))
    with (rd r m (p + Z.of_nat w) * 2 ^ (8 * p + 8 * Z.of_nat w) + rd w m p * 2 ^ (8 * p) + rd (Z.to_nat p) m 0).
  - apply field_eq; lia.
  - rewrite Z.pow_add_r by lia. ring.
Qed.

Lemma val_wr m p w v : 0 <= p -> p + Z.of_nat w <= zlen m -> 0 <= v < 2 ^ (8 * Z.of_nat w) ->
  val (wr w m p v) = val m + (v - rd w m p) * 2 ^ (8 * p).
Proof.
  intros Hp H Hv. destruct (val_parts m p w Hp H) as (r & E1 & E2 & E3).
  destruct (val_parts (wr w m p v) p w Hp ltac:(rewrite zlen_wr; lia)) as (r' & _ & E2' & E3').
  pose proof (zlen_wr w m p v) as EL. unfold zlen in EL.
  assert (r' = r) by lia. subst r'. rewrite E3, E3'. unfold zlen in H.
  rewrite (rd_wr_other w (Z.to_nat p)) by (unfold zlen; lia). rewrite (rd_wr_other w r) by (unfold zlen; lia).
  rewrite rd_wr_same_w, wrap_small by (unfold zlen; lia). ring.
Qed.

Lemma part_range hi S T x y : 0 <= x < S -> 0 <= y < S -> 0 <= hi * S + x < S * T -> 0 <= hi * S + y < S * T.
Proof. intros Hx Hy H. assert (-1 < hi) by nia. assert (hi < T) by nia. nia. Qed.

Lemma field_range W r L k nw : 0 <= r -> 0 <= L -> r + L <= k -> 0 <= W < 2 ^ k -> 0 <= nw < 2 ^ L ->
  0 <= W + (nw - field W r L) * 2 ^ r < 2 ^ k.
Proof.
  intros Hr HL H HW Hn. destruct (field_split W r L Hr HL) as (hi & lo & ES & Hlo & Hf). set (f := field W r L) in *. clearbody f.
  assert (EW : W + (nw - f) * 2 ^ r = hi * 2 ^ (r + L) + (nw * 2 ^ r + lo)) by (rewrite ES; ring). rewrite EW.
  replace k with (r + L + (k - r - L)) in * by lia. rewrite (Z.pow_add_r 2 (r + L)) in * by lia.
  apply (part_range _ _ _ (f * 2 ^ r + lo)).
  - rewrite Z.pow_add_r by lia. nia.
  - rewrite Z.pow_add_r by lia. nia.
  - rewrite Z.add_assoc, <- ES. exact HW.
Qed.

(** ** Read-modify-write of a word holding a field *)
Definition fit (M' M s L nw : Z) : Prop := M' = M + (nw - field M s L) * 2 ^ s.

Lemma word_set m p w r L nw W' : bytes_ok m -> 0 <= p -> p + Z.of_nat w <= zlen m -> 0 <= r -> 0 <= L -> r + L <= 8 * Z.of_nat w -> 0 <= nw < 2 ^ L ->
  W' = rd w m p + (nw - field (rd w m p) r L) * 2 ^ r ->
  0 <= W' < 2 ^ (8 * Z.of_nat w) /\
  store w m p W' = Ok (wr w m p W') /\ bytes_ok (wr w m p W') /\ zlen (wr w m p W') = zlen m /\
  fit (val (wr w m p W')) (val m) (8 * p + r) L nw.
Proof.
  intros Hm Hp Hw Hr HL Hrl Hn E. pose proof (rd_bound w m p Hm Hp Hw) as B.
  assert (R : 0 <= W' < 2 ^ (8 * Z.of_nat w)).
  { rewrite E. apply field_range; auto. }
  split; [exact R|]. split; [apply store_ok; lia|]. split; [apply bytes_ok_wr; auto|]. split; [apply zlen_wr|].
  unfold fit. rewrite val_wr by lia. rewrite E, (rd_field m p w) by auto. rewrite field_sub by lia. rewrite (Z.pow_add_r 2 (8 * p) r) by lia. ring.
Qed.

(** Reading a field from a word. *)
Lemma word_get m p w r L : bytes_ok m -> 0 <= p -> p + Z.of_nat w <= zlen m -> 0 <= r -> 0 <= L -> r + L <= 8 * Z.of_nat w ->
  load w m p = Ok (rd w m p) /\ Z.land (Z.shiftr (rd w m p) r) (2 ^ L - 1) = field (val m) (8 * p + r) L /\ field (rd w m p) r L = field (val m) (8 * p + r) L.
Proof.
  intros Hm Hp Hw Hr HL Hrl. split; [apply load_ok; lia|].
  assert (E : field (rd w m p) r L = field (val m) (8 * p + r) L) by (rewrite (rd_field m p w) by auto; apply field_sub; lia).
  split; [|exact E]. rewrite <- E. unfold field. rewrite Z.shiftr_div_pow2 by lia. replace (2 ^ L - 1) with (Z.ones L) by (rewrite Z.ones_equiv; lia).
  apply Z.land_ones. lia.
Qed.

(** Adding to a field within a word, with the increment as an unsigned number. *)
Lemma word_add W r L nw d : 0 <= r -> 0 <= L -> r + L <= 64 -> 0 <= W < 2 ^ 64 -> 0 <= nw < 2 ^ L -> nw = field W r L + d ->
  u64 (W + u64 (u64 d * 2 ^ r)) = W + (nw - field W r L) * 2 ^ r.
Proof.
  intros Hr HL H HW Hn E. assert (R : 0 <= W + (nw - field W r L) * 2 ^ r < 2 ^ 64).
  { apply field_range; auto. }
  rewrite wrap_add_r. rewrite <- (wrap_small 64 (W + (nw - field W r L) * 2 ^ r)) by exact R.
  replace (nw - field W r L) with d by lia. unfold wrap. rewrite Z.add_mod, Z.mul_mod_idemp_l, <- Z.add_mod by lia. reflexivity.
Qed.

Definition addable (L f d : Z) : Prop := L = 64 \/ 0 <= f + d < 2 ^ L.

Lemma word_add2 W r L d : 0 <= r -> 0 <= L -> r + L <= 64 -> 0 <= W < 2 ^ 64 -> addable L (field W r L) d ->
  u64 (W + u64 (u64 d * 2 ^ r)) = W + ((field W r L + d) mod 2 ^ L - field W r L) * 2 ^ r.
Proof.
  intros Hr HL H HW [->|Hd].
  - assert (r = 0) by lia. subst r. change (2 ^ 0) with 1. rewrite !Z.mul_1_r.
    assert (E : field W 0 64 = W) by (unfold field; change (2 ^ 0) with 1; rewrite Z.div_1_r; apply Z.mod_small; auto).
    rewrite E, wrap_wrap, wrap_add_r by lia. unfold wrap. lia.
  - rewrite (Z.mod_small (field W r L + d)) by auto. apply (word_add W r L); auto.
Qed.

(** [m'] is [m] with a field replaced. *)
Definition updated (m m' : list Z) (s L nw : Z) : Prop := bytes_ok m' /\ zlen m' = zlen m /\ fit (val m') (val m) s L nw.

Lemma updated_bits m m' s L nw : 0 <= s -> 0 <= L -> 0 <= nw < 2 ^ L -> updated m m' s L nw ->
  field (val m') s L = nw /\ forall s2 L2, 0 <= s2 -> 0 <= L2 -> s2 + L2 <= s \/ s + L <= s2 -> field (val m') s2 L2 = field (val m) s2 L2.
Proof. intros Hs HL Hn (_ & _ & ->). apply field_set; auto. Qed.

Lemma mod_range x L : 0 <= L -> 0 <= x mod 2 ^ L < 2 ^ L.
Proof. intros. apply Z.mod_pos_bound, Z.pow_pos_nonneg; lia. Qed.

(** ** The accesses of the trees *)

Lemma load_field m p w : bytes_ok m -> 0 <= p -> p + Z.of_nat w <= zlen m -> load w m p = Ok (field (val m) (8 * p) (8 * Z.of_nat w)).
Proof. intros. rewrite load_ok, rd_field by auto. reflexivity. Qed.

Lemma store_field m p w v : bytes_ok m -> 0 <= p -> p + Z.of_nat w <= zlen m -> 0 <= v < 2 ^ (8 * Z.of_nat w) ->
  exists m', store w m p v = Ok m' /\ updated m m' (8 * p) (8 * Z.of_nat w) v.
Proof.
  intros Hm Hp Hw Hv. exists (wr w m p v). split; [apply store_ok; lia|]. split; [apply bytes_ok_wr; auto|]. split; [apply zlen_wr|].
  unfold fit. rewrite val_wr by lia. rewrite (rd_field m p w) by auto. reflexivity.
Qed.

Lemma bump_field m p w d : bytes_ok m -> 0 <= p -> p + Z.of_nat w <= zlen m ->
  exists m', store w m p (wrap (8 * Z.of_nat w) (field (val m) (8 * p) (8 * Z.of_nat w) + d)) = Ok m'
    /\ updated m m' (8 * p) (8 * Z.of_nat w) ((field (val m) (8 * p) (8 * Z.of_nat w) + d) mod 2 ^ (8 * Z.of_nat w)).
Proof. intros Hm Hp Hw. apply store_field; auto. apply mod_range. lia. Qed.

Lemma byte_mask_ok len : 0 <= len <= 8 -> byte_mask len = Ok (2 ^ (8 * len) - 1).
Proof. intros. unfold byte_mask. replace ((0 <=? len) && (len <=? 8)) with true by lia. reflexivity. Qed.

Lemma byteread_ok m p len : bytes_ok m -> 0 <= p -> p + 8 <= zlen m -> 0 <= len <= 8 -> byteread m p len = Ok (field (val m) (8 * p) (8 * len)).
Proof.
  intros Hm Hp Hw Hl. unfold byteread. destruct (word_get m p 8 0 (8 * len) Hm Hp ltac:(lia) ltac:(lia) ltac:(lia) ltac:(lia)) as (E1 & E2 & _).
  rewrite E1. cbn [bind]. rewrite byte_mask_ok by lia. cbn [bind]. rewrite Z.shiftr_0_r, Z.add_0_r in E2. rewrite E2. reflexivity.
Qed.

Lemma masked_set W L v : 0 <= L <= 64 -> 0 <= W < 2 ^ 64 -> 0 <= v ->
  Z.lor (Z.land W (2 ^ 64 - 1 - (2 ^ L - 1))) (Z.land v (2 ^ L - 1)) = W + (v mod 2 ^ L - field W 0 L) * 2 ^ 0.
Proof.
  intros HL HW Hv. unfold field. change (2 ^ 0) with 1. rewrite Z.div_1_r, Z.mul_1_r.
  assert (P : 0 < 2 ^ L) by (apply Z.pow_pos_nonneg; lia).
  assert (E1 : Z.land v (2 ^ L - 1) = v mod 2 ^ L) by (replace (2 ^ L - 1) with (Z.ones L) by (rewrite Z.ones_equiv; lia); apply Z.land_ones; lia).
  assert (E2 : Z.land W (2 ^ 64 - 1 - (2 ^ L - 1)) = W / 2 ^ L * 2 ^ L).
  { rewrite <- Z.shiftr_div_pow2, <- Z.shiftl_mul_pow2 by lia.
    replace (2 ^ 64 - 1 - (2 ^ L - 1)) with (Z.shiftl (Z.ones (64 - L)) L).
    - apply Z.bits_inj'. intros k Hk. rewrite Z.land_spec, !Z.shiftl_spec by lia. destruct (Z_lt_le_dec k L).
      + rewrite !(Z.testbit_neg_r _ (k - L)) by lia. apply andb_false_r.
      + rewrite Z.shiftr_spec by lia. replace (k - L + L) with k by lia. destruct (Z_lt_le_dec k 64).
        * rewrite Z.ones_spec_low by lia. apply andb_true_r.
        * rewrite Z.ones_spec_high by lia. rewrite andb_false_r. symmetry. destruct (Z.eq_dec W 0) as [->|]; [apply Z.bits_0|].
          apply Z.bits_above_log2; [lia|]. assert (Z.log2 W < 64) by (apply Z.log2_lt_pow2; lia). lia.
    - rewrite Z.shiftl_mul_pow2, Z.ones_equiv by lia. replace (2 ^ 64) with (2 ^ (64 - L) * 2 ^ L) by (rewrite <- Z.pow_add_r by lia; f_equal; lia). lia. }
  rewrite E1, E2. pose proof (mod_range v L ltac:(lia)) as R.
  assert (N : Z.land (W / 2 ^ L * 2 ^ L) (v mod 2 ^ L) = 0).
  { apply Z.bits_inj'. intros k Hk. rewrite Z.land_spec, Z.bits_0. destruct (Z_lt_le_dec k L).
    - rewrite Z.mul_pow2_bits_low by lia. reflexivity.
    - destruct (Z.eq_dec (v mod 2 ^ L) 0) as [->|]; [rewrite Z.bits_0; apply andb_false_r|].
      assert (Z.log2 (v mod 2 ^ L) < L) by (apply Z.log2_lt_pow2; lia). rewrite (Z.bits_above_log2 (v mod 2 ^ L)) by lia. apply andb_false_r. }
  assert (EL : Z.lor (W / 2 ^ L * 2 ^ L) (v mod 2 ^ L) = W / 2 ^ L * 2 ^ L + v mod 2 ^ L).
  { rewrite <- Z.lxor_lor by exact N. symmetry. apply Z.add_nocarry_lxor. exact N. }
  rewrite EL. pose proof (Z.div_mod W (2 ^ L) ltac:(lia)). lia.
Qed.

Lemma bytewrite_ok m p len v : bytes_ok m -> 0 <= p -> p + 8 <= zlen m -> 0 <= len <= 8 -> 0 <= v < 2 ^ (8 * len) ->
  exists m', bytewrite m p len v = Ok m' /\ updated m m' (8 * p) (8 * len) v.
Proof.
  intros Hm Hp Hw Hl Hv. unfold bytewrite. rewrite load_ok by lia. cbn [bind]. rewrite byte_mask_ok by lia. cbn [bind].
  pose proof (rd_bound 8 m p Hm Hp ltac:(lia)) as RB. rewrite masked_set by lia. rewrite (Z.mod_small v) by auto.
  destruct (word_set m p 8 0 (8 * len) v _ Hm Hp ltac:(lia) ltac:(lia) ltac:(lia) ltac:(lia) Hv eq_refl) as (_ & E1 & E2 & E3 & E4).
  rewrite Z.add_0_r in E4. rewrite E1. eexists. split; [reflexivity|]. split; [exact E2|]. split; [exact E3|exact E4].
Qed.

(** Adding to a field of a 64-bit word. *)
Lemma add64 m p r L d : bytes_ok m -> 0 <= p -> p + 8 <= zlen m -> 0 <= r -> 0 <= L -> r + L <= 64 -> addable L (field (val m) (8 * p + r) L) d ->
  exists m', store 8 m p (u64 (rd 8 m p + u64 (u64 d * 2 ^ r))) = Ok m' /\ updated m m' (8 * p + r) L ((field (val m) (8 * p + r) L + d) mod 2 ^ L).
Proof.
  intros Hm Hp Hw Hr HL Hrl Ha. destruct (word_get m p 8 r L Hm Hp ltac:(lia) Hr HL ltac:(lia)) as (_ & _ & EF).
  pose proof (rd_bound 8 m p Hm Hp ltac:(lia)) as RB. rewrite <- EF in Ha |- *. rewrite (word_add2 (rd 8 m p) r L d Hr HL Hrl RB Ha).
  destruct (word_set m p 8 r L ((field (rd 8 m p) r L + d) mod 2 ^ L) _ Hm Hp ltac:(lia) Hr HL ltac:(lia) (mod_range _ L HL) eq_refl) as (_ & E1 & E2 & E3 & E4).
  rewrite E1. eexists. split; [reflexivity|]. split; [exact E2|]. split; [exact E3|exact E4].
Qed.

Lemma bytewrite_inc_ok m p len d : bytes_ok m -> 0 <= p -> p + 8 <= zlen m -> 0 <= len <= 8 -> addable (8 * len) (field (val m) (8 * p) (8 * len)) d ->
  exists m', bytewrite_inc m p (u64 d) = Ok m' /\ updated m m' (8 * p) (8 * len) ((field (val m) (8 * p) (8 * len) + d) mod 2 ^ (8 * len)).
Proof.
  intros Hm Hp Hw Hl Ha. unfold bytewrite_inc. rewrite load_ok by lia. cbn [bind].
  destruct (add64 m p 0 (8 * len) d Hm Hp Hw ltac:(lia) ltac:(lia) ltac:(lia)) as (m' & E & U); [rewrite Z.add_0_r; exact Ha|].
  rewrite Z.add_0_r in U. exists m'. split; [|exact U]. rewrite <- E. f_equal. change (2 ^ 0) with 1. rewrite Z.mul_1_r, wrap_wrap by lia. reflexivity.
Qed.

Lemma shl_mul x s : 0 <= s < 64 -> shl x s = Ok (u64 (x * 2 ^ s)).
Proof. intros H. unfold shl. replace ((0 <=? s) && (s <? 64)) with true by lia. rewrite Z.shiftl_mul_pow2 by lia. reflexivity. Qed.

Lemma shr_in sh x s : 0 <= s < 64 -> shr sh x s = Ok (Z.shiftr x s).
Proof. intros H. unfold shr. replace ((0 <=? s) && (s <? 64)) with true by lia. reflexivity. Qed.

Lemma ones64_shr L : 0 <= L <= 64 -> Z.shiftr (2 ^ 64 - 1) (64 - L) = 2 ^ L - 1.
Proof.
  intros H. rewrite Z.shiftr_div_pow2 by lia. replace (2 ^ 64 - 1) with ((2 ^ L - 1) * 2 ^ (64 - L) + (2 ^ (64 - L) - 1)).
  - assert (0 < 2 ^ (64 - L)) by (apply Z.pow_pos_nonneg; lia). rewrite Z.div_add_l by lia. rewrite Z.div_small by lia. lia.
  - replace (2 ^ 64) with (2 ^ L * 2 ^ (64 - L)) by (rewrite <- Z.pow_add_r by lia; f_equal; lia). ring.
Qed.

Lemma bitread_ok m p r L : bytes_ok m -> 0 <= p -> p + 8 <= zlen m -> 0 <= r < 64 -> 1 <= L <= 64 -> r + L <= 64 ->
  bitread m p r L = Ok (field (val m) (8 * p + r) L).
Proof.
  intros Hm Hp Hw Hr HL Hrl. destruct (word_get m p 8 r L Hm Hp ltac:(lia) ltac:(lia) ltac:(lia) ltac:(lia)) as (E1 & E2 & _).
  unfold bitread. rewrite E1. cbn [bind]. replace (r + L <=? 64) with true by lia. rewrite !shr_in by lia. cbn [bind].
  rewrite ones64_shr by lia. rewrite E2. reflexivity.
Qed.

Lemma bitwrite_inc_ok m p r L d : bytes_ok m -> 0 <= p -> p + 8 <= zlen m -> 0 <= r < 64 -> 0 <= L -> r + L <= 64 -> addable L (field (val m) (8 * p + r) L) d ->
  exists m', bitwrite_inc true m p r L (u64 d) = Ok m' /\ updated m m' (8 * p + r) L ((field (val m) (8 * p + r) L + d) mod 2 ^ L).
Proof.
  intros Hm Hp Hw Hr HL Hrl Ha. unfold bitwrite_inc. rewrite load_ok by lia. cbn [bind]. rewrite (shr_in false (rd 8 m p)) by lia. cbn [bind].
  assert (EC : exists c, shr true (u64 (Z.shiftr (rd 8 m p) r + u64 d)) (64 - r) = Ok c).
  { unfold shr. destruct ((0 <=? 64 - r) && (64 - r <? 64)) eqn:E; [eauto|]. replace (true && (64 - r =? 64)) with true by lia. eauto. }
  destruct EC as (c & ->). cbn [bind]. replace (r + L <=? 64) with true by lia. cbn [orb]. rewrite shl_mul by lia. cbn [bind].
  apply add64; auto; lia.
Qed.
