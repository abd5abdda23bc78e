(** bitwrite_inc on fields that lie in two words. *)
From Coq Require Import ZifyBool.
From Verif Require Import Base BaseFacts Mem MemFacts Hft HftFacts HftMem MrMpeFacts2 MrMpeFacts4 SpecHftWord HftWordFacts.
Ltac Zify.zify_post_hook ::= Z.div_mod_to_equations.

Lemma low_lor a x from : 0 <= from < 64 -> 0 <= a < 2 ^ 64 -> 0 <= x ->
  Z.lor (Z.land a (2 ^ from - 1)) (u64 (x * 2 ^ from)) = a mod 2 ^ from + (x mod 2 ^ (64 - from)) * 2 ^ from.
Proof.
  intros Hf Ha Hx. pose proof (Z.pow_pos_nonneg 2 from ltac:(lia) ltac:(lia)) as P. pose proof (Z.pow_pos_nonneg 2 (64 - from) ltac:(lia) ltac:(lia)) as Q.
  assert (E64 : 2 ^ 64 = 2 ^ (64 - from) * 2 ^ from) by (rewrite <- Z.pow_add_r by lia; f_equal; lia).
  assert (U : u64 (x * 2 ^ from) = (x mod 2 ^ (64 - from)) * 2 ^ from) by (unfold wrap; rewrite E64, Z.mul_mod_distr_r by lia; reflexivity).
  rewrite U. apply Z.bits_inj'. intros j Hj. rewrite Z.lor_spec, Z.land_spec, bit_ones by lia. destruct (Z.ltb_spec j from).
  - rewrite andb_true_r. rewrite Z.mul_pow2_bits_low by lia. rewrite orb_false_r. rewrite <- (Z.mod_pow2_bits_low (_ + _) from) by lia. rewrite Z_mod_plus_full, Z.mod_mod by lia. symmetry. apply Z.mod_pow2_bits_low. lia.
  - rewrite andb_false_r. cbn [orb]. replace j with (j - from + from) by lia. rewrite <- !Z.div_pow2_bits by lia. f_equal. rewrite Z.div_mul, Z.div_add by lia.
    rewrite (Z.div_small (a mod 2 ^ from)) by (apply Z.mod_pos_bound; lia). lia.
Qed.

(** The two words as one number. *)
Lemma rd_16 m p : rd 16 m p = rd 8 m p + 2 ^ 64 * rd 8 m (p + 8).
Proof. exact (rd_split 8 8 m p). Qed.

Definition borrows (W from d : Z) : bool := (W mod 2 ^ 64) / 2 ^ from + d <? 0.

Lemma inc_two sh m p from L d : bytes_of m -> 0 <= p -> p + 16 <= zlen m -> 1 <= from < 64 -> 64 < from + L -> - 2 ^ 63 <= d < 2 ^ 63 ->
  exists m', bitwrite_inc sh m p from L (u64 d) = Ok m' /\ bytes_of m' /\ zlen m' = zlen m /\
  (forall k, 0 <= k -> k < p \/ p + 16 <= k -> zn 0 m' k = zn 0 m k) /\
  rd 16 m' p = (rd 16 m p + (d + (if borrows (rd 16 m p) from d then 2 ^ 64 else 0)) * 2 ^ from) mod 2 ^ 128.
Proof.
  intros Hm Hp Hl Hf HL Hd. pose proof (Z.pow_pos_nonneg 2 from ltac:(lia) ltac:(lia)) as P. pose proof (Z.pow_pos_nonneg 2 (64 - from) ltac:(lia) ltac:(lia)) as Q.
  assert (E64 : 2 ^ 64 = 2 ^ (64 - from) * 2 ^ from) by (rewrite <- Z.pow_add_r by lia; f_equal; lia).
  assert (Q63 : 2 ^ (64 - from) <= 2 ^ 63) by (apply Z.pow_le_mono_r; lia).
  pose proof (rd_bound 8 m p (bytes_of_ok m Hm) Hp ltac:(lia)) as A. pose proof (rd_bound 8 m (p + 8) (bytes_of_ok m Hm) ltac:(lia) ltac:(lia)) as B.
  change (8 * Z.of_nat 8) with 64 in A, B. rewrite !rd_16.
  assert (BW : borrows (rd 8 m p + 2 ^ 64 * rd 8 m (p + 8)) from d = (rd 8 m p / 2 ^ from + d <? 0)).
  { unfold borrows. do 3 f_equal. rewrite Z.mul_comm, Z_mod_plus_full. apply Z.mod_small. lia. }
  rewrite BW. clear BW. unfold bitwrite_inc. unfold load, in_bounds at 1. change (Z.of_nat 8) with 8. replace ((0 <=? p) && (p + 8 <=? zlen m)) with true by lia. cbn [bind].
  set (a := rd 8 m p) in *. set (b := rd 8 m (p + 8)) in *. rewrite shr_ok by lia. cbn [bind].
  assert (V : 0 <= a / 2 ^ from < 2 ^ (64 - from)) by (split; [apply Z.div_pos; lia|apply Z.div_lt_upper_bound; lia]).
  pose proof (Z.div_mod a (2 ^ from) ltac:(lia)) as DA. pose proof (Z.mod_pos_bound a (2 ^ from) P) as MA. set (v := a / 2 ^ from) in *.
  assert (SU : u64 (v + u64 d) = v + d + (if v + d <? 0 then 2 ^ 64 else 0)).
  { unfold wrap. rewrite Zplus_mod_idemp_r. destruct (Z.ltb_spec (v + d) 0); [symmetry; apply (Z.mod_unique _ _ (-1)); lia|rewrite Z.mod_small; lia]. }
  rewrite SU. set (s := v + d + (if v + d <? 0 then 2 ^ 64 else 0)) in *.
  assert (S0 : 0 <= s < 2 ^ 64) by (unfold s; destruct (Z.ltb_spec (v + d) 0); lia). rewrite shr_ok by lia. cbn [bind]. replace (from + L <=? 64) with false by lia. cbn [orb].
  assert (T : a + 2 ^ 64 * b + (d + (if v + d <? 0 then 2 ^ 64 else 0)) * 2 ^ from = a mod 2 ^ from + s * 2 ^ from + 2 ^ 64 * b) by (rewrite DA at 1; unfold s; ring). rewrite T. clear T.
  assert (STO : forall q x mm, 0 <= q -> q + 8 <= zlen mm -> store 8 mm q x = Ok (wr 8 mm q x)).
  { intros q x mm H1 H2. unfold store, in_bounds. change (Z.of_nat 8) with 8. replace ((0 <=? q) && (q + 8 <=? zlen mm)) with true by lia. reflexivity. }
  assert (E128 : 2 ^ 128 = 2 ^ 64 * 2 ^ 64) by reflexivity.
  destruct (Z.eqb_spec (s / 2 ^ (64 - from)) 0) as [C|C].
  - assert (SS : s < 2 ^ (64 - from)) by (pose proof (Z.div_mod s (2 ^ (64 - from)) ltac:(lia)); pose proof (Z.mod_pos_bound s _ Q); lia).
    assert (NB : v + d <? 0 = false) by (destruct (Z.ltb_spec (v + d) 0); auto; unfold s in SS; lia). unfold s in SS. rewrite NB in *. assert (SV : s = v + d) by (unfold s; rewrite ?NB; lia).
    rewrite shl_mul by lia. cbn [bind]. rewrite STO by lia. eexists. split; [reflexivity|]. split; [apply bytes_of_wr; auto|]. split; [apply zlen_wr|]. split; [intros k K0 K; apply zn_wr_other; lia|].
    rewrite rd_16. rewrite rd_wr_same_w by lia. rewrite rd_wr_other by lia. change (8 * Z.of_nat 8) with 64. fold b.
    assert (W : u64 (u64 (a + u64 (u64 d * 2 ^ from))) = a mod 2 ^ from + s * 2 ^ from).
    { unfold wrap. rewrite Z.mod_mod by lia. rewrite Zplus_mod_idemp_r. rewrite <- (Zplus_mod_idemp_r (_ * _)). rewrite Z.mul_mod_idemp_l by lia. rewrite Zplus_mod_idemp_r.
      replace (a + d * 2 ^ from) with (a mod 2 ^ from + s * 2 ^ from) by (rewrite DA at 2; rewrite SV; ring). apply Z.mod_small. nia. }
    rewrite W. symmetry. apply Z.mod_small. nia.
  - rewrite shr_ok by lia. cbn [bind]. rewrite shl_mul by lia. cbn [bind].
    assert (LM : (2 ^ 64 - 1) / 2 ^ (64 - from) = 2 ^ from - 1) by (symmetry; apply (Z.div_unique_pos _ _ _ (2 ^ (64 - from) - 1)); nia). rewrite LM.
    rewrite low_lor by lia. set (w := a mod 2 ^ from + s mod 2 ^ (64 - from) * 2 ^ from). rewrite STO by lia. cbn [bind].
    replace (in_bounds _ (p + 8) 8) with true by (unfold in_bounds; rewrite zlen_wr; lia). cbn [bind]. rewrite rd_wr_other by lia. fold b. rewrite STO by (rewrite ?zlen_wr; lia).
    eexists. split; [reflexivity|]. split; [repeat apply bytes_of_wr; auto|]. split; [rewrite !zlen_wr; reflexivity|]. split; [intros k K0 K; rewrite !zn_wr_other by (rewrite ?zlen_wr; lia); reflexivity|].
    rewrite rd_16. rewrite (rd_wr_other 8 8 (wr 8 m p w)) by (rewrite ?zlen_wr; lia). rewrite !rd_wr_same_w by (rewrite ?zlen_wr; lia). change (8 * Z.of_nat 8) with 64.
    pose proof (Z.div_mod s (2 ^ (64 - from)) ltac:(lia)) as DS. pose proof (Z.mod_pos_bound s _ Q) as MS. assert (W : 0 <= w < 2 ^ 64) by (unfold w; nia).
    rewrite (wrap_small 64 w) by lia. set (c := s / 2 ^ (64 - from)) in *.
    replace (a mod 2 ^ from + s * 2 ^ from + 2 ^ 64 * b) with (w + 2 ^ 64 * (b + c)) by (unfold w; rewrite E64; rewrite DS at 2; ring).
    assert (WW : u64 (u64 (b + c)) = (b + c) mod 2 ^ 64) by (unfold wrap; apply Z.mod_mod; lia). rewrite WW. rewrite E128. rewrite (Z.rem_mul_r (w + 2 ^ 64 * (b + c)) (2 ^ 64) (2 ^ 64)) by lia.
    rewrite (Z.mul_comm (2 ^ 64) (b + c)). rewrite Z_mod_plus_full, Z.div_add by lia. rewrite (Z.mod_small w), (Z.div_small w) by lia. reflexivity.
Qed.

(** ** In terms of bits *)
Lemma mem_rd m p j : bytes_of m -> 0 <= p -> 0 <= j < 128 -> mem_bit m (8 * p + j) = Z.testbit (rd 16 m p) j.
Proof. intros Hm Hp Hj. rewrite (rd_bit 16) by (auto using bytes_of_byteful; lia). unfold mem_bit. f_equal; [f_equal; lia|lia]. Qed.

Lemma field_bit M s L j : 0 <= s -> 0 <= j < L -> Z.testbit (field M s L) j = Z.testbit M (s + j).
Proof. intros. unfold field. rewrite Z.mod_pow2_bits_low by lia. rewrite Z.div_pow2_bits by lia. f_equal. lia. Qed.

Lemma is_field_rd m p s L r : bytes_of m -> 0 <= p -> 0 <= s -> 0 <= L -> s + L <= 128 -> is_field (mem_bit m) (8 * p + s) L r <-> r = field (rd 16 m p) s L.
Proof.
  intros Hm Hp Hs HL HX. pose proof (Z.pow_pos_nonneg 2 L ltac:(lia) HL) as P. pose proof (Z.mod_pos_bound (rd 16 m p / 2 ^ s) (2 ^ L) P) as F. fold (field (rd 16 m p) s L) in F. split.
  - intros (R & H). apply Z.bits_inj'. intros j Hj. destruct (Z_lt_le_dec j L) as [J|J].
    + rewrite H, field_bit by lia. rewrite <- mem_rd by (auto; lia). f_equal. lia.
    + rewrite !(bit_big _ L) by lia. reflexivity.
  - intros ->. split; auto. intros j Hj. rewrite field_bit by lia. rewrite <- Z.add_assoc. rewrite mem_rd by (auto; lia). reflexivity.
Qed.

Lemma inc_parts W W' from L d e : 0 <= W < 2 ^ 128 -> 1 <= from < 64 -> 1 <= L <= 64 -> 64 < from + L -> 0 <= field W from L + d < 2 ^ L -> 0 <= e ->
  W' = (W + (d + e * 2 ^ 64) * 2 ^ from) mod 2 ^ 128 ->
  field W' 0 from = field W 0 from /\ field W' from L = field W from L + d /\ field W' (from + L) (128 - (from + L)) = (field W (from + L) (128 - (from + L)) + e * 2 ^ (64 - L)) mod 2 ^ (128 - (from + L)).
Proof.
  intros HW Hf HL HX HF He E. destruct (field_split W from L ltac:(lia) ltac:(lia)) as (H & lo & D & Hlo & Hfl). set (f := field W from L) in *.
  set (k := 128 - (from + L)) in *. assert (Hk : 0 <= k) by lia.
  pose proof (Z.pow_pos_nonneg 2 from ltac:(lia) ltac:(lia)) as P. pose proof (Z.pow_pos_nonneg 2 L ltac:(lia) ltac:(lia)) as Q. pose proof (Z.pow_pos_nonneg 2 k ltac:(lia) Hk) as K.
  assert (E64 : 2 ^ 64 = 2 ^ (64 - L) * 2 ^ L) by (rewrite <- Z.pow_add_r by lia; f_equal; lia).
  assert (ES : 2 ^ (from + L) = 2 ^ from * 2 ^ L) by (apply Z.pow_add_r; lia).
  assert (E128 : 2 ^ 128 = 2 ^ (from + L) * 2 ^ k) by (rewrite <- Z.pow_add_r by lia; f_equal; lia).
  assert (PS : 0 < 2 ^ (from + L)) by (apply Z.pow_pos_nonneg; lia).
  assert (LOW : 0 <= (f + d) * 2 ^ from + lo < 2 ^ (from + L)) by (rewrite ES; nia). assert (LOW0 : 0 <= f * 2 ^ from + lo < 2 ^ (from + L)) by (rewrite ES; nia).
  set (H' := (H + e * 2 ^ (64 - L)) mod 2 ^ k). pose proof (Z.mod_pos_bound (H + e * 2 ^ (64 - L)) (2 ^ k) K) as HB. fold H' in HB.
  assert (E' : W' = H' * 2 ^ (from + L) + (f + d) * 2 ^ from + lo).
  { rewrite E. replace (W + (d + e * 2 ^ 64) * 2 ^ from) with ((H + e * 2 ^ (64 - L)) * 2 ^ (from + L) + ((f + d) * 2 ^ from + lo)) by (rewrite D, E64, ES; ring).
    rewrite E128. rewrite Z.rem_mul_r by lia. rewrite Z.add_comm at 1. rewrite (Z.add_comm (_ * _) (_ + lo)). rewrite Z_mod_plus_full, Z.div_add by lia. rewrite (Z.mod_small (_ + lo)), (Z.div_small (_ + lo)) by lia.
    rewrite Z.add_0_l. fold H'. ring. }
  assert (G : forall hi x, 0 <= x < 2 ^ from -> field ((hi * 2 ^ L) * 2 ^ from + x) 0 from = x).
  { intros hi x Hx. unfold field. rewrite Z.pow_0_r, Z.div_1_r. rewrite Z.add_comm, Z_mod_plus_full. apply Z.mod_small. lia. }
  split; [|split].
  - rewrite E', D at 1. rewrite ES. unfold field. rewrite Z.pow_0_r, !Z.div_1_r.
    replace (H' * (2 ^ from * 2 ^ L) + (f + d) * 2 ^ from + lo) with (lo + (H' * 2 ^ L + (f + d)) * 2 ^ from) by ring.
    replace (H * (2 ^ from * 2 ^ L) + f * 2 ^ from + lo) with (lo + (H * 2 ^ L + f) * 2 ^ from) by ring. rewrite !Z_mod_plus_full. reflexivity.
  - rewrite E'. apply field_eq; lia.
  - assert (HH : field W (from + L) k = H mod 2 ^ k).
    { unfold field. rewrite D, <- Z.add_assoc. rewrite Z.div_add_l by lia. rewrite (Z.div_small (_ + lo)) by lia. rewrite Z.add_0_r. reflexivity. }
    rewrite HH. unfold field. rewrite E', <- Z.add_assoc. rewrite Z.div_add_l by lia. rewrite (Z.div_small (_ + lo)) by lia. rewrite Z.add_0_r. rewrite Zplus_mod_idemp_l. fold H'. apply Z.mod_small. lia.
Qed.

Lemma borrows_v m p from v d : bytes_of m -> 0 <= p -> 1 <= from < 64 -> is_field (mem_bit m) (8 * p + from) (64 - from) v -> borrows (rd 16 m p) from d = (v + d <? 0).
Proof.
  intros Hm Hp Hf Hv. apply is_field_rd in Hv; auto; try lia. unfold borrows. do 2 f_equal. rewrite Hv. unfold field.
  pose proof (Z.pow_pos_nonneg 2 from ltac:(lia) ltac:(lia)) as P. pose proof (Z.pow_pos_nonneg 2 (64 - from) ltac:(lia) ltac:(lia)) as Q.
  assert (E64 : 2 ^ 64 = 2 ^ from * 2 ^ (64 - from)) by (rewrite <- Z.pow_add_r by lia; f_equal; lia). rewrite E64. rewrite Z.rem_mul_r by lia.
  rewrite Z.mul_comm, Z.div_add by lia. rewrite Z.div_small by (apply Z.mod_pos_bound; lia). lia.
Qed.

Lemma inc_bits sh m p from L d f v H : bytes_of m -> 0 <= p -> p + 16 <= zlen m -> 1 <= from < 64 -> 1 <= L <= 64 -> 64 < from + L -> - 2 ^ 63 <= d < 2 ^ 63 ->
  is_field (mem_bit m) (8 * p + from) L f -> is_field (mem_bit m) (8 * p + from) (64 - from) v -> is_field (mem_bit m) (8 * p + from + L) (128 - (from + L)) H -> 0 <= f + d < 2 ^ L ->
  exists m', bitwrite_inc sh m p from L (u64 d) = Ok m' /\ zlen m' = zlen m /\
    is_field (mem_bit m') (8 * p + from) L (f + d) /\
    is_field (mem_bit m') (8 * p + from + L) (128 - (from + L)) (if v + d <? 0 then (H + 2 ^ (64 - L)) mod 2 ^ (128 - (from + L)) else H) /\
    (forall k, 0 <= k < 8 * zlen m -> k < 8 * p + from \/ 8 * (p + 16) <= k -> mem_bit m' k = mem_bit m k).
Proof.
  intros Hm Hp Hl Hf HL HX Hd FF FV FH HF. destruct (inc_two sh m p from L d Hm Hp Hl Hf HX Hd) as (m' & E & B & Z1 & O & R). exists m'. split; auto. split; auto.
  rewrite (borrows_v m p from v d) in R by auto. pose proof (rd_bound 16 m p (bytes_of_ok m Hm) Hp ltac:(lia)) as A. change (8 * Z.of_nat 16) with 128 in A.
  pose proof (proj1 (is_field_rd m p from L f Hm Hp ltac:(lia) ltac:(lia) ltac:(lia)) FF) as Ff. rewrite <- Z.add_assoc in FH.
  pose proof (proj1 (is_field_rd m p (from + L) (128 - (from + L)) H Hm Hp ltac:(lia) ltac:(lia) ltac:(lia)) FH) as FHH. destruct FH as (HB & _).
  assert (R' : rd 16 m' p = (rd 16 m p + (d + (if v + d <? 0 then 1 else 0) * 2 ^ 64) * 2 ^ from) mod 2 ^ 128) by (rewrite R; destruct (v + d <? 0); do 4 f_equal; lia).
  destruct (inc_parts (rd 16 m p) (rd 16 m' p) from L d (if v + d <? 0 then 1 else 0)) as (P1 & P2 & P3); auto; try lia. { destruct (v + d <? 0); lia. }
  split; [apply is_field_rd; auto; try lia|]. split; [|].
  - rewrite <- Z.add_assoc. apply is_field_rd; auto; try lia. rewrite P3, <- FHH. destruct (v + d <? 0); [rewrite Z.mul_1_l; reflexivity|]. rewrite Z.mul_0_l, Z.add_0_r. symmetry. apply Z.mod_small. lia.
  - intros k Hk [K|K].
    + destruct (Z_lt_le_dec k (8 * p)) as [C|C]; [unfold mem_bit; rewrite O by lia; reflexivity|]. replace k with (8 * p + (k - 8 * p)) by lia. rewrite !mem_rd by (auto; lia).
      replace (k - 8 * p) with (0 + (k - 8 * p)) by lia. rewrite <- !(field_bit _ 0 from) by lia. rewrite P1. reflexivity.
    + unfold mem_bit. rewrite O by lia. reflexivity.
Qed.

Lemma inc_good sh m p from L d f v : bytes_of m -> 0 <= p -> p + 16 <= zlen m -> 1 <= from < 64 -> 1 <= L <= 64 -> 64 < from + L -> - 2 ^ 63 <= d < 2 ^ 63 ->
  is_field (mem_bit m) (8 * p + from) L f -> is_field (mem_bit m) (8 * p + from) (64 - from) v -> 0 <= f + d < 2 ^ L -> 0 <= v + d ->
  exists m', bitwrite_inc sh m p from L (u64 d) = Ok m' /\ zlen m' = zlen m /\ is_field (mem_bit m') (8 * p + from) L (f + d) /\
    forall k, 0 <= k < 8 * zlen m -> k < 8 * p + from \/ 8 * p + from + L <= k -> mem_bit m' k = mem_bit m k.
Proof.
  intros Hm Hp Hl Hf HL HX Hd FF FV HF HV. set (H := field (rd 16 m p) (from + L) (128 - (from + L))).
  assert (FH : is_field (mem_bit m) (8 * p + from + L) (128 - (from + L)) H) by (rewrite <- Z.add_assoc; apply is_field_rd; auto; lia).
  destruct (inc_bits sh m p from L d f v H) as (m' & E & Z1 & F1 & F2 & O); auto. exists m'. split; auto. split; auto. split; auto. intros k Hk [K|K]; [apply O; auto|].
  destruct (Z_lt_le_dec k (8 * (p + 16))) as [C|C]; [|apply O; auto]. replace (v + d <? 0) with false in F2 by lia. destruct F2 as (_ & F2). destruct FH as (_ & FH).
  replace k with (8 * p + from + L + (k - (8 * p + from + L))) by lia. rewrite <- F2, <- FH by lia. reflexivity.
Qed.

Lemma inc_bad sh m p from L d f v : bytes_of m -> 0 <= p -> p + 16 <= zlen m -> 1 <= from < 64 -> 1 <= L <= 64 -> 64 < from + L -> - 2 ^ 63 <= d < 2 ^ 63 ->
  is_field (mem_bit m) (8 * p + from) L f -> is_field (mem_bit m) (8 * p + from) (64 - from) v -> 0 <= f + d < 2 ^ L -> v + d < 0 ->
  exists m' k, bitwrite_inc sh m p from L (u64 d) = Ok m' /\ 8 * p + from + L <= k < 8 * (p + 16) /\ mem_bit m' k <> mem_bit m k.
Proof.
  intros Hm Hp Hl Hf HL HX Hd FF FV HF HV. set (H := field (rd 16 m p) (from + L) (128 - (from + L))).
  assert (FH : is_field (mem_bit m) (8 * p + from + L) (128 - (from + L)) H) by (rewrite <- Z.add_assoc; apply is_field_rd; auto; lia).
  destruct (inc_bits sh m p from L d f v H) as (m' & E & Z1 & F1 & F2 & O); auto. replace (v + d <? 0) with true in F2 by lia. set (n := 128 - (from + L)) in *.
  assert (N : 64 - L < n) by lia. set (H2 := (H + 2 ^ (64 - L)) mod 2 ^ n) in *.
  assert (T : Z.testbit H2 (64 - L) <> Z.testbit H (64 - L)).
  { unfold H2. rewrite Z.mod_pow2_bits_low by lia. assert (B0 : forall x, Z.testbit x (64 - L) = Z.testbit (x / 2 ^ (64 - L)) 0) by (intros x; rewrite Z.div_pow2_bits by lia; f_equal). rewrite !B0. replace (H + 2 ^ (64 - L)) with (H + 1 * 2 ^ (64 - L)) by lia.
    rewrite Z.div_add by (apply Z.pow_nonzero; lia). rewrite !Z.bit0_odd. rewrite Z.odd_add. destruct (Z.odd _); discriminate. }
  exists m', (8 * p + from + L + (64 - L)). split; auto. split; [lia|]. destruct F2 as (_ & F2). destruct FH as (_ & FH). rewrite <- F2, <- FH by lia. exact T.
Qed.
