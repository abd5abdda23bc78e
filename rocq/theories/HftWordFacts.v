(** Bit fields: bitread, bitextract, bitwrite, compact_bitmask. *)
From Coq Require Import ZifyBool.
From Verif Require Import Base BaseFacts Mem MemFacts Words WordFacts Hft HftFacts HftMem MrMpeFacts2 MrMpeFacts4 SpecHftWord HftWord.
Ltac Zify.zify_post_hook ::= Z.div_mod_to_equations.

Lemma bytes_of_ok m : bytes_of m -> bytes_ok m.
Proof. intros H k Hk. unfold bytes_of in H. rewrite Forall_forall in H. apply H. unfold zn, zlen in *. apply nth_In. lia. Qed.

Lemma bytes_of_byteful m : bytes_of m -> byteful m.
Proof.
  intros H k Hk. destruct (Z_lt_le_dec k (zlen m)) as [K|K]; [apply bytes_of_ok; auto|].
  replace (zn 0 m k) with 0; [lia|]. unfold zn, zlen in *. rewrite nth_overflow by lia. reflexivity.
Qed.

(** ** Bits of the pieces *)
Lemma bit_u64 x j : 0 <= j -> Z.testbit (u64 x) j = (j <? 64) && Z.testbit x j.
Proof.
  intros Hj. unfold wrap. destruct (Z.ltb_spec j 64); cbn [andb]; [apply Z.mod_pow2_bits_low; lia|apply Z.mod_pow2_bits_high; lia].
Qed.

Lemma bit_big x n j : 0 <= x < 2 ^ n -> n <= j -> Z.testbit x j = false.
Proof.
  intros Hx Hj. destruct (Z.eq_dec x 0) as [->|N]; [apply Z.bits_0|]. apply Z.bits_above_log2; [lia|]. apply Z.log2_lt_pow2; [lia|].
  assert (0 <= n) by (destruct (Z_lt_le_dec n 0); [rewrite Z.pow_neg_r in Hx by lia; lia|lia]).
  pose proof (Z.pow_le_mono_r 2 n j ltac:(lia) Hj). lia.
Qed.

Lemma bit_ones L j : 0 <= L -> 0 <= j -> Z.testbit (2 ^ L - 1) j = (j <? L).
Proof. intros. rewrite Z.sub_1_r, <- Z.ones_equiv. rewrite Z.testbit_ones_nonneg by lia. reflexivity. Qed.

Lemma bit_not m j : 0 <= m < 2 ^ 64 -> 0 <= j < 64 -> Z.testbit (2 ^ 64 - 1 - m) j = negb (Z.testbit m j).
Proof.
  intros Hm Hj. replace (2 ^ 64 - 1 - m) with (Z.lnot m mod 2 ^ 64).
  - rewrite Z.mod_pow2_bits_low by lia. apply Z.lnot_spec. lia.
  - unfold Z.lnot. symmetry. apply (Z.mod_unique _ _ (-1)); lia.
Qed.

Lemma bit_not_big m j : 0 <= m < 2 ^ 64 -> 64 <= j -> Z.testbit (2 ^ 64 - 1 - m) j = false.
Proof. intros. apply bit_big with 64; lia. Qed.

Lemma shl_bits x s : 0 <= s < 64 -> exists y, shl x s = Ok y /\ 0 <= y < 2 ^ 64 /\ forall j, 0 <= j -> Z.testbit y j = (j <? 64) && (s <=? j) && Z.testbit x (j - s).
Proof.
  intros Hs. unfold shl. replace ((0 <=? s) && (s <? 64)) with true by lia. eexists. split; [reflexivity|]. split; [apply Z.mod_pos_bound; lia|].
  intros j Hj. rewrite bit_u64 by lia. rewrite Z.shiftl_spec by lia. destruct (Z.leb_spec s j); [rewrite andb_true_r; reflexivity|].
  rewrite Z.testbit_neg_r by lia. rewrite !andb_false_r. reflexivity.
Qed.

Lemma shr_bits x s : 0 <= s < 64 -> 0 <= x < 2 ^ 64 -> exists y, shr false x s = Ok y /\ 0 <= y < 2 ^ 64 /\ forall j, 0 <= j -> Z.testbit y j = Z.testbit x (j + s).
Proof.
  intros Hs Hx. rewrite shr_in by lia. eexists. split; [reflexivity|]. split.
  - rewrite Z.shiftr_div_pow2 by lia. pose proof (Z.pow_pos_nonneg 2 s ltac:(lia) ltac:(lia)). split; [apply Z.div_pos; lia|]. apply Z.div_lt_upper_bound; nia.
  - intros j Hj. apply Z.shiftr_spec. lia.
Qed.

Lemma bounded_bits x n : 0 <= x -> 0 <= n -> (forall j, n <= j -> Z.testbit x j = false) -> x < 2 ^ n.
Proof.
  intros Hx Hn H. destruct (Z.eq_dec x 0) as [->|N]; [apply Z.pow_pos_nonneg; lia|]. apply Z.log2_lt_pow2; [lia|].
  destruct (Z_lt_le_dec (Z.log2 x) n) as [C|C]; auto. specialize (H _ C). rewrite Z.bit_log2 in H by lia. discriminate.
Qed.

(** ** Memory *)
Lemma load_bits m p : bytes_of m -> 0 <= p -> p + 8 <= zlen m ->
  exists w, load 8 m p = Ok w /\ 0 <= w < 2 ^ 64 /\ forall j, 0 <= j < 64 -> Z.testbit w j = mem_bit m (8 * p + j).
Proof.
  intros Hm Hp Hl. unfold load, in_bounds. change (Z.of_nat 8) with 8. replace ((0 <=? p) && (p + 8 <=? zlen m)) with true by lia.
  eexists. split; [reflexivity|]. split.
  - pose proof (rd_bound 8 m p (bytes_of_ok m Hm) Hp ltac:(lia)) as B. exact B.
  - intros j Hj. rewrite rd_bit by (auto using bytes_of_byteful; lia). unfold mem_bit. f_equal; [f_equal; lia|lia].
Qed.

Lemma bytes_of_upd_nat m : forall i v, bytes_of m -> 0 <= v < 256 -> bytes_of (upd_nat m i v).
Proof.
  unfold bytes_of. induction m as [|b m IH]; intros i v H Hv; destruct i; cbn [upd_nat]; auto; apply Forall_inv in H as Hb; apply Forall_inv_tail in H as Ht; constructor; auto.
Qed.

Lemma bytes_of_upd m i v : bytes_of m -> 0 <= v < 256 -> bytes_of (upd m i v).
Proof. intros. apply bytes_of_upd_nat; auto. Qed.

Lemma bytes_of_wr n : forall m p v, bytes_of m -> bytes_of (wr n m p v).
Proof. induction n; intros m p v H; cbn [wr]; auto. apply IHn, bytes_of_upd; auto. lia. Qed.

Lemma wr_bits n : forall m p v k, 0 <= p -> p + Z.of_nat n <= zlen m -> 0 <= k < 8 * zlen m ->
  mem_bit (wr n m p v) k = if (8 * p <=? k) && (k <? 8 * p + 8 * Z.of_nat n) then Z.testbit v (k - 8 * p) else mem_bit m k.
Proof.
  induction n; intros m p v k Hp Hl Hk; cbn [wr].
  - replace ((8 * p <=? k) && (k <? 8 * p + 8 * Z.of_nat 0)) with false by lia. reflexivity.
  - rewrite IHn by (rewrite ?zlen_upd; lia).
    destruct ((8 * (p + 1) <=? k) && (k <? 8 * (p + 1) + 8 * Z.of_nat n)) eqn:E.
    + replace ((8 * p <=? k) && (k <? 8 * p + 8 * Z.of_nat (S n))) with true by lia. change 256 with (2 ^ 8). rewrite Z.div_pow2_bits by lia. f_equal. lia.
    + unfold mem_bit at 1. rewrite zn_upd by lia. destruct (Z.eqb_spec (k / 8) p) as [Q|Q].
      * replace ((8 * p <=? k) && (k <? 8 * p + 8 * Z.of_nat (S n))) with true by lia.
        change 256 with (2 ^ 8). rewrite Z.mod_pow2_bits_low by lia. f_equal. lia.
      * replace ((8 * p <=? k) && (k <? 8 * p + 8 * Z.of_nat (S n))) with false by lia. reflexivity.
Qed.

Lemma store_bits m p v : bytes_of m -> 0 <= p -> p + 8 <= zlen m ->
  exists m', store 8 m p v = Ok m' /\ bytes_of m' /\ zlen m' = zlen m /\
  forall k, 0 <= k < 8 * zlen m -> mem_bit m' k = if (8 * p <=? k) && (k <? 8 * p + 64) then Z.testbit v (k - 8 * p) else mem_bit m k.
Proof.
  intros Hm Hp Hl. unfold store, in_bounds. change (Z.of_nat 8) with 8. replace ((0 <=? p) && (p + 8 <=? zlen m)) with true by lia.
  eexists. split; [reflexivity|]. split; [apply bytes_of_wr; auto|]. split; [apply zlen_wr|]. intros k Hk. apply (wr_bits 8); lia.
Qed.

(** ** bitread *)
Lemma two_words a b from L y : 0 <= from < 64 -> 1 <= L <= 64 -> 64 < from + L -> 0 <= a < 2 ^ 64 -> 0 <= b < 2 ^ 64 -> 0 <= y < 64 ->
  exists r s, shr false a from = Ok r /\ (let* t := shl b (128 - from - L) in shr false t y) = Ok s /\ 0 <= Z.lor r s /\
  forall j, 0 <= j -> Z.testbit (Z.lor r s) j = ((j <? 64 - from) && Z.testbit a (from + j)) || ((j + y <? 64) && (128 - from - L <=? j + y) && Z.testbit b (j + y - (128 - from - L))).
Proof.
  intros Hf HL Hx Ha Hb Hy. destruct (shr_bits a from Hf Ha) as (r & R1 & R2 & R3). destruct (shl_bits b (128 - from - L) ltac:(lia)) as (t & T1 & T2 & T3).
  destruct (shr_bits t y Hy T2) as (s & S1 & S2 & S3). exists r, s. rewrite R1, T1. cbn [bind]. rewrite S1. repeat split; try (rewrite Z.lor_nonneg; lia).
  intros j Hj. rewrite Z.lor_spec, R3, S3, T3 by lia. f_equal. replace (j + from) with (from + j) by lia.
  destruct (Z.ltb_spec j (64 - from)); cbn [andb]; auto. apply bit_big with 64; lia.
Qed.

Lemma one_word a from L : 0 <= from < 64 -> 1 <= L <= 64 -> from + L <= 64 -> 0 <= a < 2 ^ 64 ->
  exists r mask, shr false a from = Ok r /\ shr false (2 ^ 64 - 1) (64 - L) = Ok mask /\ 0 <= Z.land r mask < 2 ^ L /\
  forall j, 0 <= j < L -> Z.testbit (Z.land r mask) j = Z.testbit a (from + j).
Proof.
  intros Hf HL Hx Ha. destruct (shr_bits a from Hf Ha) as (r & R1 & R2 & R3). exists r, (2 ^ L - 1). split; auto. split.
  - rewrite shr_in by lia. rewrite ones64_shr by lia. reflexivity.
  - assert (E : forall j, 0 <= j -> Z.testbit (Z.land r (2 ^ L - 1)) j = Z.testbit a (from + j) && (j <? L)).
    { intros j Hj. rewrite Z.land_spec, R3, bit_ones by lia. do 2 f_equal. lia. }
    assert (P : 0 <= Z.land r (2 ^ L - 1)) by (apply Z.land_nonneg; lia). split.
    + split; auto. apply bounded_bits; try lia. intros j Hj. rewrite E by lia. replace (j <? L) with false by lia. apply andb_false_r.
    + intros j Hj. rewrite E by lia. replace (j <? L) with true by lia. apply andb_true_r.
Qed.

Lemma bitread_field m p from L : bytes_of m -> 0 <= p -> p + span from L <= zlen m -> 0 <= from < 64 -> 1 <= L <= 64 ->
  exists r, bitread m p from L = Ok r /\ is_field (mem_bit m) (8 * p + from) L r.
Proof.
  intros Hm Hp Hl Hf HL. unfold span in Hl. unfold bitread. destruct (Z.leb_spec (from + L) 64) as [C|C].
  - destruct (load_bits m p Hm Hp Hl) as (w & -> & W1 & W2). cbn [bind]. destruct (one_word w from L) as (r & mask & -> & -> & B & E); try lia. cbn [bind].
    eexists. split; [reflexivity|]. split; auto. intros j Hj. rewrite E, W2 by lia. f_equal. lia.
  - destruct (load_bits m p Hm Hp ltac:(lia)) as (w & -> & W1 & W2). destruct (load_bits m (p + 8) Hm ltac:(lia) ltac:(lia)) as (w2 & -> & V1 & V2). cbn [bind].
    destruct (two_words w w2 from L (64 - L)) as (r & s & -> & B & P & E); try lia. cbn [bind] in *.
    destruct (shl w2 (128 - from - L)) as [t| |]; try discriminate. cbn [bind] in *. rewrite B. cbn [bind]. eexists. split; [reflexivity|]. split.
    + split; auto. apply bounded_bits; try lia. intros j Hj. rewrite E by lia. replace (j <? 64 - from) with false by lia. replace (j + (64 - L) <? 64) with false by lia. reflexivity.
    + intros j Hj. rewrite E by lia. replace (j + (64 - L) <? 64) with true by lia. destruct (Z.ltb_spec j (64 - from)).
      * replace (128 - from - L <=? j + (64 - L)) with false by lia. cbn [andb]. rewrite orb_false_r, W2 by lia. f_equal. lia.
      * replace (128 - from - L <=? j + (64 - L)) with true by lia. cbn [andb orb]. rewrite V2 by lia. f_equal. lia.
Qed.

(** ** bitextract *)
Lemma words_zn ws i : words_of ws -> 0 <= i < zlen ws -> geti ws i = Ok (zn 0 ws i) /\ 0 <= zn 0 ws i < 2 ^ 64.
Proof.
  intros H Hi. split; [apply geti_ok; auto|]. unfold words_of in H. rewrite Forall_forall in H. apply H. unfold zn, zlen in *. apply nth_In. lia.
Qed.

Lemma bitextract_bits ws from L : words_of ws -> span from L <= 8 * zlen ws -> 0 <= from < 64 -> 1 <= L <= 64 ->
  exists r, bitextract ws from L = Ok r /\ 0 <= r < 2 ^ 64 /\
  forall j, 0 <= j < 64 -> Z.testbit r j = if from + L <=? 64 then (j <? L) && word_bit ws (from + j) else ((j <? 64 - from) && word_bit ws (from + j)) || ((64 - L <=? j) && (j <? from) && word_bit ws (64 + (j - (64 - L)))).
Proof.
  intros Hw Hl Hf HL. unfold span in Hl. unfold bitextract.
  assert (W0 : forall j, 0 <= j < 64 -> word_bit ws j = Z.testbit (zn 0 ws 0) j) by (intros j Hj; unfold word_bit; f_equal; [f_equal; lia|lia]).
  assert (W1 : forall j, 0 <= j < 64 -> word_bit ws (64 + j) = Z.testbit (zn 0 ws 1) j) by (intros j Hj; unfold word_bit; f_equal; [f_equal; lia|lia]).
  destruct (Z.leb_spec (from + L) 64) as [C|C].
  - destruct (words_zn ws 0 Hw ltac:(lia)) as (-> & A). cbn [bind]. destruct (one_word (zn 0 ws 0) from L) as (r & mask & -> & -> & B & E); try lia. cbn [bind].
    eexists. split; [reflexivity|]. split; [pose proof (Z.pow_le_mono_r 2 L 64); lia|]. intros j Hj. destruct (Z.ltb_spec j L); cbn [andb].
    + rewrite E, W0 by lia. reflexivity.
    + apply bit_big with L; lia.
  - destruct (words_zn ws 0 Hw ltac:(lia)) as (-> & A). destruct (words_zn ws 1 Hw ltac:(lia)) as (-> & A1). cbn [bind].
    destruct (two_words (zn 0 ws 0) (zn 0 ws 1) from L (64 - from)) as (r & s & -> & B & P & E); try lia. cbn [bind] in *.
    destruct (shl (zn 0 ws 1) (128 - from - L)) as [t| |]; try discriminate. cbn [bind] in *. rewrite B. cbn [bind]. eexists. split; [reflexivity|]. split.
    + split; auto. apply bounded_bits; try lia. intros j Hj. rewrite E by lia. replace (j <? 64 - from) with false by lia. replace (j + (64 - from) <? 64) with false by lia. reflexivity.
    + intros j Hj. rewrite E by lia. f_equal.
      * destruct (Z.ltb_spec j (64 - from)); cbn [andb]; auto. rewrite W0 by lia. reflexivity.
      * replace (j + (64 - from) <? 64) with (j <? from) by lia. replace (128 - from - L <=? j + (64 - from)) with (64 - L <=? j) by lia.
        destruct (Z.ltb_spec j from); destruct (Z.leb_spec (64 - L) j); cbn [andb]; auto. rewrite W1 by lia. f_equal. lia.
Qed.

Lemma bitextract_right ws from L : words_of ws -> span from L <= 8 * zlen ws -> 0 <= from < 64 -> 1 <= L <= 64 -> from + L <= 64 \/ from = L ->
  exists r, bitextract ws from L = Ok r /\ is_field (word_bit ws) from L r.
Proof.
  intros Hw Hl Hf HL HX. destruct (bitextract_bits ws from L Hw Hl Hf HL) as (r & -> & R & E). exists r. split; auto. split.
  - split; [lia|]. apply bounded_bits; try lia. intros j Hj. destruct (Z_lt_le_dec j 64) as [J|J]; [|apply bit_big with 64; lia]. rewrite E by lia.
    destruct (Z.leb_spec (from + L) 64); [replace (j <? L) with false by lia; reflexivity|].
    replace (j <? 64 - from) with false by lia. replace (j <? from) with false by lia. rewrite andb_false_r. reflexivity.
  - intros j Hj. rewrite E by lia. destruct (Z.leb_spec (from + L) 64); [replace (j <? L) with true by lia; reflexivity|]. assert (from = L) by lia. subst L.
    replace (j <? from) with true by lia. destruct (Z.ltb_spec j (64 - from)); cbn [andb].
    + replace (64 - from <=? j) with false by lia. apply orb_false_r.
    + replace (64 - from <=? j) with true by lia. cbn [andb orb]. f_equal. lia.
Qed.

Lemma bitextract_wrong from L : 0 <= from < 64 -> 1 <= L <= 64 -> 64 < from + L -> from <> L ->
  exists ws r, words_of ws /\ zlen ws = 2 /\ bitextract ws from L = Ok r /\ ~ is_field (word_bit ws) from L r.
Proof.
  intros Hf HL HX HN. assert (Hw : words_of [0; 1]) by (repeat constructor; lia).
  destruct (bitextract_bits [0; 1] from L Hw ltac:(unfold span; change (zlen [0; 1]) with 2; destruct (_ <=? _); lia) Hf HL) as (r & E & R & B).
  exists [0; 1], r. split; auto. split; [reflexivity|]. split; auto. intros (F1 & F2).
  specialize (F2 (64 - from) ltac:(lia)). rewrite B in F2 by lia. replace (from + L <=? 64) with false in F2 by lia.
  replace (64 - from <? 64 - from) with false in F2 by lia. cbn [andb orb] in F2. replace (from + (64 - from)) with 64 in F2 by lia.
  change (word_bit [0; 1] 64) with true in F2. apply andb_prop in F2. destruct F2 as (F3 & F4). apply andb_prop in F3. destruct F3 as (F3 & F5).
  unfold word_bit in F4. destruct (Z.eq_dec ((64 + (64 - from - (64 - L))) mod 64) 0) as [Z0|Z0]; [lia|].
  replace ((64 + (64 - from - (64 - L))) / 64) with 1 in F4 by lia. change (zn 0 [0; 1] 1) with (2 ^ 0) in F4. rewrite Z.pow2_bits_eqb in F4 by lia. lia.
Qed.

(** ** bitwrite *)
Lemma bitwrite_bits m p from L v : bytes_of m -> 0 <= p -> p + span from L <= zlen m -> 0 <= from < 64 -> 1 <= L <= 64 -> 0 <= v < 2 ^ 64 ->
  exists m', bitwrite m p from L v = Ok m' /\ zlen m' = zlen m /\
  forall k, 0 <= k < 8 * zlen m -> mem_bit m' k =
    if (8 * p + from <=? k) && (k <? 8 * p + from + L) then Z.testbit v (k - (8 * p + from))
    else mem_bit m k || ((8 * p + from + L <=? k) && (k <? 8 * (p + span from L)) && Z.testbit v (k - (8 * p + from))).
Proof.
  intros Hm Hp Hl Hf HL Hv. unfold span in *. unfold bitwrite. destruct (Z.leb_spec (from + L) 64) as [C|C].
  - destruct (load_bits m p Hm Hp ltac:(lia)) as (w & -> & W1 & W2). cbn [bind]. rewrite shr_in by lia. rewrite ones64_shr by lia. cbn [bind].
    destruct (shl_bits (2 ^ L - 1) from Hf) as (mask & -> & M1 & M2). destruct (shl_bits v from Hf) as (x & -> & X1 & X2). cbn [bind].
    destruct (store_bits m p (Z.lor (Z.land w (2 ^ 64 - 1 - mask)) x) Hm Hp ltac:(lia)) as (m' & E & B & Z1 & Z2). exists m'. split; auto. split; auto.
    intros k Hk. rewrite Z2 by lia. destruct ((8 * p <=? k) && (k <? 8 * p + 64)) eqn:I.
    + rewrite Z.lor_spec, Z.land_spec, W2, bit_not, M2, X2 by lia. replace (8 * p + (k - 8 * p)) with k by lia. replace (k - 8 * p <? 64) with true by lia.
      replace (k <? 8 * (p + 8)) with true by lia. replace (k - 8 * p - from) with (k - (8 * p + from)) by lia.
      destruct (Z.leb_spec from (k - 8 * p)); cbn [andb negb].
      * rewrite bit_ones by lia. replace (8 * p + from <=? k) with true by lia. cbn [andb].
        destruct (Z.ltb_spec (k - (8 * p + from)) L); cbn [negb].
        -- replace (k <? 8 * p + from + L) with true by lia. rewrite andb_false_r. reflexivity.
        -- replace (k <? 8 * p + from + L) with false by lia. replace (8 * p + from + L <=? k) with true by lia. rewrite andb_true_r. reflexivity.
      * replace (8 * p + from <=? k) with false by lia. replace (8 * p + from + L <=? k) with false by lia. cbn [andb]. rewrite andb_true_r. reflexivity.
    + replace ((8 * p + from <=? k) && (k <? 8 * p + from + L)) with false by lia. replace ((8 * p + from + L <=? k) && (k <? 8 * (p + 8))) with false by lia. cbn [andb]. rewrite orb_false_r. reflexivity.
  - destruct (load_bits m p Hm Hp ltac:(lia)) as (w & -> & W1 & W2). cbn [bind].
    destruct (shl_bits (2 ^ 64 - 1) from Hf) as (mask & -> & M1 & M2). destruct (shl_bits v from Hf) as (x & -> & X1 & X2). cbn [bind].
    destruct (store_bits m p (Z.lor (Z.land w (2 ^ 64 - 1 - mask)) x) Hm Hp ltac:(lia)) as (m1 & -> & B & Z1 & Z2). cbn [bind].
    destruct (load_bits m1 (p + 8) B ltac:(lia) ltac:(lia)) as (w2 & -> & V1 & V2). cbn [bind].
    destruct (shr_bits (2 ^ 64 - 1) (128 - from - L) ltac:(lia) ltac:(lia)) as (mb & -> & N1 & N2). destruct (shr_bits v (64 - from)) as (y & -> & Y1 & Y2); try lia. cbn [bind].
    destruct (store_bits m1 (p + 8) (Z.lor (Z.land w2 (2 ^ 64 - 1 - mb)) y) B ltac:(lia) ltac:(lia)) as (m' & E & B' & Z3 & Z4). exists m'. split; auto. split; [lia|].
    intros k Hk. rewrite Z4 by lia. destruct ((8 * (p + 8) <=? k) && (k <? 8 * (p + 8) + 64)) eqn:I.
    + rewrite Z.lor_spec, Z.land_spec, V2, bit_not, N2, Y2 by lia. rewrite bit_ones by lia. replace (8 * (p + 8) + (k - 8 * (p + 8))) with k by lia. rewrite Z2 by lia.
      replace ((8 * p <=? k) && (k <? 8 * p + 64)) with false by lia. replace (k - 8 * (p + 8) + (64 - from)) with (k - (8 * p + from)) by lia.
      replace (8 * p + from <=? k) with true by lia. replace (k <? 8 * (p + 16)) with true by lia. rewrite andb_true_r. cbn [andb].
      destruct (Z.ltb_spec (k - 8 * (p + 8) + (128 - from - L)) 64); cbn [negb].
      * replace (k <? 8 * p + from + L) with true by lia. rewrite andb_false_r. reflexivity.
      * replace (k <? 8 * p + from + L) with false by lia. replace (8 * p + from + L <=? k) with true by lia. rewrite andb_true_r. reflexivity.
    + rewrite Z2 by lia. destruct ((8 * p <=? k) && (k <? 8 * p + 64)) eqn:J.
      * rewrite Z.lor_spec, Z.land_spec, W2, bit_not, M2, X2 by lia. replace (8 * p + (k - 8 * p)) with k by lia. replace (k - 8 * p <? 64) with true by lia.
        replace (k - 8 * p - from) with (k - (8 * p + from)) by lia. replace (8 * p + from + L <=? k) with false by lia. replace (k <? 8 * p + from + L) with true by lia.
        destruct (Z.leb_spec from (k - 8 * p)); cbn [andb negb].
        -- rewrite bit_ones by lia. replace (k - (8 * p + from) <? 64) with true by lia. replace (8 * p + from <=? k) with true by lia. cbn [andb negb]. rewrite andb_false_r. reflexivity.
        -- replace (8 * p + from <=? k) with false by lia. cbn [andb]. rewrite andb_true_r. reflexivity.
      * replace ((8 * p + from <=? k) && (k <? 8 * p + from + L)) with false by lia. replace ((8 * p + from + L <=? k) && (k <? 8 * (p + 16))) with false by lia. cbn [andb]. rewrite orb_false_r. reflexivity.
Qed.

Lemma bitwrite_clean m p from L v : bytes_of m -> 0 <= p -> p + span from L <= zlen m -> 0 <= from < 64 -> 1 <= L <= 64 -> 0 <= v < 2 ^ L ->
  exists m', bitwrite m p from L v = Ok m' /\ zlen m' = zlen m /\
  forall k, 0 <= k < 8 * zlen m -> mem_bit m' k = if (8 * p + from <=? k) && (k <? 8 * p + from + L) then Z.testbit v (k - (8 * p + from)) else mem_bit m k.
Proof.
  intros Hm Hp Hl Hf HL Hv. assert (Hv' : v < 2 ^ 64) by (pose proof (Z.pow_le_mono_r 2 L 64); lia).
  destruct (bitwrite_bits m p from L v Hm Hp Hl Hf HL ltac:(lia)) as (m' & E & Z1 & B). exists m'. split; auto. split; auto. intros k Hk. rewrite B by lia.
  destruct ((8 * p + from <=? k) && _); auto. destruct (Z.leb_spec (8 * p + from + L) k); cbn [andb]; [|apply orb_false_r].
  rewrite (bit_big v L) by lia. rewrite andb_false_r. apply orb_false_r.
Qed.

(** ** compact_bitmask *)
Lemma compact_bitmask_ok count pos : 1 <= count <= 64 -> 0 <= pos < 64 ->
  exists r, compact_bitmask count pos = Ok r /\ 0 <= r < 2 ^ 64 /\ forall j, 0 <= j < 64 -> Z.testbit r j = (pos <=? j) && (j <? pos + count).
Proof.
  intros Hc Hp. unfold compact_bitmask. rewrite wrap_small by lia. rewrite shr_in by lia. rewrite ones64_shr by lia. cbn [bind].
  destruct (shl_bits (2 ^ count - 1) pos Hp) as (y & -> & Y1 & Y2). cbn [bind]. replace (count =? 0) with false by lia. exists y. split.
  - f_equal. apply Z.bits_inj'. intros j Hj. rewrite Z.land_spec, bit_ones by lia. destruct (Z.ltb_spec j 64); cbn [andb]; auto. symmetry. apply bit_big with 64; lia.
  - split; auto. intros j Hj. rewrite Y2 by lia. replace (j <? 64) with true by lia. cbn [andb]. destruct (Z.leb_spec pos j); cbn [andb]; auto. rewrite bit_ones by lia. lia.
Qed.

Lemma compact_bitmask_0 pos : compact_bitmask 0 pos = Ub UB_shift.
Proof. reflexivity. Qed.

Lemma bitextract_right_iff from L : 0 <= from < 64 -> 1 <= L <= 64 ->
  (forall ws, words_of ws -> zlen ws = 2 -> exists r, bitextract ws from L = Ok r /\ is_field (word_bit ws) from L r) <-> from + L <= 64 \/ from = L.
Proof.
  intros Hf HL. split.
  - intros H. destruct (Z_le_gt_dec (from + L) 64) as [C|C]; [left; lia|]. destruct (Z.eq_dec from L) as [E|E]; [right; auto|].
    destruct (bitextract_wrong from L) as (ws & r & W & Z2 & R & N); try lia. destruct (H ws W Z2) as (r' & R' & F). rewrite R in R'. injection R' as <-. contradiction.
  - intros H ws W Z2. apply bitextract_right; auto. unfold span. destruct (_ <=? _); lia.
Qed.

Lemma bitwrite_spill : exists m v, bytes_of m /\ zlen m = 8 /\ 0 <= v < 2 ^ 64 /\ mem_bit m 4 = false /\ exists m', bitwrite m 0 0 4 v = Ok m' /\ mem_bit m' 4 = true.
Proof. exists (repeat 0 8), 16. split; [repeat constructor; lia|]. split; [reflexivity|]. split; [lia|]. split; [reflexivity|]. eexists. split; [vm_compute; reflexivity|reflexivity]. Qed.

Lemma bitextract_differs : exists ws m r s, words_of ws /\ bytes_of m /\ (forall k, 0 <= k < 128 -> word_bit ws k = mem_bit m k) /\ bitextract ws 60 8 = Ok r /\ bitread m 0 60 8 = Ok s /\ s = 0x5A /\ r <> s.
Proof.
  exists [0xA000000000000000; 0x5], [0; 0; 0; 0; 0; 0; 0; 0xA0; 5; 0; 0; 0; 0; 0; 0; 0], 0x50000000000000A, 0x5A.
  split; [repeat constructor; lia|]. split; [repeat constructor; lia|]. split.
  - intros k Hk. assert (F : forallb (fun k => Bool.eqb (word_bit [0xA000000000000000; 0x5] k) (mem_bit [0; 0; 0; 0; 0; 0; 0; 0xA0; 5; 0; 0; 0; 0; 0; 0; 0] k)) (zrange 0 128) = true) by (vm_compute; reflexivity).
    rewrite forallb_forall in F. apply Bool.eqb_prop, F, in_zrange. lia.
  - vm_compute. intuition congruence.
Qed.
