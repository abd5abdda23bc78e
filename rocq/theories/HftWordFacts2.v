(** round_pow2, mround, updroot, select64. *)
From Coq Require Import ZifyBool.
From Verif Require Import Base BaseFacts Mem MemFacts Tables Words WordFacts Spec BitmapFacts PropFacts2 Hft HftFacts HftMem SpecHftWord HftWord HftWordFacts.
Ltac Zify.zify_post_hook ::= Z.div_mod_to_equations.

(** ** round_pow2 *)
Definition window (v0 w v : Z) : Prop := 0 <= v /\ forall j, 0 <= j -> Z.testbit v j = true <-> exists i, j <= i < j + w /\ Z.testbit v0 i = true.

Lemma window_1 v : 0 <= v -> window v 1 v.
Proof. intros H. split; auto. intros j Hj. split; [intros E; exists j; split; auto; lia|intros (i & Hi & E); replace j with i by lia; auto]. Qed.

Lemma window_2 v0 w v : 0 <= w -> window v0 w v -> window v0 (2 * w) (Z.lor v (Z.shiftr v w)).
Proof.
  intros Hw (N & H). split; [apply Z.lor_nonneg; split; [lia|apply Z.shiftr_nonneg; lia]|]. intros j Hj. rewrite Z.lor_spec, Z.shiftr_spec by lia. rewrite orb_true_iff, !H by lia. split.
  - intros [(i & Hi & E)|(i & Hi & E)]; exists i; split; auto; lia.
  - intros (i & Hi & E). destruct (Z_lt_le_dec i (j + w)); [left|right]; exists i; split; auto; lia.
Qed.

Lemma window_64 v0 v : 0 < v0 < 2 ^ 64 -> window v0 64 v -> v = 2 ^ (Z.log2 v0 + 1) - 1.
Proof.
  intros Hv (N & H). pose proof (Z.log2_nonneg v0) as L0. assert (L1 : Z.log2 v0 < 64) by (apply Z.log2_lt_pow2; lia).
  apply Z.bits_inj'. intros j Hj. rewrite bit_ones by lia. specialize (H j Hj). destruct (Z.ltb_spec j (Z.log2 v0 + 1)).
  - apply H. exists (Z.log2 v0). split; [lia|]. apply Z.bit_log2. lia.
  - destruct (Z.testbit v j) eqn:E; auto. destruct H as (H & _). destruct (H eq_refl) as (i & Hi & T). rewrite Z.bits_above_log2 in T by lia. discriminate.
Qed.

Lemma round_pow2_smear v : 0 < u64 (v - 1) -> round_pow2 v = u64 (2 ^ (Z.log2 (u64 (v - 1)) + 1)).
Proof.
  intros Hv. unfold round_pow2. assert (B : 0 <= u64 (v - 1) < 2 ^ 64) by (apply Z.mod_pos_bound; lia). set (x := u64 (v - 1)) in *.
  pose proof (window_1 x ltac:(lia)) as W. do 6 (apply window_2 in W; [|lia]). cbn [Z.mul Pos.mul] in W. change (2 * 1) with 2 in W.
  apply window_64 in W; [|lia]. cbv zeta. rewrite W. f_equal. lia.
Qed.

Lemma round_pow2_least v : 1 <= v <= 2 ^ 63 -> least_power v (round_pow2 v).
Proof.
  intros Hv. destruct (Z.eq_dec v 1) as [->|N].
  - exists 0. split; [lia|]. split; [reflexivity|]. split; [change (round_pow2 1) with 1; lia|]. intros f Hf _. change (round_pow2 1) with 1. pose proof (Z.pow_pos_nonneg 2 f). lia.
  - assert (E : u64 (v - 1) = v - 1) by (apply wrap_small; lia). rewrite round_pow2_smear by lia. rewrite E.
    assert (L : Z.log2 (v - 1) < 63) by (apply Z.log2_lt_pow2; lia). pose proof (Z.log2_nonneg (v - 1)) as L0.
    pose proof (Z.pow_le_mono_r 2 (Z.log2 (v - 1) + 1) 63 ltac:(lia) ltac:(lia)) as P. pose proof (Z.pow_pos_nonneg 2 (Z.log2 (v - 1) + 1) ltac:(lia) ltac:(lia)) as P0.
    rewrite wrap_small by lia. pose proof (Z.log2_spec (v - 1) ltac:(lia)) as S. rewrite <- Z.add_1_r in S.
    exists (Z.log2 (v - 1) + 1). split; [lia|]. split; [reflexivity|]. split; [lia|]. intros f Hf F. apply Z.pow_le_mono_r; [lia|].
    destruct (Z_lt_le_dec (Z.log2 (v - 1)) f) as [C|C]; [lia|]. pose proof (Z.pow_le_mono_r 2 f (Z.log2 (v - 1)) ltac:(lia) C). lia.
Qed.

Lemma round_pow2_none v : v = 0 \/ 2 ^ 63 < v < 2 ^ 64 -> round_pow2 v = 0.
Proof.
  intros [->|Hv]; [reflexivity|]. assert (E : u64 (v - 1) = v - 1) by (apply wrap_small; lia). rewrite round_pow2_smear by lia. rewrite E.
  replace (Z.log2 (v - 1)) with 63; [reflexivity|]. symmetry. apply Z.log2_unique; lia.
Qed.

(** ** mround *)
Lemma lor_low a k : 0 <= a -> 0 <= k -> Z.lor a (2 ^ k - 1) = (a / 2 ^ k) * 2 ^ k + (2 ^ k - 1).
Proof.
  intros Ha Hk. pose proof (Z.pow_pos_nonneg 2 k ltac:(lia) Hk) as P. apply Z.bits_inj'. intros j Hj. rewrite Z.lor_spec, bit_ones by lia.
  destruct (Z.ltb_spec j k).
  - rewrite orb_true_r. rewrite <- (Z.mod_pow2_bits_low _ k) by lia. rewrite Z.add_comm, Z.mod_add by lia. rewrite Z.mod_small by lia. rewrite bit_ones by lia. lia.
  - rewrite orb_false_r. replace j with (j - k + k) by lia. rewrite <- !Z.div_pow2_bits by lia. f_equal. rewrite Z.add_comm, Z.div_add by lia. rewrite (Z.div_small (2 ^ k - 1)) by lia. lia.
Qed.

Lemma mround_least n k : 0 <= n < 2 ^ 64 -> 0 <= k < 64 -> exists r, least_multiple n (2 ^ k) r /\ mround n (2 ^ k) = r mod 2 ^ 64.
Proof.
  intros Hn Hk. pose proof (Z.pow_pos_nonneg 2 k ltac:(lia) ltac:(lia)) as P. pose proof (Z.pow_le_mono_r 2 k 63 ltac:(lia) ltac:(lia)) as Q.
  unfold mround. rewrite (wrap_small 64 (2 ^ k - 1)) by lia. destruct (Z.eq_dec n 0) as [->|N].
  - exists 0. split; [split; [exists 0; lia|split; [lia|intros q H; lia]]|]. change (u64 (0 - 1)) with (2 ^ 64 - 1). rewrite lor_low by lia.
    replace ((2 ^ 64 - 1) / 2 ^ k * 2 ^ k + (2 ^ k - 1) + 1) with (2 ^ 64); [reflexivity|].
    assert (E : 2 ^ 64 = 2 ^ (64 - k) * 2 ^ k) by (rewrite <- Z.pow_add_r by lia; f_equal; lia). set (u := 2 ^ (64 - k)) in *. set (d := 2 ^ k) in *.
    assert (D : (2 ^ 64 - 1) / d = u - 1) by (symmetry; apply (Z.div_unique_pos _ _ _ (d - 1)); lia). rewrite D. lia.
  - rewrite (wrap_small 64 (n - 1)) by lia. rewrite lor_low by lia. set (d := 2 ^ k) in *. pose proof (Z.div_mod (n - 1) d ltac:(lia)) as D. pose proof (Z.mod_pos_bound (n - 1) d P) as M.
    exists ((n - 1) / d * d + (d - 1) + 1). split; [|reflexivity]. split; [exists ((n - 1) / d + 1); lia|]. split; [nia|]. intros q Hq.
    assert ((n - 1) / d < q) by (apply Z.div_lt_upper_bound; nia). nia.
Qed.

(** ** updroot *)
Lemma lowest_low j d : 0 < j -> lowest j d <-> d = low j.
Proof.
  intros Hj. split.
  - intros (h & q & Hh & -> & E). unfold low. rewrite (ht_unique j h q); auto. pose proof (Z.pow_pos_nonneg 2 h). nia.
  - intros ->. destruct (ht_split j Hj) as (q & Hq & E). exists (ht j), q. split; [apply ht_nonneg|]. split; [reflexivity|]. exact E.
Qed.

Lemma visits_to l q : 0 <= l -> 0 <= q -> forall n j, 2 ^ l * (2 * q) < j <= 2 ^ l * (2 * q + 1) -> 2 ^ l * (2 * q + 1) - j <= Z.of_nat n -> visits j (2 ^ l * (2 * q + 1)).
Proof.
  intros Hl Hq. pose proof (Z.pow_pos_nonneg 2 l ltac:(lia) Hl) as P. induction n; intros j Hj Hn.
  - replace j with (2 ^ l * (2 * q + 1)) by lia. apply v_here.
  - destruct (Z.eq_dec j (2 ^ l * (2 * q + 1))) as [->|N]; [apply v_here|]. assert (J : 0 < j) by nia. apply v_next with (low j); [apply lowest_low; auto|].
    pose proof (low_pos j). destruct (ht_split j J) as (a & Ha & E). unfold low in *. pose proof (ht_nonneg j) as H0.
    assert (C : ht j < l).
    { destruct (Z_lt_le_dec (ht j) l) as [C|C]; auto. assert (X : 2 ^ ht j = 2 ^ (ht j - l) * 2 ^ l) by (rewrite <- Z.pow_add_r by lia; f_equal; lia).
      rewrite X in E. set (t := 2 ^ (ht j - l) * (2 * a + 1)). assert (Et : j = 2 ^ l * t) by (unfold t; lia). assert (2 * q < t < 2 * q + 1) by nia. lia. }
    assert (X : 2 ^ l = 2 ^ (l - ht j) * 2 ^ ht j) by (rewrite <- Z.pow_add_r by lia; f_equal; lia). set (u := 2 ^ (l - ht j)) in *. set (d := 2 ^ ht j) in *.
    assert (B : j + d <= 2 ^ l * (2 * q + 1)).
    { assert (Y : 2 ^ l * (2 * q + 1) - j = d * (u * (2 * q + 1) - (2 * a + 1))) by (rewrite X, E at 1; ring).
      assert (0 < d * (u * (2 * q + 1) - (2 * a + 1))) by lia. assert (0 < u * (2 * q + 1) - (2 * a + 1)) by nia. nia. }
    apply IHn; lia.
Qed.

Lemma land_high n l : 0 <= n < 2 ^ 64 -> 0 <= l < 64 -> (let* s := shl (2 ^ 64 - 1) l in Ok (Z.land n s)) = Ok (2 ^ l * (n / 2 ^ l)).
Proof.
  intros Hn Hl. destruct (shl_bits (2 ^ 64 - 1) l Hl) as (s & -> & S1 & S2). cbn [bind]. f_equal. rewrite Z.mul_comm, <- Z.shiftr_div_pow2, <- Z.shiftl_mul_pow2 by lia.
  apply Z.bits_inj'. intros j Hj. rewrite Z.land_spec, S2, Z.shiftl_spec by lia. destruct (Z.leb_spec l j).
  - rewrite Z.shiftr_spec by lia. rewrite bit_ones by lia. replace (j - l + l) with j by lia. replace (j - l <? 64) with (j <? l + 64) by lia. destruct (Z.ltb_spec j 64).
    + replace (j <? l + 64) with true by lia. cbn [andb]. apply andb_true_r.
    + cbn [andb]. rewrite andb_false_r. symmetry. apply bit_big with 64; lia.
  - rewrite andb_false_r. cbn [andb]. rewrite andb_false_r. symmetry. apply Z.testbit_neg_r. lia.
Qed.

Lemma lxor_63 c : 0 <= c < 64 -> Z.lxor 63 c = 63 - c.
Proof.
  intros H. assert (F : forallb (fun c => Z.lxor 63 c =? 63 - c) (zrange 0 64) = true) by (vm_compute; reflexivity).
  rewrite forallb_forall in F. apply Z.eqb_eq, F. apply in_zrange. lia.
Qed.

Lemma lambda_ok x : 0 < x < 2 ^ 64 -> lambda x = Ok (Z.log2 x).
Proof.
  intros Hx. unfold lambda, clzll. replace (x =? 0) with false by lia. cbn [bind]. f_equal. assert (Z.log2 x < 64) by (apply Z.log2_lt_pow2; lia). pose proof (Z.log2_nonneg x).
  rewrite lxor_63 by lia. lia.
Qed.

Lemma same_above j n l : 0 <= j -> 0 <= n -> 0 <= l -> Z.lxor j n < 2 ^ l -> j / 2 ^ l = n / 2 ^ l.
Proof.
  intros Hj Hn Hl H. rewrite <- !Z.shiftr_div_pow2 by lia. apply Z.lxor_eq. rewrite <- Z.shiftr_lxor. rewrite Z.shiftr_div_pow2 by lia.
  apply Z.div_small. split; auto. apply Z.lxor_nonneg. lia.
Qed.

Lemma updroot_last j n : 0 < j <= n -> n < 2 ^ 64 -> exists r, updroot j n = Ok r /\ last_visited j n r.
Proof.
  intros Hj Hn. unfold updroot. rewrite mask_rho_ok by lia. pose proof (ht_nonneg j) as H0. pose proof (low_pos j) as LP. pose proof (low_le j ltac:(lia)) as LL.
  destruct (ht_split j ltac:(lia)) as (a & Ha & E). unfold low in *. set (h := ht j) in *.
  assert (X0 : 0 <= Z.lxor j n) by (apply Z.lxor_nonneg; lia).
  assert (X1 : Z.lxor j n < 2 ^ 64).
  { apply bounded_bits; try lia. intros i Hi. rewrite Z.lxor_spec, !(bit_big _ 64) by lia. reflexivity. }
  assert (H64 : h < 64) by (apply (Z.pow_lt_mono_r_iff 2); lia).
  assert (LG : Z.log2 (Z.lor (Z.lxor j n) (2 ^ h)) = Z.max (Z.log2 (Z.lxor j n)) h) by (rewrite Z.log2_lor, Z.log2_pow2 by lia; reflexivity).
  assert (LX : Z.log2 (Z.lxor j n) < 64).
  { destruct (Z.eq_dec (Z.lxor j n) 0) as [->|N]; [cbn; lia|]. apply Z.log2_lt_pow2; lia. }
  assert (O : 0 < Z.lor (Z.lxor j n) (2 ^ h) < 2 ^ 64).
  { assert (0 <= Z.lor (Z.lxor j n) (2 ^ h)) by (apply Z.lor_nonneg; lia). split.
    - destruct (Z.eq_dec (Z.lor (Z.lxor j n) (2 ^ h)) 0) as [Q|Q]; [|lia]. apply Z.lor_eq_0_iff in Q. lia.
    - apply bounded_bits; try lia. intros i Hi. rewrite Z.lor_spec, (bit_big (Z.lxor j n) 64), (bit_big (2 ^ h) 64) by lia. reflexivity. }
  rewrite lambda_ok by lia. cbn [bind]. rewrite LG. pose proof (Z.log2_nonneg (Z.lxor j n)) as LN. rewrite land_high by lia.
  eexists. split; [reflexivity|].
  destruct (Z_lt_le_dec h (Z.log2 (Z.lxor j n))) as [C|C].
  - rewrite Z.max_l by lia. set (l := Z.log2 (Z.lxor j n)) in *. assert (XP : 0 < Z.lxor j n) by (destruct (Z.eq_dec (Z.lxor j n) 0) as [Q|Q]; [unfold l in C; rewrite Q in C; cbn in C; lia|lia]).
    pose proof (Z.pow_pos_nonneg 2 l ltac:(lia) ltac:(lia)) as P. pose proof (Z.log2_spec _ XP) as (S1 & S2). rewrite <- Z.add_1_r in S2. fold l in S1, S2.
    pose proof (same_above j n (l + 1) ltac:(lia) ltac:(lia) ltac:(lia) S2) as SA. rewrite Z.pow_add_r in SA by lia. change (2 ^ 1) with 2 in SA. rewrite <- !Z.div_div in SA by lia.
    pose proof (Z.bit_log2 _ XP) as BT. fold l in BT. rewrite Z.lxor_spec in BT.
    pose proof (Z.testbit_spec' j l ltac:(lia)) as TJ. pose proof (Z.testbit_spec' n l ltac:(lia)) as TN.
    assert (MO : j / 2 ^ l <= n / 2 ^ l) by (apply Z.div_le_mono; lia).
    assert (Q : n / 2 ^ l = 2 * (j / 2 ^ l / 2) + 1 /\ j / 2 ^ l = 2 * (j / 2 ^ l / 2)).
    { destruct (Z.testbit j l), (Z.testbit n l); cbn [xorb Z.b2z] in *; try discriminate; lia. }
    destruct Q as (Q1 & Q2). set (q := j / 2 ^ l / 2) in *. assert (q0 : 0 <= q) by (pose proof (Z.div_pos j (2 ^ l) ltac:(lia) P); lia).
    pose proof (Z.div_mod j (2 ^ l) ltac:(lia)) as DJ. pose proof (Z.mod_pos_bound j (2 ^ l) P) as MJ. pose proof (Z.div_mod n (2 ^ l) ltac:(lia)) as DN. pose proof (Z.mod_pos_bound n (2 ^ l) P) as MN.
    rewrite Q1 in *. rewrite Q2 in DJ. split; [|split].
    + apply (visits_to l q ltac:(lia) q0 (Z.to_nat (2 ^ l * (2 * q + 1) - j))); [|lia]. split; [|lia].
      destruct (Z.eq_dec (j mod 2 ^ l) 0) as [Z0|Z0]; [|lia]. exfalso. assert (EJ : j = 2 ^ l * (2 * q)) by lia.
      assert (D : 2 ^ l <= low j) by (apply (low_divides j l (2 * q)); lia). unfold low in D. fold h in D. apply (Z.pow_le_mono_r_iff 2) in D; lia.
    + lia.
    + intros d (h' & q' & Hh & -> & E'). assert (RP : 0 < 2 ^ l * (2 * q + 1)) by nia.
      assert (V : ht (2 ^ l * (2 * q + 1)) = l) by (apply (ht_unique _ l q); lia).
      assert (V' : ht (2 ^ l * (2 * q + 1)) = h') by (apply (ht_unique _ h' q'); auto; pose proof (Z.pow_pos_nonneg 2 h'); nia).
      rewrite <- V', V. lia.
  - rewrite Z.max_r by lia. assert (S2 : Z.lxor j n < 2 ^ (h + 1)).
    { destruct (Z.eq_dec (Z.lxor j n) 0) as [Q|Q]; [rewrite Q; apply Z.pow_pos_nonneg; lia|]. apply Z.log2_lt_pow2; lia. }
    pose proof (same_above j n (h + 1) ltac:(lia) ltac:(lia) ltac:(lia) S2) as SA. rewrite Z.pow_add_r in SA by lia. change (2 ^ 1) with 2 in SA. rewrite <- !Z.div_div in SA by lia.
    assert (JQ : j / 2 ^ h = 2 * a + 1) by (rewrite E at 1; rewrite Z.mul_comm; apply Z.div_mul; lia).
    assert (MO : j / 2 ^ h <= n / 2 ^ h) by (apply Z.div_le_mono; lia). assert (NQ : n / 2 ^ h = 2 * a + 1) by lia. rewrite NQ, <- E.
    pose proof (Z.div_mod n (2 ^ h) ltac:(lia)) as DN. pose proof (Z.mod_pos_bound n (2 ^ h) LP) as MN. rewrite NQ, <- E in DN.
    split; [apply v_here|]. split; [lia|]. intros d D. apply lowest_low in D; [|lia]. subst d. unfold low. fold h. lia.
Qed.

(** ** select64 *)
Lemma hft_sums x : 0 <= x < 2 ^ 64 -> u64 (byte_counts x * ones_step_8) = WordFacts.val (PS x).
Proof.
  intros Hx. rewrite byte_counts_ok. rewrite (Z.mul_comm (swar3 x)). change (u64 (ones_step_8 * swar3 x)) with (u64 (0x0101010101010101 * swar3 x)). apply sums_ok. auto.
Qed.

Lemma select64_hft_ok x k : 0 <= x < 2 ^ 64 -> 0 <= k < popcount x -> exists r, select64_hft x k = Ok r /\ wsel x k r.
Proof.
  intros Hx Hk. destruct (select_sse4_succinct_ok {| c_debug := false; c_avx2 := false; c_avx512 := false; c_trap := false |} x k Hx Hk) as (r & E & S). exists r. split; auto.
Qed.

Lemma geq_all x k : 0 <= x < 2 ^ 64 -> popcount x <= k < 128 -> geq_k_step_8 (WordFacts.val (PS x)) k = rep 8 128.
Proof.
  intros Hx Hk. pose proof (popcount_bound x) as PB. unfold geq_k_step_8.
  assert (EK : u64 (k * ones_step_8) = rep 8 k).
  { rewrite (rep_mul 8 k). change (rep 8 1) with ones_step_8. apply wrap_small. unfold ones_step_8. lia. }
  rewrite EK. change msbs_step_8 with (rep 8 128). rewrite lor_rep by lia. rewrite lor_80 by lia.
  assert (R : forall p, In p (PS x) -> 128 <= k + 128 - p < 256).
  { intros p Hp. unfold PS in Hp. rewrite in_map_iff in Hp. destruct Hp as (i & <- & Hi). apply in_zrange in Hi.
    pose proof (wones_bound x 0 (8 * i + 8)). pose proof (wones_bound x (8 * i + 8) 64). pose proof (wones_split x 0 (8 * i + 8) 64 ltac:(lia)). rewrite popcount_wones in Hk. lia. }
  assert (B : bytes (map (fun p => (k + 128) - p) (PS x))).
  { unfold bytes. rewrite Forall_map, Forall_forall. intros p Hp. specialize (R p Hp). lia. }
  pose proof (val_sub (PS x) (k + 128)) as E. change (length (PS x)) with 8%nat in E. rewrite <- E.
  pose proof (val_bound _ B) as VB. rewrite zlen_map in VB. change (256 ^ zlen (PS x)) with (2 ^ 64) in VB.
  rewrite wrap_small by lia.
  pose proof (land_val _ 0x80 B ltac:(lia)) as L. rewrite map_length in L. change (length (PS x)) with 8%nat in L. rewrite L. rewrite map_map.
  replace (map (fun p => Z.land (k + 128 - p) 128) (PS x)) with (map (fun _ : Z => 128) (PS x)); [reflexivity|]. apply map_ext_in. intros p Hp. specialize (R p Hp).
  assert (HC : byte_check (fun b => Z.land b 128 =? (if b <? 128 then 0 else 128)) = true) by (vm_compute; reflexivity).
  apply byte_check_ok with (b := k + 128 - p) in HC; [|lia]. apply Z.eqb_eq in HC. rewrite HC. replace (_ <? 128) with false by lia. reflexivity.
Qed.

Lemma select64_hft_past x k : 0 <= x < 2 ^ 64 -> popcount x <= k < 128 -> select64_hft x k = Ub UB_shift.
Proof. intros Hx Hk. unfold select64_hft. rewrite hft_sums by auto. cbv zeta. rewrite geq_all by auto. reflexivity. Qed.

Lemma select64_hft_spec x k : 0 <= x < 2 ^ 64 -> 0 <= k < count_true (bits_of_word x) -> exists p, select64_hft x k = Ok p /\ is_select (bits_of_word x) k p.
Proof.
  intros Hx Hk. rewrite <- popcount_word in Hk. destruct (select64_hft_ok x k Hx Hk) as (r & E & (R1 & R2 & R3)). exists r. split; auto.
  split; [rewrite zlen_bits_of_word; auto|]. rewrite bit_word by auto. split; auto. rewrite <- wones_word by lia. auto.
Qed.

Lemma select64_hft_none x k : 0 <= x < 2 ^ 64 -> count_true (bits_of_word x) <= k < 128 -> select64_hft x k = Ub UB_shift.
Proof. intros Hx Hk. rewrite <- popcount_word in Hk. apply select64_hft_past; auto. Qed.

(** *** With pdep *)
Lemma haswell_pdep x k : 0 <= k -> select64_haswell x k = select_pdep x k.
Proof. intros. reflexivity. Qed.

Lemma select64_haswell_spec x k : 0 <= x < 2 ^ 64 -> 0 <= k < count_true (bits_of_word x) -> exists p, select64_haswell x k = Ok p /\ is_select (bits_of_word x) k p.
Proof.
  intros Hx Hk. rewrite <- popcount_word in Hk. destruct (select_pdep_ok x k Hk) as (r & E & (R1 & R2 & R3)). exists r. rewrite haswell_pdep by lia. split; auto.
  split; [rewrite zlen_bits_of_word; auto|]. rewrite bit_word by auto. split; auto. rewrite <- wones_word by lia. auto.
Qed.

Lemma pdep_loop_none fuel : forall m k0 k x, 0 <= k0 -> wones x m (m + Z.of_nat fuel) <= k - k0 -> pdep_loop fuel m k0 (2 ^ k) x = 0.
Proof.
  induction fuel; intros m k0 k x H1 H2; cbn [pdep_loop]; [reflexivity|].
  unfold wones in H2. rewrite sumf_first in H2 by lia. unfold wbit at 1 in H2. fold (wones x (m + 1) (m + Z.of_nat (S fuel))) in H2.
  pose proof (wones_bound x (m + 1) (m + Z.of_nat (S fuel))) as WB. replace (m + Z.of_nat (S fuel)) with (m + 1 + Z.of_nat fuel) in * by lia.
  destruct (Z.testbit x m) eqn:E; cbn [b2z] in H2.
  - rewrite testbit_pow by lia. replace (k0 =? k) with false by lia. rewrite IHfuel by lia. reflexivity.
  - apply IHfuel; lia.
Qed.

Lemma select64_haswell_past x k : 0 <= x < 2 ^ 64 -> count_true (bits_of_word x) <= k < 64 -> select64_haswell x k = Ok 64.
Proof.
  intros Hx Hk. rewrite <- popcount_word in Hk. pose proof (popcount_bound x). unfold select64_haswell, shl. replace ((0 <=? k) && (k <? 64)) with true by lia. cbn [bind]. rewrite Z.shiftl_1_l.
  assert (2 ^ k < 2 ^ 64) by (apply Z.pow_lt_mono_r; lia). assert (0 < 2 ^ k) by (apply Z.pow_pos_nonneg; lia). rewrite wrap_small by lia. rewrite popcount_wones in Hk.
  unfold pdep64. rewrite (pdep_loop_none 64 0 0 k x) by (change (0 + Z.of_nat 64) with 64; lia). reflexivity.
Qed.

Lemma select64_haswell_shift x k : 64 <= k -> select64_haswell x k = Ub UB_shift.
Proof. intros Hk. unfold select64_haswell, shl. replace ((0 <=? k) && (k <? 64)) with false by lia. reflexivity. Qed.
