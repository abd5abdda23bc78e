(** Correctness of the in-word algorithms. *)
From Coq Require Import ZifyBool.
From Verif Require Import Base BaseFacts Mem MemFacts Tables Words.
Ltac Zify.zify_post_hook ::= Z.div_mod_to_equations.

(** ** Ones of a word *)
Definition wbit (x : Z) (j : Z) : Z := b2z (Z.testbit x j).
Definition wones (x a b : Z) : Z := sumf (wbit x) a b.

Lemma wbit_01 x j : 0 <= wbit x j <= 1.
Proof. unfold wbit, b2z; destruct (Z.testbit x j); lia. Qed.

Lemma popcount_wones x : popcount x = wones x 0 64.
Proof. reflexivity. Qed.

Lemma wones_bound x a b : a <= b -> 0 <= wones x a b <= b - a.
Proof. intros. pose proof (sumf_bound (wbit x) 1 a b ltac:(auto) (fun i _ => wbit_01 x i)). unfold wones. lia. Qed.

Lemma popcount_bound x : 0 <= popcount x <= 64.
Proof. rewrite popcount_wones. pose proof (wones_bound x 0 64). lia. Qed.

(** [r] is the position of the one number [k] (from 0) of [x]. *)
Definition wsel (x k r : Z) : Prop := 0 <= r < 64 /\ Z.testbit x r = true /\ wones x 0 r = k.

(** ** Little-endian byte lists *)
Fixpoint val (l : list Z) : Z := match l with [] => 0 | a :: r => a + 256 * val r end.
Definition bytes (l : list Z) : Prop := Forall (fun b => 0 <= b < 256) l.

Lemma le_bytes_bytes n : forall x, bytes (le_bytes n x).
Proof. induction n; intros; cbn; constructor; [lia|apply IHn]. Qed.

Lemma length_le_bytes n : forall x, length (le_bytes n x) = n.
Proof. induction n; intros; cbn; auto. Qed.

Lemma zlen_le_bytes n x : zlen (le_bytes n x) = Z.of_nat n.
Proof. unfold zlen. now rewrite length_le_bytes. Qed.

Lemma val_le_bytes n : forall x, 0 <= x < 256 ^ Z.of_nat n -> val (le_bytes n x) = x.
Proof.
  induction n; intros x H; cbn [le_bytes val]; [cbn in H; lia|].
  rewrite IHn; [lia|]. rewrite Nat2Z.inj_succ, Z.pow_succ_r in H by lia. lia.
Qed.

Lemma val_bound l : bytes l -> 0 <= val l < 256 ^ zlen l.
Proof.
  induction 1; cbn [val]; [cbn; lia|]. rewrite zlen_cons, Z.pow_add_r by (try lia; apply zlen_nonneg).
  change (256 ^ 1) with 256. lia.
Qed.

Lemma bytes_zn l i : bytes l -> 0 <= zn 0 l i < 256.
Proof.
  intros H. destruct (Z.lt_ge_cases i (zlen l)); [|rewrite zn_out by lia; lia].
  destruct l as [|a l]; [unfold zlen in *; cbn in *; destruct (Z.to_nat i); cbn; unfold zn; destruct (Z.to_nat i); cbn; lia|].
  unfold bytes in H. rewrite Forall_forall in H. apply H. unfold zn. apply nth_In. unfold zlen in *. cbn [length] in *. lia.
Qed.

Lemma testbit_cat lo hi k : 0 <= lo < 256 -> 0 <= k ->
  Z.testbit (lo + 256 * hi) k = if k <? 8 then Z.testbit lo k else Z.testbit hi (k - 8).
Proof.
  intros Hl Hk. replace (256 * hi) with (Z.shiftl hi 8) by (rewrite Z.shiftl_mul_pow2 by lia; lia).
  assert (D : Z.land lo (Z.shiftl hi 8) = 0).
  { apply Z.bits_inj'. intros n Hn. rewrite Z.land_spec, Z.bits_0, Z.shiftl_spec by lia.
    destruct (Z.lt_ge_cases n 8).
    - rewrite (Z.testbit_neg_r hi) by lia. apply andb_false_r.
    - replace lo with (lo mod 2 ^ 8) by (apply Z.mod_small; lia). rewrite Z.mod_pow2_bits_high by lia. reflexivity. }
  rewrite (Z.add_nocarry_lxor _ _ D), (Z.lxor_lor _ _ D). rewrite Z.lor_spec, Z.shiftl_spec by lia.
  destruct (Z.ltb_spec k 8).
  - rewrite (Z.testbit_neg_r hi) by lia. apply orb_false_r.
  - replace lo with (lo mod 2 ^ 8) by (apply Z.mod_small; lia). rewrite Z.mod_pow2_bits_high by lia. reflexivity.
Qed.

Lemma testbit_val l : bytes l -> forall j t, 0 <= j -> 0 <= t < 8 -> Z.testbit (val l) (8 * j + t) = Z.testbit (zn 0 l j) t.
Proof.
  induction 1 as [|a l Ha Hl IH]; intros j t Hj Ht; cbn [val].
  - unfold zn. destruct (Z.to_nat j); cbn [nth]; rewrite !Z.bits_0; reflexivity.
  - rewrite testbit_cat by lia. destruct (Z.ltb_spec (8 * j + t) 8).
    + replace j with 0 by lia. reflexivity.
    + rewrite zn_cons_S by lia. rewrite <- IH by lia. f_equal. lia.
Qed.

Lemma byte_val l j : bytes l -> 0 <= j -> Z.land (Z.shiftr (val l) (8 * j)) 255 = zn 0 l j.
Proof.
  intros Hl Hj. apply Z.bits_inj'. intros n Hn. rewrite Z.land_spec, Z.shiftr_spec by lia.
  change 255 with (Z.ones 8). destruct (Z.lt_ge_cases n 8).
  - rewrite Z.ones_spec_low by lia. rewrite andb_true_r. rewrite <- testbit_val by (auto; lia). f_equal. lia.
  - rewrite Z.ones_spec_high by lia. rewrite andb_false_r.
    pose proof (bytes_zn l j Hl). replace (zn 0 l j) with (zn 0 l j mod 2 ^ 8) by (apply Z.mod_small; lia).
    rewrite Z.mod_pow2_bits_high by lia. reflexivity.
Qed.

Lemma wones_byte l j t : bytes l -> 0 <= j -> 0 <= t <= 8 -> wones (val l) (8 * j) (8 * j + t) = wones (zn 0 l j) 0 t.
Proof.
  intros Hl Hj Ht. unfold wones.
  rewrite (sumf_ext (wbit (zn 0 l j)) (fun u => wbit (val l) (u + 8 * j))).
  - rewrite (sumf_shift (wbit (val l))). f_equal; lia.
  - intros u Hu. unfold wbit. rewrite <- testbit_val by (auto; lia). do 2 f_equal. lia.
Qed.

(** ** SWAR counting of ones per byte *)
Fixpoint rep (n : nat) (c : Z) : Z := match n with O => 0 | S n' => c + 256 * rep n' c end.

Lemma land_cat a b c d : 0 <= a < 256 -> 0 <= c < 256 -> Z.land (a + 256 * b) (c + 256 * d) = Z.land a c + 256 * Z.land b d.
Proof.
  intros Ha Hc. apply Z.bits_inj'. intros n Hn.
  assert (0 <= Z.land a c < 256).
  { replace a with (a mod 2 ^ 8) by (apply Z.mod_small; lia).
    rewrite <- (Z.land_ones a 8) by lia. rewrite <- Z.land_assoc, (Z.land_comm (Z.ones 8) c), Z.land_assoc, Z.land_ones by lia.
    apply Z.mod_pos_bound; lia. }
  rewrite Z.land_spec, !testbit_cat by lia. destruct (n <? 8); rewrite Z.land_spec; reflexivity.
Qed.

Lemma shiftr_cat lo hi k : 0 <= lo < 256 -> 0 <= k <= 8 ->
  Z.shiftr (lo + 256 * hi) k = (Z.shiftr lo k + 2 ^ (8 - k) * (hi mod 2 ^ k)) + 256 * Z.shiftr hi k.
Proof.
  intros Hl Hk. rewrite !Z.shiftr_div_pow2 by lia.
  assert (E : 256 = 2 ^ (8 - k) * 2 ^ k) by (rewrite <- Z.pow_add_r by lia; replace (8 - k + k) with 8 by lia; reflexivity).
  assert (0 < 2 ^ k) by (apply Z.pow_pos_nonneg; lia).
  replace (lo + 256 * hi) with (lo + (2 ^ (8 - k) * hi) * 2 ^ k) by (rewrite E at 1; lia).
  rewrite Z.div_add by lia.
  pose proof (Z.div_mod hi (2 ^ k) ltac:(lia)). rewrite E at 1.
  set (p := 2 ^ (8 - k)) in *. set (q := 2 ^ k) in *. set (u := hi / q) in *. set (v := hi mod q) in *.
  rewrite H0 at 1. lia.
Qed.

Lemma shiftr_byte lo k : 0 <= lo < 256 -> 0 <= k <= 8 -> 0 <= Z.shiftr lo k < 2 ^ (8 - k).
Proof.
  intros Hl Hk. rewrite Z.shiftr_div_pow2 by lia.
  assert (E : 256 = 2 ^ k * 2 ^ (8 - k)) by (rewrite <- Z.pow_add_r by lia; replace (k + (8 - k)) with 8 by lia; reflexivity).
  assert (0 < 2 ^ k) by (apply Z.pow_pos_nonneg; lia).
  split; [apply Z.div_pos; lia|]. apply Z.div_lt_upper_bound; lia.
Qed.

(** A mask below the bits that cross the byte boundary. *)
Lemma land_low a b m w : 0 <= m < 2 ^ w -> 0 <= w -> Z.land (a + 2 ^ w * b) m = Z.land (a mod 2 ^ w) m.
Proof.
  intros Hm Hw. replace m with (Z.land m (Z.ones w)) by (rewrite Z.land_ones by lia; apply Z.mod_small; lia).
  rewrite (Z.land_comm m), !Z.land_assoc, !Z.land_ones by lia. f_equal.
  rewrite (Z.mul_comm (2 ^ w)), Z_mod_plus_full. rewrite Z.mod_mod by lia. reflexivity.
Qed.

Lemma land_shiftr_cat lo hi k m d : 0 <= lo < 256 -> 0 <= k <= 8 -> 0 <= m < 2 ^ (8 - k) ->
  Z.land (Z.shiftr (lo + 256 * hi) k) (m + 256 * d) = Z.land (Z.shiftr lo k) m + 256 * Z.land (Z.shiftr hi k) d.
Proof.
  intros Hl Hk Hm. pose proof (shiftr_byte lo k Hl Hk).
  assert (0 < 2 ^ k) by (apply Z.pow_pos_nonneg; lia).
  assert (E : 256 = 2 ^ (8 - k) * 2 ^ k) by (rewrite <- Z.pow_add_r by lia; replace (8 - k + k) with 8 by lia; reflexivity).
  pose proof (Z.mod_pos_bound hi (2 ^ k) ltac:(lia)).
  rewrite shiftr_cat by auto. rewrite land_cat.
  - rewrite land_low by lia. rewrite (Z.mod_small (Z.shiftr lo k)) by lia. reflexivity.
  - set (p := 2 ^ (8 - k)) in *. set (q := 2 ^ k) in *. nia.
  - set (p := 2 ^ (8 - k)) in *. set (q := 2 ^ k) in *. nia.
Qed.

Definition swA n x := x - Z.land (Z.shiftr x 1) (rep n 0x55).
Definition swB n x := Z.land x (rep n 0x33) + Z.land (Z.shiftr x 2) (rep n 0x33).
Definition swC n x := Z.land (x + Z.shiftr x 4) (rep n 0x0f).
Definition a8 b := b - Z.land (Z.shiftr b 1) 0x55.
Definition b8 b := Z.land b 0x33 + Z.land (Z.shiftr b 2) 0x33.
Definition c8 b := Z.land (b + Z.shiftr b 4) 0x0f.
Definition pc8 b := sumn (wbit b) 0 8.

(** All 256 bytes. *)
Definition byte_check (f : Z -> bool) : bool := forallb f (zrange 0 256).
Lemma byte_check_ok f b : byte_check f = true -> 0 <= b < 256 -> f b = true.
Proof. intros H Hb. unfold byte_check in H. rewrite forallb_forall in H. apply H. apply in_zrange. lia. Qed.

Lemma swar8 b : 0 <= b < 256 -> 0 <= a8 b < 256 /\ 0 <= b8 (a8 b) <= 0x44 /\ b8 (a8 b) mod 16 <= 4 /\ c8 (b8 (a8 b)) = pc8 b.
Proof.
  intros Hb.
  assert (H : byte_check (fun b => (0 <=? a8 b) && (a8 b <? 256) && (0 <=? b8 (a8 b)) && (b8 (a8 b) <=? 0x44) && (b8 (a8 b) mod 16 <=? 4) && (c8 (b8 (a8 b)) =? pc8 b)) = true) by (vm_compute; reflexivity).
  apply byte_check_ok with (b := b) in H; auto. lia.
Qed.

Lemma swA_cat n lo hi : 0 <= lo < 256 -> swA (S n) (lo + 256 * hi) = a8 lo + 256 * swA n hi.
Proof. intros. unfold swA, a8. cbn [rep]. rewrite land_shiftr_cat by lia. lia. Qed.
Lemma swB_cat n lo hi : 0 <= lo < 256 -> swB (S n) (lo + 256 * hi) = b8 lo + 256 * swB n hi.
Proof. intros. unfold swB, b8. cbn [rep]. rewrite land_shiftr_cat by lia. rewrite land_cat by lia. lia. Qed.
Lemma swC_cat n lo hi : 0 <= lo <= 0x44 -> hi mod 16 <= 4 -> swC (S n) (lo + 256 * hi) = c8 lo + 256 * swC n hi.
Proof.
  intros Hl Hh. unfold swC, c8. cbn [rep]. rewrite shiftr_cat by lia. change (2 ^ (8 - 4)) with 16. change (2 ^ 4) with 16.
  rewrite (Z.shiftr_div_pow2 lo 4) by lia. change (2 ^ 4) with 16.
  replace (lo + 256 * hi + (lo / 16 + 16 * (hi mod 16) + 256 * Z.shiftr hi 4))
    with ((lo + lo / 16 + 16 * (hi mod 16)) + 256 * (hi + Z.shiftr hi 4)) by lia.
  rewrite land_cat by lia. f_equal.
  change 15 with (Z.ones 4). rewrite !Z.land_ones by lia. change (2 ^ 4) with 16. lia.
Qed.

Lemma swar_bytes l : bytes l -> let n := length l in
  swC n (swB n (swA n (val l))) = val (map pc8 l) /\ swB n (swA n (val l)) mod 16 <= 4.
Proof.
  induction 1 as [|b l Hb Hl IH]; cbn [length val map]; [cbn; lia|].
  destruct (swar8 b Hb) as (H1 & H2 & H3 & H4). cbv zeta in IH. destruct IH as [IH1 IH2].
  rewrite swA_cat, swB_cat by auto. split.
  - rewrite swC_cat by (auto; lia). rewrite IH1, H4. reflexivity.
  - lia.
Qed.

(** ** Sums of byte counts *)
Lemma rep_mul n c : rep n c = c * rep n 1.
Proof. induction n; cbn [rep]; lia. Qed.

Lemma val_le l m : Forall (fun b => 0 <= b <= m) l -> 0 <= val l <= m * rep (length l) 1.
Proof. induction 1; cbn [val length rep]; lia. Qed.

Lemma val_add l c : val (map (fun p => p + c) l) = val l + rep (length l) c.
Proof. induction l; cbn [val map length rep]; lia. Qed.

Lemma swA_val l : bytes l -> swA (length l) (val l) = val (map a8 l).
Proof. induction 1; cbn [val map length]; [reflexivity|]. rewrite swA_cat by auto. lia. Qed.
Lemma swB_val l : bytes l -> swB (length l) (val l) = val (map b8 l).
Proof. induction 1; cbn [val map length]; [reflexivity|]. rewrite swB_cat by auto. lia. Qed.
Lemma land_val l m : bytes l -> 0 <= m < 256 -> Z.land (val l) (rep (length l) m) = val (map (fun b => Z.land b m) l).
Proof. induction 1; intros Hm; cbn [val map length rep]; [reflexivity|]. rewrite land_cat by auto. rewrite IHForall by auto. lia. Qed.

Lemma length8 x : length (le_bytes 8 x) = 8%nat.
Proof. apply length_le_bytes. Qed.

Lemma swar3_ok x : 0 <= x < 2 ^ 64 -> swar3 x = val (map pc8 (le_bytes 8 x)).
Proof.
  intros Hx. set (l := le_bytes 8 x).
  assert (Hl : bytes l) by apply le_bytes_bytes.
  assert (Ex : val l = x) by (apply val_le_bytes; exact Hx).
  assert (BA : bytes (map a8 l)).
  { unfold bytes. rewrite Forall_map. eapply Forall_impl; [|exact Hl]. intros b Hb. cbv beta. destruct (swar8 b Hb); lia. }
  assert (EA : swA 8 x = val (map a8 l)) by (rewrite <- Ex at 1; apply (swA_val l Hl)).
  assert (EB : swB 8 (swA 8 x) = val (map b8 (map a8 l))).
  { rewrite EA. pose proof (swB_val _ BA) as E. rewrite map_length in E. exact E. }
  assert (RA : 0 <= val (map a8 l) < 256 ^ 8).
  { pose proof (val_bound _ BA) as E. unfold zlen in E. rewrite map_length in E. exact E. }
  assert (RB : 0 <= val (map b8 (map a8 l)) <= 0x44 * rep 8 1).
  { pose proof (val_le (map b8 (map a8 l)) 0x44) as E. rewrite !map_length in E. apply E.
    rewrite !Forall_map. eapply Forall_impl; [|exact Hl]. intros b Hb. cbv beta. destruct (swar8 b Hb); lia. }
  change (256 ^ 8) with (2 ^ 64) in RA. change (0x44 * rep 8 1) with 0x4444444444444444 in RB.
  destruct (swar_bytes l Hl) as [EC _]. cbv zeta in EC. change (length l) with 8%nat in EC. rewrite Ex in EC. rewrite <- EC.
  unfold swar3. change 0x5555555555555555 with (rep 8 0x55). change 0x3333333333333333 with (rep 8 0x33).
  change 0x0F0F0F0F0F0F0F0F with (rep 8 0x0f). fold (swA 8 x).
  rewrite (wrap_small 64 (swA 8 x)) by lia. fold (swB 8 (swA 8 x)).
  rewrite (wrap_small 64 (swB 8 (swA 8 x))) by lia. unfold swC. rewrite (wrap_small 64); [reflexivity|].
  rewrite EB, Z.shiftr_div_pow2 by lia. lia.
Qed.

Lemma byte_counts_ok x : byte_counts x = swar3 x.
Proof.
  unfold byte_counts, swar3. rewrite Z.shiftr_land. reflexivity.
Qed.

(** Packed inclusive prefix sums of the byte counts. *)
Definition PS (x : Z) : list Z := map (fun j => wones x 0 (8 * j + 8)) (zrange 0 8).

Lemma pc8_wones x j : 0 <= x < 2 ^ 64 -> 0 <= j -> pc8 (zn 0 (le_bytes 8 x) j) = wones x (8 * j) (8 * j + 8).
Proof.
  intros Hx Hj. rewrite <- (val_le_bytes 8 x Hx) at 2. rewrite wones_byte by (auto using le_bytes_bytes; lia). reflexivity.
Qed.

Lemma pc8_bound b : 0 <= pc8 b <= 8.
Proof. pose proof (wones_bound b 0 8). change (pc8 b) with (wones b 0 8). lia. Qed.

Lemma wones_split x a b c : a <= b <= c -> wones x a c = wones x a b + wones x b c.
Proof. intros. apply sumf_split; auto. Qed.

Lemma sums_ok x : 0 <= x < 2 ^ 64 -> u64 (0x0101010101010101 * swar3 x) = val (PS x).
Proof.
  intros Hx. rewrite swar3_ok by auto.
  pose proof (pc8_wones x) as P. pose proof (length8 x) as L8.
  destruct (le_bytes 8 x) as [|b0 [|b1 [|b2 [|b3 [|b4 [|b5 [|b6 [|b7 [|]]]]]]]]]; try discriminate. clear L8. cbn [map val].
  assert (forall j, 0 <= j -> wones x 0 (8 * j + 8) = wones x 0 (8 * j) + wones x (8 * j) (8 * j + 8)) as SP by (intros; apply wones_split; lia).
  change (PS x) with [wones x 0 8; wones x 0 16; wones x 0 24; wones x 0 32; wones x 0 40; wones x 0 48; wones x 0 56; wones x 0 64].
  cbn [val].
  pose proof (P 0 Hx ltac:(lia)) as P0. pose proof (P 1 Hx ltac:(lia)) as P1. pose proof (P 2 Hx ltac:(lia)) as P2. pose proof (P 3 Hx ltac:(lia)) as P3.
  pose proof (P 4 Hx ltac:(lia)) as P4. pose proof (P 5 Hx ltac:(lia)) as P5. pose proof (P 6 Hx ltac:(lia)) as P6. pose proof (P 7 Hx ltac:(lia)) as P7.
  change (zn 0 _ 0) with b0 in P0.
  change (zn 0 _ 1) with b1 in P1.
  change (zn 0 _ 2) with b2 in P2.
  change (zn 0 _ 3) with b3 in P3.
  change (zn 0 _ 4) with b4 in P4.
  change (zn 0 _ 5) with b5 in P5.
  change (zn 0 _ 6) with b6 in P6.
  change (zn 0 _ 7) with b7 in P7.
  pose proof (SP 0 ltac:(lia)) as S0. pose proof (SP 1 ltac:(lia)) as S1. pose proof (SP 2 ltac:(lia)) as S2. pose proof (SP 3 ltac:(lia)) as S3.
  pose proof (SP 4 ltac:(lia)) as S4. pose proof (SP 5 ltac:(lia)) as S5. pose proof (SP 6 ltac:(lia)) as S6. pose proof (SP 7 ltac:(lia)) as S7.
  change (8 * 0) with 0 in P0, S0. change (0 + 8) with 8 in P0, S0.
  change (8 * 1) with 8 in P1, S1. change (8 + 8) with 16 in P1, S1.
  change (8 * 2) with 16 in P2, S2. change (16 + 8) with 24 in P2, S2.
  change (8 * 3) with 24 in P3, S3. change (24 + 8) with 32 in P3, S3.
  change (8 * 4) with 32 in P4, S4. change (32 + 8) with 40 in P4, S4.
  change (8 * 5) with 40 in P5, S5. change (40 + 8) with 48 in P5, S5.
  change (8 * 6) with 48 in P6, S6. change (48 + 8) with 56 in P6, S6.
  change (8 * 7) with 56 in P7, S7. change (56 + 8) with 64 in P7, S7.
  assert (Z0 : wones x 0 0 = 0) by reflexivity.
  pose proof (wones_bound x 0 8 ltac:(lia)). pose proof (wones_bound x 8 16 ltac:(lia)). pose proof (wones_bound x 16 24 ltac:(lia)). pose proof (wones_bound x 24 32 ltac:(lia)).
  pose proof (wones_bound x 32 40 ltac:(lia)). pose proof (wones_bound x 40 48 ltac:(lia)). pose proof (wones_bound x 48 56 ltac:(lia)). pose proof (wones_bound x 56 64 ltac:(lia)).
  rewrite P0, P1, P2, P3, P4, P5, P6, P7.
  rewrite S7, S6, S5, S4, S3, S2, S1 in *. clear P P0 P1 P2 P3 P4 P5 P6 P7 SP S0 S1 S2 S3 S4 S5 S6 S7.
  generalize dependent (wones x 0 8). generalize dependent (wones x 8 16). generalize dependent (wones x 16 24). generalize dependent (wones x 24 32).
  generalize dependent (wones x 32 40). generalize dependent (wones x 40 48). generalize dependent (wones x 48 56). generalize dependent (wones x 56 64).
  intros c7 ? c6 ? c5 ? c4 ? c3 ? c2 ? c1 ? c0 ?.
  unfold wrap. symmetry.
  apply Z.mod_unique with (q := (c1 + c2 + c3 + c4 + c5 + c6 + c7) + 256 * ((c2 + c3 + c4 + c5 + c6 + c7) + 256 * ((c3 + c4 + c5 + c6 + c7) +
     256 * ((c4 + c5 + c6 + c7) + 256 * ((c5 + c6 + c7) + 256 * ((c6 + c7) + 256 * c7)))))); lia.
Qed.

Lemma PS_bytes x : bytes (PS x).
Proof.
  unfold bytes, PS. rewrite Forall_map, Forall_forall. intros j Hj. apply in_zrange in Hj.
  pose proof (wones_bound x 0 (8 * j + 8)). lia.
Qed.

Lemma zn_PS x j : 0 <= j < 8 -> zn 0 (PS x) j = wones x 0 (8 * j + 8).
Proof. intros. unfold PS. rewrite (zn_map _ 0) by exact H. rewrite zn_zrange by lia. reflexivity. Qed.

Lemma land_255 y : Z.land y 255 = y mod 256.
Proof. change 255 with (Z.ones 8). rewrite Z.land_ones by lia. reflexivity. Qed.

Lemma popcount_u64_broadword c x : 0 <= x < 2 ^ 64 -> popcount_u64 c PC_broadword x = Ok (popcount x).
Proof.
  intros Hx. cbn [popcount_u64]. f_equal. rewrite sums_ok by auto.
  pose proof (byte_val (PS x) 7 (PS_bytes x) ltac:(lia)) as E. rewrite zn_PS in E by lia.
  rewrite popcount_wones. rewrite <- E at 1. rewrite land_255, Z.mod_small; [reflexivity|].
  pose proof (val_bound (PS x) (PS_bytes x)) as B. change (zlen (PS x)) with 8 in B.
  rewrite Z.shiftr_div_pow2 by lia. lia.
Qed.

(** ** Selection inside a word *)

(** The byte holding one number [k]. *)
Lemma find_byte x k : 0 <= k < popcount x ->
  exists j, 0 <= j < 8 /\ wones x 0 (8 * j) <= k < wones x 0 (8 * j + 8).
Proof.
  intros Hk. rewrite popcount_wones in Hk.
  assert (G : forall n, (n <= 8)%nat -> k < wones x 0 (8 * Z.of_nat n) ->
    exists j, 0 <= j < 8 /\ wones x 0 (8 * j) <= k < wones x 0 (8 * j + 8)).
  { induction n; intros Hn Hlt.
    - change (wones x 0 (8 * Z.of_nat 0)) with 0 in Hlt. lia.
    - destruct (Z.lt_ge_cases k (wones x 0 (8 * Z.of_nat n))); [apply IHn; auto; lia|].
      exists (Z.of_nat n). split; [lia|]. split; [lia|]. replace (8 * Z.of_nat n + 8) with (8 * Z.of_nat (S n)) by lia. auto. }
  apply (G 8%nat); auto. change (8 * Z.of_nat 8) with 64. lia.
Qed.

Lemma wones_mono x a b : 0 <= a <= b -> wones x 0 a <= wones x 0 b.
Proof. intros. rewrite (wones_split x 0 a b) by lia. pose proof (wones_bound x a b). lia. Qed.

(** Comparing the prefix sums with [k] locates that byte. *)
Lemma PS_flags {T} x k j (t e : T) : 0 <= j < 8 -> wones x 0 (8 * j) <= k < wones x 0 (8 * j + 8) ->
  map (fun p => if k <? p then t else e) (PS x) = map (fun i => if j <=? i then t else e) (zrange 0 8).
Proof.
  intros Hj Hk. unfold PS. rewrite map_map. apply map_ext_in. intros i Hi. apply in_zrange in Hi.
  destruct (Z.leb_spec j i).
  - pose proof (wones_mono x (8 * j + 8) (8 * i + 8)). replace (k <? wones x 0 (8 * i + 8)) with true by lia. reflexivity.
  - pose proof (wones_mono x (8 * i + 8) (8 * j)). replace (k <? wones x 0 (8 * i + 8)) with false by lia. reflexivity.
Qed.

Definition xbyte (x j : Z) : Z := zn 0 (le_bytes 8 x) j.

Lemma xbyte_ok x j : 0 <= x < 2 ^ 64 -> 0 <= j -> Z.land (Z.shiftr x (8 * j)) 255 = xbyte x j.
Proof.
  intros Hx Hj. rewrite <- (val_le_bytes 8 x Hx) at 1. apply byte_val; auto. apply le_bytes_bytes.
Qed.

Lemma xbyte_bound x j : 0 <= xbyte x j < 256.
Proof. apply bytes_zn, le_bytes_bytes. Qed.

Lemma PS_byte x j : 0 <= j < 8 -> Z.land (Z.shiftr (val (PS x)) (8 * j)) 255 = wones x 0 (8 * j + 8).
Proof. intros. rewrite byte_val by (auto using PS_bytes; lia). apply zn_PS; auto. Qed.

(** A select-in-byte table. *)
Definition sel_entry (tbl : list Z) (b k : Z) : bool :=
  let e := zn 0 tbl (b + 256 * k) in
  negb (k <? pc8 b) || ((0 <=? e) && (e <? 8) && Z.testbit b e && (wones b 0 e =? k)).
Definition sel_table (tbl : list Z) : bool :=
  (zlen tbl =? 2048) && forallb (fun k => byte_check (fun b => sel_entry tbl b k)) (zrange 0 8).

Lemma lt_sel_table : sel_table lt_sel = true.
Proof. vm_compute. reflexivity. Qed.
Lemma select_in_byte_table : sel_table select_in_byte = true.
Proof. vm_compute. reflexivity. Qed.

Lemma sel_table_ok tbl b k : sel_table tbl = true -> 0 <= b < 256 -> 0 <= k < pc8 b ->
  exists e, geti tbl (b + 256 * k) = Ok e /\ 0 <= e < 8 /\ Z.testbit b e = true /\ wones b 0 e = k.
Proof.
  intros T Hb Hk. unfold sel_table in T. apply andb_prop in T. destruct T as [TL TT].
  pose proof (pc8_bound b).
  rewrite forallb_forall in TT. specialize (TT k (proj2 (in_zrange k 0 8) ltac:(lia))).
  cbv beta in TT. apply byte_check_ok with (b := b) in TT; auto. unfold sel_entry in TT.
  rewrite geti_ok by lia. exists (zn 0 tbl (b + 256 * k)). split; [reflexivity|].
  destruct (k <? pc8 b) eqn:E; [|lia]. cbn [negb orb] in TT.
  apply andb_prop in TT. destruct TT as [TT T4]. apply andb_prop in TT. destruct TT as [TT T3].
  split; [lia|]. split; [exact T3|]. apply Z.eqb_eq; exact T4.
Qed.

(** Combining the byte and the position in the byte. *)
Lemma in_byte x k j e : 0 <= x < 2 ^ 64 -> 0 <= j < 8 -> 0 <= e < 8 ->
  Z.testbit (xbyte x j) e = true -> wones (xbyte x j) 0 e = k - wones x 0 (8 * j) -> wsel x k (8 * j + e).
Proof.
  intros Hx Hj He T W. unfold xbyte in *.
  pose proof (le_bytes_bytes 8 x) as B. split; [lia|].
  rewrite <- (val_le_bytes 8 x Hx). split; [rewrite testbit_val; auto; lia|].
  rewrite (wones_split _ 0 (8 * j)) by lia. rewrite wones_byte by (auto; lia).
  rewrite val_le_bytes by auto. lia.
Qed.

Lemma byte_select tbl x k j : sel_table tbl = true -> 0 <= x < 2 ^ 64 -> 0 <= j < 8 ->
  wones x 0 (8 * j) <= k < wones x 0 (8 * j + 8) ->
  exists e, geti tbl (xbyte x j + 256 * (k - wones x 0 (8 * j))) = Ok e /\ 0 <= e < 8 /\ wsel x k (8 * j + e).
Proof.
  intros T Hx Hj Hk. pose proof (wones_split x 0 (8 * j) (8 * j + 8) ltac:(lia)).
  destruct (sel_table_ok tbl (xbyte x j) (k - wones x 0 (8 * j)) T (xbyte_bound x j)) as (e & E & E1 & E2 & E3).
  { unfold xbyte. rewrite pc8_wones by (auto; lia). lia. }
  exists e. split; [exact E|]. split; [exact E1|]. apply in_byte; auto.
Qed.

(** ps_overflow[i] has 128 - i in every byte. *)
Lemma ps_overflow_ok i : 0 <= i <= 64 -> geti ps_overflow i = Ok (rep 8 (128 - i)).
Proof.
  intros Hi.
  assert (H : (zlen ps_overflow =? 65) && forallb (fun i => zn 0 ps_overflow i =? rep 8 (128 - i)) (zrange 0 65) = true) by (vm_compute; reflexivity).
  apply andb_prop in H. destruct H as [H1 H2]. rewrite forallb_forall in H2.
  specialize (H2 i (proj2 (in_zrange i 0 65) ltac:(lia))). rewrite geti_ok by lia. f_equal. lia.
Qed.

(** The sentinel bits of the sdsl algorithms. *)
Lemma sdsl_flags x k j : 0 <= x < 2 ^ 64 -> 0 <= k < 64 -> 0 <= j < 8 -> wones x 0 (8 * j) <= k < wones x 0 (8 * j + 8) ->
  Z.land (u64 (val (PS x) + rep 8 (128 - (k + 1)))) 0x8080808080808080 = val (map (fun i => if j <=? i then 128 else 0) (zrange 0 8)).
Proof.
  intros Hx Hk Hj HW.
  assert (B : bytes (map (fun p => p + (128 - (k + 1))) (PS x))).
  { unfold bytes. rewrite Forall_map. unfold PS. rewrite Forall_map, Forall_forall. intros i Hi. apply in_zrange in Hi.
    pose proof (wones_bound x 0 (8 * i + 8)). lia. }
  pose proof (val_add (PS x) (128 - (k + 1))) as E. change (length (PS x)) with 8%nat in E. rewrite <- E.
  pose proof (val_bound _ B) as VB. rewrite zlen_map in VB. change (256 ^ zlen (PS x)) with (2 ^ 64) in VB.
  rewrite wrap_small by lia. change 0x8080808080808080 with (rep 8 0x80).
  pose proof (land_val _ 0x80 B ltac:(lia)) as L. rewrite map_length in L. change (length (PS x)) with 8%nat in L. rewrite L.
  f_equal. rewrite map_map. rewrite <- (PS_flags x k j 128 0 Hj HW). apply map_ext_in. intros p Hp.
  unfold PS in Hp. rewrite in_map_iff in Hp. destruct Hp as (i & <- & Hi). apply in_zrange in Hi.
  pose proof (wones_bound x 0 (8 * i + 8)).
  assert (HC : byte_check (fun b => Z.land b 128 =? (if b <? 128 then 0 else 128)) = true) by (vm_compute; reflexivity).
  apply byte_check_ok with (b := wones x 0 (8 * i + 8) + (128 - (k + 1))) in HC; [|lia].
  apply Z.eqb_eq in HC. rewrite HC. destruct (Z.ltb_spec k (wones x 0 (8 * i + 8))).
  - replace (_ <? 128) with false by lia. reflexivity.
  - replace (_ <? 128) with true by lia. reflexivity.
Qed.

Lemma cases8 (P : Z -> Prop) : P 0 -> P 1 -> P 2 -> P 3 -> P 4 -> P 5 -> P 6 -> P 7 -> forall j, 0 <= j < 8 -> P j.
Proof.
  intros. assert (j = 0 \/ j = 1 \/ j = 2 \/ j = 3 \/ j = 4 \/ j = 5 \/ j = 6 \/ j = 7) as D by lia.
  destruct D as [->|[->|[->|[->|[->|[->|[->| ->]]]]]]]; auto.
Qed.

Lemma land_ff00 y : Z.land y 0xFF00 = 256 * Z.land (Z.shiftr y 8) 255.
Proof.
  replace (256 * Z.land (Z.shiftr y 8) 255) with (Z.shiftl (Z.land (Z.shiftr y 8) 255) 8) by (rewrite Z.shiftl_mul_pow2 by lia; lia).
  apply Z.bits_inj'. intros n Hn. rewrite Z.shiftl_spec by lia. change 0xFF00 with (Z.shiftl (Z.ones 8) 8).
  rewrite Z.land_spec, Z.shiftl_spec by lia. destruct (Z.lt_ge_cases n 8).
  - rewrite !(Z.testbit_neg_r _ (n - 8)) by lia. apply andb_false_r.
  - rewrite Z.land_spec, Z.shiftr_spec by lia. replace (n - 8 + 8) with n by lia. reflexivity.
Qed.

(** ((byte + 256 k - 256 s) & 0x7FF) *)
Lemma sdsl_index b k s : 0 <= b < 256 -> 0 <= k < 64 -> 0 <= s <= k -> k - s < 8 ->
  Z.land (u64 (b + u64 (Z.shiftl (u64 (k + 1 - 1)) 8) - 256 * s)) 0x7FF = b + 256 * (k - s).
Proof.
  intros. rewrite (wrap_small 64 (k + 1 - 1)) by lia. rewrite Z.shiftl_mul_pow2 by lia. rewrite (wrap_small 64 ((k + 1 - 1) * 2 ^ 8)) by lia.
  change 0x7FF with (Z.ones 11). rewrite Z.land_ones by lia. rewrite wrap_small by lia. rewrite Z.mod_small; lia.
Qed.

Lemma byte_room x k j : 0 <= j < 8 -> wones x 0 (8 * j) <= k < wones x 0 (8 * j + 8) ->
  0 <= wones x 0 (8 * j) <= k /\ k - wones x 0 (8 * j) < 8.
Proof.
  intros Hj Hk. rewrite (wones_split x 0 (8 * j) (8 * j + 8)) in Hk by lia.
  pose proof (wones_bound x 0 (8 * j) ltac:(lia)). pose proof (wones_bound x (8 * j) (8 * j + 8) ltac:(lia)). lia.
Qed.

Lemma PS_word x j : 0 <= j < 8 -> Z.land (Z.shiftr (val (PS x)) (8 * (j - 1))) 255 = wones x 0 (8 * j) \/ j = 0.
Proof. intros. destruct (Z.eq_dec j 0); [right; auto|left]. rewrite PS_byte by lia. f_equal. lia. Qed.

Lemma select_broadword_sdsl_ok x k : 0 <= x < 2 ^ 64 -> 0 <= k < popcount x ->
  exists r, select_broadword_sdsl x k = Ok r /\ wsel x k r.
Proof.
  intros Hx Hk. pose proof (popcount_bound x). destruct (find_byte x k Hk) as (j & Hj & HW).
  unfold select_broadword_sdsl. rewrite sums_ok by auto. rewrite (wrap_small 64 (k + 1)) by lia.
  rewrite ps_overflow_ok by lia. cbn [bind].
  pose proof (sdsl_flags x k j Hx ltac:(lia) Hj HW) as FL. set (b := u64 (val (PS x) + rep 8 (128 - (k + 1)))) in *.
  assert (NZ : forall m, Z.land 0x8080808080808080 m = m -> Z.land b m = Z.land (val (map (fun i => if j <=? i then 128 else 0) (zrange 0 8))) m).
  { intros m Hm. rewrite <- FL, <- Z.land_assoc, Hm. reflexivity. }
  rewrite !NZ by reflexivity. clear NZ FL b.
  destruct (byte_select lt_sel x k j lt_sel_table Hx Hj HW) as (e & E & He & S).
  destruct (byte_room x k j Hj HW) as (R1 & R2). pose proof (xbyte_bound x j) as XB.
  pose proof (xbyte_ok x j Hx ltac:(lia)) as XE. pose proof (PS_word x j Hj) as PW.
  assert (D : j = 0 \/ j = 1 \/ j = 2 \/ j = 3 \/ j = 4 \/ j = 5 \/ j = 6 \/ j = 7) by lia.
  assert (FIN : forall s, s = wones x 0 (8 * j) -> geti lt_sel (Z.land (u64 (Z.land (Z.shiftr x (8 * j)) 0xFF + u64 (Z.shiftl (u64 (k + 1 - 1)) 8) - 256 * s)) 0x7FF) = Ok e).
  { intros s ->. rewrite XE, sdsl_index by lia. exact E. }
  assert (FIN2 : forall y, Z.land (Z.shiftr y 8) 255 = wones x 0 (8 * j) -> geti lt_sel (Z.land (u64 (Z.land (Z.shiftr x (8 * j)) 0xFF + u64 (Z.shiftl (u64 (k + 1 - 1)) 8) - Z.land y 0xFF00)) 0x7FF) = Ok e).
  { intros y Hy. rewrite land_ff00. apply FIN. exact Hy. }
  Ltac ev := repeat match goal with |- context [negb (?a =? 0)] => let v := eval vm_compute in (negb (a =? 0)) in change (negb (a =? 0)) with v; cbv iota end.
  exists (8 * j + e). split; [|exact S].
  destruct D as [->|[->|[->|[->|[->|[->|[->| ->]]]]]]]; cbv zeta; ev.
  - rewrite (wrap_small 64 (k + 1 - 1)) by lia. rewrite Z.shiftl_mul_pow2 by lia. rewrite (wrap_small 64 ((k + 1 - 1) * 2 ^ 8)) by lia.
    change (8 * 0) with 0 in *. rewrite Z.shiftr_0_r in XE. rewrite XE. change (wones x 0 0) with 0 in *.
    rewrite wrap_small by lia. rewrite Z.add_0_l, <- E. f_equal. lia.
  - change (8 * 1) with 8 in FIN. rewrite (Z.shiftl_mul_pow2 (Z.land (val (PS x)) 255)) by lia. rewrite (Z.mul_comm _ (2 ^ 8)). change (2 ^ 8) with 256. rewrite FIN; [reflexivity|].
    destruct PW as [PW|]; [|lia]. change (8 * (1 - 1)) with 0 in PW. rewrite Z.shiftr_0_r in PW. exact PW.
  - change (8 * 2) with 16 in FIN2. rewrite FIN2; [reflexivity|]. destruct PW as [PW|]; [|lia]. exact PW.
  - change (8 * 3) with 24 in FIN2. rewrite FIN2; [reflexivity|]. destruct PW as [PW|]; [|lia]. rewrite Z.shiftr_shiftr by lia. exact PW.
  - change (8 * 4) with 32 in FIN2. rewrite FIN2; [reflexivity|]. destruct PW as [PW|]; [|lia]. rewrite Z.shiftr_shiftr by lia. exact PW.
  - change (8 * 5) with 40 in FIN2. rewrite FIN2; [reflexivity|]. destruct PW as [PW|]; [|lia]. rewrite Z.shiftr_shiftr by lia. exact PW.
  - change (8 * 6) with 48 in FIN2. rewrite FIN2; [reflexivity|]. destruct PW as [PW|]; [|lia]. rewrite Z.shiftr_shiftr by lia. exact PW.
  - change (8 * 7) with 56 in FIN2. rewrite FIN2; [reflexivity|]. destruct PW as [PW|]; [|lia]. rewrite Z.shiftr_shiftr by lia. exact PW.
Qed.

Lemma shr64_ok x n : 0 <= n < 64 -> shr64 x n = Ok (Z.shiftr x n).
Proof. intros. unfold shr64. replace ((0 <=? n) && (n <? 64)) with true by lia. reflexivity. Qed.

(** Exclusive prefix sum: the packed sums shifted up by one byte. *)
Lemma PS_shifted x j : 0 <= j < 8 -> Z.land (Z.shiftr (u64 (Z.shiftl (val (PS x)) 8)) (8 * j)) 255 = wones x 0 (8 * j).
Proof.
  intros Hj. unfold wrap. rewrite <- Z.land_ones by lia.
  assert (D : j = 0 \/ 0 < j) by lia. destruct D as [->|Hj0].
  - change (8 * 0) with 0. rewrite Z.shiftr_0_r. change (wones x 0 0) with 0.
    rewrite <- Z.land_assoc. change (Z.land (Z.ones 64) 255) with 255. rewrite land_255, Z.shiftl_mul_pow2 by lia.
    change (2 ^ 8) with 256. apply Z.mod_mul. lia.
  - replace (wones x 0 (8 * j)) with (wones x 0 (8 * (j - 1) + 8)) by (f_equal; lia). rewrite <- PS_byte by lia.
    apply Z.bits_inj'. intros n Hn. rewrite !Z.land_spec, !Z.shiftr_spec, Z.land_spec, Z.shiftl_spec by lia.
    change 255 with (Z.ones 8). destruct (Z.lt_ge_cases n 8).
    + rewrite (Z.ones_spec_low 64) by lia. rewrite andb_true_r. do 2 f_equal. lia.
    + rewrite (Z.ones_spec_high 8) by lia. rewrite !andb_false_r. reflexivity.
Qed.

Lemma select_sse4_sdsl_ok x k : 0 <= x < 2 ^ 64 -> 0 <= k < popcount x ->
  exists r, select_sse4_sdsl x k = Ok r /\ wsel x k r.
Proof.
  intros Hx Hk. pose proof (popcount_bound x). destruct (find_byte x k Hk) as (j & Hj & HW).
  unfold select_sse4_sdsl. rewrite sums_ok by auto. rewrite (wrap_small 64 (k + 1)) by lia.
  rewrite ps_overflow_ok by lia. cbn [bind]. cbv zeta. rewrite (sdsl_flags x k j) by (auto; lia).
  destruct (byte_select lt_sel x k j lt_sel_table Hx Hj HW) as (e & E & He & S).
  destruct (byte_room x k j Hj HW) as (R1 & R2). pose proof (xbyte_bound x j) as XB.
  pose proof (xbyte_ok x j Hx ltac:(lia)) as XE. pose proof (PS_shifted x j Hj) as PW.
  assert (EJ : Z.shiftr (tzcnt64 (val (map (fun i => if j <=? i then 128 else 0) (zrange 0 8)))) 3 = j).
  { assert (D : j = 0 \/ j = 1 \/ j = 2 \/ j = 3 \/ j = 4 \/ j = 5 \/ j = 6 \/ j = 7) by lia.
    destruct D as [->|[->|[->|[->|[->|[->|[->| ->]]]]]]]; reflexivity. }
  rewrite EJ. rewrite !shr64_ok by lia. cbn [bind]. rewrite (Z.mul_comm j 8), PW, XE.
  exists (8 * j + e). split; [|exact S].
  rewrite (wrap_small 64 (k + 1 - _)) by lia. rewrite (wrap_small 64 (_ - 1)) by lia. rewrite Z.shiftl_mul_pow2 by lia.
  rewrite (wrap_small 64 (_ * 2 ^ 8)) by lia. rewrite wrap_small by lia.
  replace (_ * 2 ^ 8 + xbyte x j) with (xbyte x j + 256 * (k - wones x 0 (8 * j))) by lia. rewrite E. reflexivity.
Qed.

(** *** succinct *)
Lemma lor_80 k : 0 <= k < 128 -> Z.lor k 128 = k + 128.
Proof.
  intros. assert (HC : byte_check (fun b => (128 <=? b) || (Z.lor b 128 =? b + 128)) = true) by (vm_compute; reflexivity).
  apply byte_check_ok with (b := k) in HC; lia.
Qed.

Lemma lor_cat a b c d : 0 <= a < 256 -> 0 <= c < 256 -> Z.lor (a + 256 * b) (c + 256 * d) = Z.lor a c + 256 * Z.lor b d.
Proof.
  intros Ha Hc. apply Z.bits_inj'. intros n Hn.
  assert (0 <= Z.lor a c < 256).
  { split; [apply Z.lor_nonneg; lia|].
    replace a with (a mod 2 ^ 8) by (apply Z.mod_small; lia). replace c with (c mod 2 ^ 8) by (apply Z.mod_small; lia).
    rewrite <- !Z.land_ones, <- Z.land_lor_distr_l, Z.land_ones by lia. apply Z.mod_pos_bound; lia. }
  rewrite Z.lor_spec, !testbit_cat by lia. destruct (n <? 8); rewrite Z.lor_spec; reflexivity.
Qed.

Lemma lor_rep n a c : 0 <= a < 256 -> 0 <= c < 256 -> Z.lor (rep n a) (rep n c) = rep n (Z.lor a c).
Proof. intros. induction n; cbn [rep]; [reflexivity|]. rewrite lor_cat by auto. lia. Qed.

Lemma val_sub l c : val (map (fun p => c - p) l) = rep (length l) c - val l.
Proof. induction l; cbn [val map length rep]; lia. Qed.

Lemma geq_ok x k j : 0 <= x < 2 ^ 64 -> 0 <= k < 64 -> 0 <= j < 8 -> wones x 0 (8 * j) <= k < wones x 0 (8 * j + 8) ->
  geq_k_step_8 (val (PS x)) k = val (map (fun i => if j <=? i then 0 else 128) (zrange 0 8)).
Proof.
  intros Hx Hk Hj HW. unfold geq_k_step_8.
  assert (EK : u64 (k * ones_step_8) = rep 8 k).
  { rewrite (rep_mul 8 k). change (rep 8 1) with ones_step_8. apply wrap_small. unfold ones_step_8. lia. }
  rewrite EK. change msbs_step_8 with (rep 8 128). rewrite lor_rep by lia. rewrite lor_80 by lia.
  assert (B : bytes (map (fun p => (k + 128) - p) (PS x))).
  { unfold bytes. rewrite Forall_map. unfold PS. rewrite Forall_map, Forall_forall. intros i Hi. apply in_zrange in Hi.
    pose proof (wones_bound x 0 (8 * i + 8)). lia. }
  pose proof (val_sub (PS x) (k + 128)) as E. change (length (PS x)) with 8%nat in E. rewrite <- E.
  pose proof (val_bound _ B) as VB. rewrite zlen_map in VB. change (256 ^ zlen (PS x)) with (2 ^ 64) in VB.
  rewrite wrap_small by lia.
  pose proof (land_val _ 0x80 B ltac:(lia)) as L. rewrite map_length in L. change (length (PS x)) with 8%nat in L. rewrite L.
  f_equal. rewrite map_map. rewrite <- (PS_flags x k j 0 128 Hj HW). apply map_ext_in. intros p Hp.
  unfold PS in Hp. rewrite in_map_iff in Hp. destruct Hp as (i & <- & Hi). apply in_zrange in Hi.
  pose proof (wones_bound x 0 (8 * i + 8)).
  assert (HC : byte_check (fun b => Z.land b 128 =? (if b <? 128 then 0 else 128)) = true) by (vm_compute; reflexivity).
  apply byte_check_ok with (b := k + 128 - wones x 0 (8 * i + 8)) in HC; [|lia].
  apply Z.eqb_eq in HC. rewrite HC. destruct (Z.ltb_spec k (wones x 0 (8 * i + 8))).
  - replace (_ <? 128) with true by lia. reflexivity.
  - replace (_ <? 128) with false by lia. reflexivity.
Qed.

Lemma lor_byte_high b r : 0 <= b < 256 -> Z.lor b (256 * r) = b + 256 * r.
Proof.
  intros. replace b with (b + 256 * 0) at 1 by lia. replace (256 * r) with (0 + 256 * r) at 1 by lia.
  rewrite lor_cat by lia. rewrite Z.lor_0_r, Z.lor_0_l. lia.
Qed.

Lemma succinct_tail_ok x k j : 0 <= x < 2 ^ 64 -> 0 <= k < 64 -> 0 <= j < 8 -> wones x 0 (8 * j) <= k < wones x 0 (8 * j + 8) ->
  exists r, succinct_tail x k (val (PS x)) (8 * j) = Ok r /\ wsel x k r.
Proof.
  intros Hx Hk Hj HW. unfold succinct_tail.
  destruct (byte_select select_in_byte x k j select_in_byte_table Hx Hj HW) as (e & E & He & S).
  destruct (byte_room x k j Hj HW) as (R1 & R2). pose proof (xbyte_bound x j) as XB.
  rewrite !shr64_ok by lia. cbn [bind]. rewrite PS_shifted by lia. rewrite xbyte_ok by (auto; lia).
  rewrite (wrap_small 64 (k - _)) by lia. rewrite Z.shiftl_mul_pow2 by lia. rewrite wrap_small by lia.
  change (2 ^ 8) with 256. rewrite (Z.mul_comm _ 256), lor_byte_high by auto. rewrite E. cbn [bind]. eauto.
Qed.

Lemma select_broadword_succinct_ok c x k : 0 <= x < 2 ^ 64 -> 0 <= k < popcount x ->
  exists r, select_broadword_succinct c x k = Ok r /\ wsel x k r.
Proof.
  intros Hx Hk. pose proof (popcount_bound x). destruct (find_byte x k Hk) as (j & Hj & HW).
  unfold select_broadword_succinct. rewrite popcount_u64_broadword by auto. cbn [bind]. rewrite massert_true by lia. cbn [bind].
  rewrite byte_counts_ok. cbv zeta. rewrite (Z.mul_comm (swar3 x)).
  change (u64 (ones_step_8 * swar3 x)) with (u64 (0x0101010101010101 * swar3 x)). rewrite sums_ok by auto.
  rewrite (geq_ok x k j) by (auto; lia).
  assert (EJ : Z.land (Z.shiftr (u64 (Z.shiftr (val (map (fun i => if j <=? i then 0 else 128) (zrange 0 8))) 7 * ones_step_8)) 53) (2 ^ 64 - 1 - 7) = 8 * j).
  { assert (D : j = 0 \/ j = 1 \/ j = 2 \/ j = 3 \/ j = 4 \/ j = 5 \/ j = 6 \/ j = 7) by lia.
    destruct D as [->|[->|[->|[->|[->|[->|[->| ->]]]]]]]; reflexivity. }
  rewrite EJ. apply succinct_tail_ok; auto. lia.
Qed.

Lemma select_sse4_succinct_ok c x k : 0 <= x < 2 ^ 64 -> 0 <= k < popcount x ->
  exists r, select_sse4_succinct c x k = Ok r /\ wsel x k r.
Proof.
  intros Hx Hk. pose proof (popcount_bound x). destruct (find_byte x k Hk) as (j & Hj & HW).
  unfold select_sse4_succinct. rewrite popcount_u64_broadword by auto. cbn [bind]. rewrite massert_true by lia. cbn [bind].
  rewrite byte_counts_ok. cbv zeta. rewrite (Z.mul_comm (swar3 x)).
  change (u64 (ones_step_8 * swar3 x)) with (u64 (0x0101010101010101 * swar3 x)). rewrite sums_ok by auto.
  rewrite (geq_ok x k j) by (auto; lia).
  assert (EJ : popcount (val (map (fun i => if j <=? i then 0 else 128) (zrange 0 8))) * 8 = 8 * j).
  { assert (D : j = 0 \/ j = 1 \/ j = 2 \/ j = 3 \/ j = 4 \/ j = 5 \/ j = 6 \/ j = 7) by lia.
    destruct D as [->|[->|[->|[->|[->|[->|[->| ->]]]]]]]; reflexivity. }
  rewrite EJ. apply succinct_tail_ok; auto. lia.
Qed.

(** *** pdep *)
Lemma ctz_pos_pow n : forall p, Zpos p = 2 ^ Z.of_nat n -> ctz_pos p = Z.of_nat n.
Proof.
  induction n; intros p H.
  - injection H as ->. reflexivity.
  - rewrite Nat2Z.inj_succ, Z.pow_succ_r in H by lia. destruct p; try lia.
    cbn [ctz_pos]. rewrite IHn by lia. lia.
Qed.

Lemma tzcnt64_pow n : 0 <= n -> tzcnt64 (2 ^ n) = n.
Proof.
  intros Hn. assert (0 < 2 ^ n) by (apply Z.pow_pos_nonneg; lia).
  unfold tzcnt64. destruct (2 ^ n) as [|p|p] eqn:E; try lia.
  rewrite (ctz_pos_pow (Z.to_nat n)) by (rewrite Z2Nat.id by lia; auto). lia.
Qed.

Lemma testbit_pow k i : 0 <= k -> Z.testbit (2 ^ k) i = (i =? k).
Proof. intros. rewrite Z.pow2_bits_eqb by lia. apply Z.eqb_sym. Qed.

Lemma pdep_loop_past fuel : forall m k0 k x, 0 <= k < k0 -> pdep_loop fuel m k0 (2 ^ k) x = 0.
Proof.
  induction fuel; intros m k0 k x H; cbn [pdep_loop]; [reflexivity|].
  destruct (Z.testbit x m); [|apply IHfuel; lia]. rewrite testbit_pow by lia.
  replace (k0 =? k) with false by lia. rewrite IHfuel by lia. reflexivity.
Qed.

Lemma pdep_loop_ok fuel : forall m k0 k x, 0 <= k0 <= k -> k - k0 < wones x m (m + Z.of_nat fuel) ->
  exists p, pdep_loop fuel m k0 (2 ^ k) x = 2 ^ p /\ m <= p < m + Z.of_nat fuel /\ Z.testbit x p = true /\ wones x m p = k - k0.
Proof.
  induction fuel; intros m k0 k x H1 H2; cbn [pdep_loop].
  - unfold wones in H2. rewrite sumf_empty in H2 by lia. lia.
  - unfold wones in H2. rewrite sumf_first in H2 by lia. unfold wbit at 1 in H2.
    destruct (Z.testbit x m) eqn:T; cbn [b2z] in H2; fold (wones x (m + 1) (m + Z.of_nat (S fuel))) in H2.
    + rewrite testbit_pow by lia. destruct (Z.eqb_spec k0 k).
      * subst k0. rewrite pdep_loop_past by lia. exists m. split; [lia|]. split; [lia|]. split; [auto|].
        unfold wones. rewrite sumf_empty by lia. lia.
      * destruct (IHfuel (m + 1) (k0 + 1) k x) as (p & P1 & P2 & P3 & P4); [lia|..].
        { replace (m + 1 + Z.of_nat fuel) with (m + Z.of_nat (S fuel)) by lia. lia. }
        exists p. rewrite P1. split; [lia|]. split; [lia|]. split; [auto|].
        unfold wones in *. rewrite sumf_first by lia. unfold wbit at 1. rewrite T. cbn [b2z]. lia.
    + destruct (IHfuel (m + 1) k0 k x) as (p & P1 & P2 & P3 & P4); [lia|..].
      { replace (m + 1 + Z.of_nat fuel) with (m + Z.of_nat (S fuel)) by lia. lia. }
      exists p. rewrite P1. split; [lia|]. split; [lia|]. split; [auto|].
      unfold wones in *. rewrite sumf_first by lia. unfold wbit at 1. rewrite T. cbn [b2z]. lia.
Qed.

Lemma select_pdep_ok x k : 0 <= k < popcount x -> exists r, select_pdep x k = Ok r /\ wsel x k r.
Proof.
  intros Hk. pose proof (popcount_bound x). unfold select_pdep, shl64.
  replace ((0 <=? k) && (k <? 64)) with true by lia. cbn [bind]. rewrite Z.shiftl_1_l.
  assert (2 ^ k < 2 ^ 64) by (apply Z.pow_lt_mono_r; lia). assert (0 < 2 ^ k) by (apply Z.pow_pos_nonneg; lia).
  rewrite wrap_small by lia. rewrite popcount_wones in Hk.
  destruct (pdep_loop_ok 64 0 0 k x) as (p & P1 & P2 & P3 & P4); [lia|change (0 + Z.of_nat 64) with 64; lia|].
  unfold pdep64. rewrite P1, tzcnt64_pow by lia. exists p. split; [reflexivity|]. split; [lia|]. split; [auto|lia].
Qed.

Lemma select_u64_ok c sm x k : 0 <= x < 2 ^ 64 -> 0 <= k < popcount x ->
  exists r, select_u64 c sm x k = Ok r /\ wsel x k r.
Proof.
  intros Hx Hk. destruct sm; cbn [select_u64].
  - apply select_broadword_sdsl_ok; auto.
  - apply select_broadword_succinct_ok; auto.
  - apply select_sse4_sdsl_ok; auto.
  - apply select_sse4_succinct_ok; auto.
  - apply select_pdep_ok; auto.
Qed.

Lemma wsel_unique x k r r' : wsel x k r -> wsel x k r' -> r = r'.
Proof.
  intros (H1 & H2 & H3) (H1' & H2' & H3').
  destruct (Z.lt_trichotomy r r') as [L|[E|L]]; auto; exfalso.
  - rewrite (wones_split x 0 (r + 1) r') in H3' by lia. unfold wones in *. rewrite sumf_succ in H3' by lia.
    unfold wbit at 2 in H3'. rewrite H2 in H3'. cbn [b2z] in H3'. pose proof (wones_bound x (r + 1) r'). unfold wones in *. lia.
  - rewrite (wones_split x 0 (r' + 1) r) in H3 by lia. unfold wones in *. rewrite sumf_succ in H3 by lia.
    unfold wbit at 2 in H3. rewrite H2' in H3. cbn [b2z] in H3. pose proof (wones_bound x (r' + 1) r). unfold wones in *. lia.
Qed.
