(** The in-word functions of include/poppy/popcount.h and what select returns. *)
From Coq Require Import ZifyBool.
From Verif Require Import Base BaseFacts Words WordFacts BlockFacts NodeFacts Spec BitmapFacts ProgramFacts SpecPoppy Poppy PoppyFacts.
Ltac Zify.zify_post_hook ::= Z.div_mod_to_equations.

(** ** suxpopcount *)
Lemma suxpopcount_ok x : 0 <= x < 2 ^ 64 -> suxpopcount x = popcount x.
Proof.
  intros Hx. change (suxpopcount x) with (Z.shiftr (u64 (byte_counts x * 0x0101010101010101)) 56).
  rewrite byte_counts_ok, Z.mul_comm. pose proof (popcount_u64_broadword {| c_debug := true; c_avx2 := true; c_avx512 := true; c_trap := true |} x Hx) as E.
  cbn [popcount_u64] in E. injection E as E. exact E.
Qed.

(** ** Selection from the top of a W-bit value *)
Definition wb (W x t : Z) : Z := wbit x (W - 1 - t).
Definition msel (W x k s : Z) : Prop := 0 <= s < W /\ wb W x s = 1 /\ sumf (wb W x) 0 s = k - 1.

Lemma sum_wb W x : 0 <= W -> sumf (wb W x) 0 W = sumf (wbit x) 0 W.
Proof. intros H. unfold wb. apply (sumf_rev (wbit x) W H). Qed.

Lemma bits_above x W i : 0 <= x < 2 ^ W -> 0 <= W <= i -> Z.testbit x i = false.
Proof.
  intros Hx Hi. destruct (Z.eq_dec x 0) as [->|]; [apply Z.bits_0|]. apply Z.bits_above_log2; [lia|].
  apply Z.log2_lt_pow2; [lia|]. apply Z.lt_le_trans with (2 ^ W); [lia|]. apply Z.pow_le_mono_r; lia.
Qed.

Lemma popcount_narrow W x : 0 <= W <= 64 -> 0 <= x < 2 ^ W -> popcount x = sumf (wb W x) 0 W.
Proof.
  intros HW Hx. rewrite sum_wb by lia. rewrite popcount_wones. unfold wones. rewrite (sumf_split _ 0 W 64) by lia.
  rewrite (sumf_const0 _ W 64); [lia|]. intros i Hi. unfold wbit. rewrite (bits_above x W i) by lia. reflexivity.
Qed.

Lemma msel_unique W x k s s' : msel W x k s -> msel W x k s' -> s = s'.
Proof.
  intros (A & B & C) (A' & B' & C'). destruct (Z.lt_trichotomy s s') as [L|[E|L]]; [|exact E|].
  - pose proof (sumf_succ (wb W x) 0 s ltac:(lia)) as S.
    pose proof (sumf_mono (wb W x) 0 (s + 1) s' ltac:(lia) ltac:(intros; apply wbit_01)). lia.
  - pose proof (sumf_succ (wb W x) 0 s' ltac:(lia)) as S.
    pose proof (sumf_mono (wb W x) 0 (s' + 1) s ltac:(lia) ltac:(intros; apply wbit_01)). lia.
Qed.

Lemma high_half h x : 0 < h -> 0 <= x < 2 ^ (2 * h) -> 0 <= Z.shiftr x h < 2 ^ h /\
  forall t, 0 <= t < h -> wb h (Z.shiftr x h) t = wb (2 * h) x t.
Proof.
  intros Hh Hx. split.
  - rewrite Z.shiftr_div_pow2 by lia. split; [apply Z.div_pos; [lia|apply Z.pow_pos_nonneg; lia]|].
    apply Z.div_lt_upper_bound; [apply Z.pow_pos_nonneg; lia|]. rewrite <- Z.pow_add_r by lia. replace (h + h) with (2 * h) by lia. lia.
  - intros t Ht. unfold wb, wbit. rewrite Z.shiftr_spec by lia. f_equal. f_equal. lia.
Qed.

Lemma low_half h x : 0 < h < 64 -> 0 <= Z.land x (u64 (Z.shiftl 1 h) - 1) < 2 ^ h /\
  forall t, 0 <= t < h -> wb h (Z.land x (u64 (Z.shiftl 1 h) - 1)) t = wb (2 * h) x (h + t).
Proof.
  intros Hh. rewrite Z.shiftl_1_l. assert (2 ^ h < 2 ^ 64) by (apply Z.pow_lt_mono_r; lia).
  assert (0 < 2 ^ h) by (apply Z.pow_pos_nonneg; lia). rewrite wrap_small by lia.
  replace (2 ^ h - 1) with (Z.ones h) by (rewrite Z.ones_equiv; lia). split.
  - rewrite Z.land_ones by lia. apply Z.mod_pos_bound. lia.
  - intros t Ht. unfold wb, wbit. rewrite Z.land_spec, Z.ones_spec_low by lia. rewrite andb_true_r. f_equal. f_equal. lia.
Qed.

(** One halving step: whatever is found in the half is found in the whole. *)
Lemma search_step_ok h x loc k x' loc' k' : 0 < h < 64 -> 2 * h <= 64 -> 0 <= x < 2 ^ (2 * h) -> 1 <= k <= popcount x ->
  search_step (x, loc, k) h = (x', loc', k') ->
  0 <= x' < 2 ^ h /\ 1 <= k' <= popcount x' /\
  forall r, (exists s, msel h x' k' s /\ r = loc' + 1 + s) -> exists s, msel (2 * h) x k s /\ r = loc + 1 + s.
Proof.
  intros Hh H2 Hx Hk. destruct (high_half h x ltac:(lia) Hx) as (HB & HE). destruct (low_half h x Hh) as (LB & LE).
  assert (EH : popcount (Z.shiftr x h) = sumf (wb (2 * h) x) 0 h).
  { rewrite (popcount_narrow h) by lia. apply sumf_ext. exact HE. }
  assert (EX : popcount x = sumf (wb (2 * h) x) 0 h + sumf (wb (2 * h) x) h (2 * h)).
  { rewrite (popcount_narrow (2 * h)) by lia. apply sumf_split. lia. }
  assert (ES : forall s, 0 <= s <= h -> sumf (wb h (Z.land x (u64 (Z.shiftl 1 h) - 1))) 0 s = sumf (wb (2 * h) x) h (h + s)).
  { intros s Hs. transitivity (sumf (wb (2 * h) x) (0 + h) (s + h)); [|f_equal; lia]. rewrite <- (sumf_shift (wb (2 * h) x) 0 s h).
    apply sumf_ext. intros t Ht. rewrite LE by lia. f_equal. lia. }
  unfold search_step. cbv zeta. destruct (k >? popcount (Z.shiftr x h)) eqn:E; intros Q; injection Q as <- <- <-.
  - split; [exact LB|]. split.
    { rewrite (popcount_narrow h _ ltac:(lia) LB). rewrite ES by lia. replace (h + h) with (2 * h) by lia. lia. }
    intros r (s & (M1 & M2 & M3) & ->). exists (h + s). split; [|lia]. split; [lia|]. rewrite LE in M2 by lia. split; [exact M2|].
    rewrite ES in M3 by lia. rewrite (sumf_split _ 0 h (h + s)) by lia. lia.
  - split; [exact HB|]. split; [lia|]. intros r (s & (M1 & M2 & M3) & ->). exists s. split; [|lia]. split; [lia|].
    rewrite HE in M2 by lia. split; [exact M2|]. rewrite <- M3. apply sumf_ext. intros t Ht. symmetry. apply HE. lia.
Qed.

Lemma select64_popcount_search_ok x k : 0 <= x < 2 ^ 64 -> 1 <= k <= popcount x -> msel 64 x k (select64_popcount_search x k).
Proof.
  intros Hx Hk. unfold select64_popcount_search. cbn [fold_left].
  destruct (search_step (x, -1, k) 32) as [[x1 l1] k1] eqn:E1.
  destruct (search_step_ok 32 x (-1) k x1 l1 k1 ltac:(lia) ltac:(lia) Hx Hk E1) as (B1 & K1 & R1).
  destruct (search_step (x1, l1, k1) 16) as [[x2 l2] k2] eqn:E2.
  destruct (search_step_ok 16 x1 l1 k1 x2 l2 k2 ltac:(lia) ltac:(lia) B1 K1 E2) as (B2 & K2 & R2).
  destruct (search_step (x2, l2, k2) 8) as [[x3 l3] k3] eqn:E3.
  destruct (search_step_ok 8 x2 l2 k2 x3 l3 k3 ltac:(lia) ltac:(lia) B2 K2 E3) as (B3 & K3 & R3).
  destruct (search_step (x3, l3, k3) 4) as [[x4 l4] k4] eqn:E4.
  destruct (search_step_ok 4 x3 l3 k3 x4 l4 k4 ltac:(lia) ltac:(lia) B3 K3 E4) as (B4 & K4 & R4).
  destruct (search_step (x4, l4, k4) 2) as [[x5 l5] k5] eqn:E5.
  destruct (search_step_ok 2 x4 l4 k4 x5 l5 k5 ltac:(lia) ltac:(lia) B4 K4 E5) as (B5 & K5 & R5).
  destruct (search_step (x5, l5, k5) 1) as [[x6 l6] k6] eqn:E6.
  destruct (search_step_ok 1 x5 l5 k5 x6 l6 k6 ltac:(lia) ltac:(lia) B5 K5 E6) as (B6 & K6 & R6).
  destruct (R1 (l6 + k6)) as (s & M & ->).
  { apply R2, R3, R4, R5, R6. pose proof (popcount_narrow 1 x6 ltac:(lia) B6) as P. change (sumf (wb 1 x6) 0 1) with (wb 1 x6 0 + 0) in P.
    pose proof (wbit_01 x6 (1 - 1 - 0)) as Q. fold (wb 1 x6 0) in Q. exists 0. split; [|lia]. split; [lia|]. split; [lia|].
    change (sumf (wb 1 x6) 0 0) with 0. lia. }
  replace (-1 + 1 + s) with s by lia. exact M.
Qed.

Lemma naive_loop_ok x : forall fuel cnt k, 0 <= cnt -> cnt + Z.of_nat fuel = 64 -> 1 <= k ->
  (k <= sumf (wb 64 x) cnt 64 -> exists s, select64_naive_loop fuel cnt x k = s /\ cnt <= s < 64 /\ wb 64 x s = 1 /\ sumf (wb 64 x) cnt s = k - 1) /\
  (sumf (wb 64 x) cnt 64 < k -> select64_naive_loop fuel cnt x k = -1).
Proof.
  induction fuel as [|f IH]; intros cnt k Hc Hf Hk; cbn [select64_naive_loop].
  - replace cnt with 64 by lia. rewrite (sumf_empty _ 64 64) by lia. split; [lia|reflexivity].
  - pose proof (sumf_first (wb 64 x) cnt 64 ltac:(lia)) as S. assert (EW : wb 64 x cnt = b2z (Z.testbit x (63 - cnt))) by reflexivity.
    destruct (Z.testbit x (63 - cnt)) eqn:T; cbn [b2z] in EW.
    + destruct (Z.eqb_spec (k - 1) 0) as [E|E].
      * split; [|pose proof (sumf_nonneg (wb 64 x) (cnt + 1) 64 ltac:(intros; apply wbit_01)); lia].
        intros _. exists cnt. split; [reflexivity|]. split; [lia|]. split; [exact EW|]. rewrite sumf_empty by lia. lia.
      * destruct (IH (cnt + 1) (k - 1) ltac:(lia) ltac:(lia) ltac:(lia)) as (I1 & I2). split; intros H; [|apply I2; lia].
        destruct (I1 ltac:(lia)) as (s & Es & Hs & Ws & Ss). exists s. split; [exact Es|]. split; [lia|]. split; [exact Ws|].
        rewrite sumf_first by lia. lia.
    + destruct (IH (cnt + 1) k ltac:(lia) ltac:(lia) ltac:(lia)) as (I1 & I2). split; intros H; [|apply I2; lia].
      destruct (I1 ltac:(lia)) as (s & Es & Hs & Ws & Ss). exists s. split; [exact Es|]. split; [lia|]. split; [exact Ws|].
      rewrite sumf_first by lia. lia.
Qed.

Lemma naive_low x : forall fuel cnt k, k <= 0 -> select64_naive_loop fuel cnt x k = -1.
Proof.
  induction fuel as [|f IH]; intros cnt k Hk; cbn [select64_naive_loop]; [reflexivity|].
  destruct (Z.testbit x (63 - cnt)); [|apply IH; lia]. replace (k - 1 =? 0) with false by lia. apply IH. lia.
Qed.

Lemma select64_naive_ok x k : 0 <= x < 2 ^ 64 ->
  (1 <= k <= popcount x -> msel 64 x k (select64_naive x k)) /\ (k < 1 \/ popcount x < k -> select64_naive x k = -1).
Proof.
  intros Hx. rewrite (popcount_narrow 64) by lia. unfold select64_naive. split.
  - intros Hk. destruct (naive_loop_ok x 64 0 k ltac:(lia) ltac:(reflexivity) ltac:(lia)) as (I1 & _).
    destruct (I1 ltac:(lia)) as (s & -> & Hs & Ws & Ss). split; [lia|]. auto.
  - intros [Hk|Hk]; [apply naive_low; lia|]. destruct (Z_le_gt_dec k 0); [apply naive_low; lia|].
    apply (naive_loop_ok x 64 0 k); [lia|reflexivity|lia|exact Hk].
Qed.

(** ** pdep *)
Lemma pdep_none fuel : forall m k0 k x, 0 <= k0 -> 0 <= k -> wones x m (m + Z.of_nat fuel) <= k - k0 -> pdep_loop fuel m k0 (2 ^ k) x = 0.
Proof.
  induction fuel as [|f IH]; intros m k0 k x H0 Hk H; cbn [pdep_loop]; [reflexivity|].
  unfold wones in H. rewrite sumf_first in H by lia. unfold wbit at 1 in H.
  pose proof (wones_bound x (m + 1) (m + Z.of_nat (S f)) ltac:(lia)) as B. unfold wones in B.
  destruct (Z.testbit x m); cbn [b2z] in H.
  - rewrite testbit_pow by lia. replace (k0 =? k) with false by lia. rewrite IH; [reflexivity|lia|lia|].
    unfold wones. replace (m + 1 + Z.of_nat f) with (m + Z.of_nat (S f)) by lia. lia.
  - apply IH; [lia|lia|]. unfold wones. replace (m + 1 + Z.of_nat f) with (m + Z.of_nat (S f)) by lia. lia.
Qed.

Lemma select64_cases w k : 1 <= k <= popcount w ->
  (k < popcount w /\ exists s, select64 w k = Ok s /\ wsel w k s) \/
  (k = popcount w /\ k < 64 /\ select64 w k = Ok 64) \/
  (k = popcount w /\ k = 64 /\ select64 w k = Ub UB_shift).
Proof.
  intros Hk. pose proof (popcount_bound w) as B. destruct (Z_lt_le_dec k (popcount w)) as [H|H].
  - left. split; [exact H|]. exact (select_pdep_ok w k ltac:(lia)).
  - right. destruct (Z.eq_dec k 64) as [->|H64].
    + right. split; [lia|]. split; reflexivity.
    + left. split; [lia|]. split; [lia|]. unfold select64, select64_pdep_tzcnt, shl64.
      replace ((0 <=? k) && (k <? 64)) with true by lia. cbn [bind]. rewrite Z.shiftl_1_l.
      assert (2 ^ k < 2 ^ 64) by (apply Z.pow_lt_mono_r; lia). assert (0 < 2 ^ k) by (apply Z.pow_pos_nonneg; lia).
      rewrite wrap_small by lia. unfold pdep64. rewrite pdep_none; [reflexivity|lia|lia|].
      rewrite <- popcount_wones. lia.
Qed.

Lemma popcount_64 w : 0 <= w < 2 ^ 64 -> (popcount w = 64 <-> w = 2 ^ 64 - 1).
Proof.
  intros Hw. split; [|intros ->; reflexivity]. intros H. apply Z.bits_inj'. intros i Hi.
  change (2 ^ 64 - 1) with (Z.ones 64). destruct (Z_lt_le_dec i 64) as [L|L].
  - rewrite Z.ones_spec_low by lia. rewrite popcount_wones in H.
    rewrite (wones_split w 0 i 64) in H by lia. rewrite (wones_split w i (i + 1) 64) in H by lia.
    pose proof (wones_bound w 0 i ltac:(lia)). pose proof (wones_bound w (i + 1) 64 ltac:(lia)).
    assert (E : wones w i (i + 1) = wbit w i) by apply sumf_one. unfold wbit in E. destruct (Z.testbit w i); [reflexivity|]. cbn [b2z] in E. lia.
  - rewrite Z.ones_spec_high by lia. apply (bits_above w 64 i); lia.
Qed.

(** ** select64_broadword *)
Lemma land_xor3 d a b m : Z.land a m = 0 -> Z.land b m = 0 -> Z.land (Z.lxor (Z.lxor d a) b) m = Z.land d m.
Proof.
  intros Ha Hb. apply Z.bits_inj'. intros i Hi. rewrite !Z.land_spec, !Z.lxor_spec.
  pose proof (f_equal (fun z => Z.testbit z i) Ha) as Ta. pose proof (f_equal (fun z => Z.testbit z i) Hb) as Tb. cbv beta in Ta, Tb.
  rewrite Z.land_spec, Z.bits_0 in Ta, Tb. destruct (Z.testbit m i); [|rewrite !andb_false_r; reflexivity].
  rewrite andb_true_r in Ta, Tb. rewrite Ta, Tb. rewrite !xorb_false_r. reflexivity.
Qed.

Lemma map_same {A} (f : A -> A) l : Forall (fun x => f x = x) l -> map f l = l.
Proof. induction 1; cbn; congruence. Qed.

Lemma PS_small x : Forall (fun b => 0 <= b < 128) (PS x).
Proof.
  unfold PS. rewrite Forall_map, Forall_forall. intros i Hi. apply in_zrange in Hi. pose proof (wones_bound x 0 (8 * i + 8)). lia.
Qed.

Lemma leq_sums x k : 0 <= x < 2 ^ 64 -> 0 <= k < 64 ->
  leq_step_8 (val (PS x)) (u64 (k * ones_step_8)) = Z.shiftr (geq_k_step_8 (val (PS x)) k) 7.
Proof.
  intros Hx Hk. unfold leq_step_8, geq_k_step_8. cbv zeta.
  assert (EK : u64 (k * ones_step_8) = rep 8 k).
  { rewrite (rep_mul 8 k). change (rep 8 1) with ones_step_8. apply wrap_small. unfold ones_step_8. lia. }
  assert (LX : Z.land (val (PS x)) (2 ^ 64 - 1 - msbs_step_8) = val (PS x)).
  { change (2 ^ 64 - 1 - msbs_step_8) with (rep (length (PS x)) 127). rewrite land_val by (auto using PS_bytes; lia). f_equal.
    apply map_same. eapply Forall_impl; [|apply PS_small]. intros b Hb. cbv beta in Hb. change 127 with (Z.ones 7). rewrite Z.land_ones by lia.
    apply Z.mod_small. lia. }
  assert (MX : Z.land (val (PS x)) msbs_step_8 = 0).
  { change msbs_step_8 with (rep (length (PS x)) 128). rewrite land_val by (auto using PS_bytes; lia).
    transitivity (val (map (fun _ => 0) (PS x))); [|reflexivity]. f_equal. apply map_ext_in. intros b Hb.
    pose proof (proj1 (Forall_forall _ _) (PS_small x) b Hb) as HB. cbv beta in HB.
    assert (HC : byte_check (fun b => (128 <=? b) || (Z.land b 128 =? 0)) = true) by (vm_compute; reflexivity).
    apply byte_check_ok with (b := b) in HC; lia. }
  assert (MK : Z.land (u64 (k * ones_step_8)) msbs_step_8 = 0).
  { rewrite EK. clear EK LX MX. assert (HC : forallb (fun k => Z.land (rep 8 k) msbs_step_8 =? 0) (zrange 0 64) = true) by (vm_compute; reflexivity).
    rewrite forallb_forall in HC. specialize (HC k (proj2 (in_zrange k 0 64) ltac:(lia))). cbv beta in HC. lia. }
  rewrite land_xor3 by auto. rewrite LX. reflexivity.
Qed.

(** The position of the (r+1)-th one of byte b, as lines 180-187 compute it. *)
Definition tail (b r : Z) : Z :=
  Z.shiftr (u64 (leq_step_8 (u64 (zcompare_step_8 (Z.land (u64 (b * ones_step_8)) incr_step_8) * ones_step_8))
                            (u64 (r * ones_step_8)) * ones_step_8)) 56.
Definition tail_table : list Z := map (fun i => tail (i mod 256) (i / 256)) (zrange 0 2048).
Lemma tail_table_ok : sel_table tail_table = true.
Proof. vm_compute. reflexivity. Qed.

Lemma select64_broadword_ok x k : 0 <= x < 2 ^ 64 -> 0 <= k < popcount x ->
  exists r, select64_broadword x k = Ok r /\ wsel x k r.
Proof.
  intros Hx Hk. pose proof (popcount_bound x). destruct (find_byte x k Hk) as (j & Hj & HW).
  unfold select64_broadword. rewrite byte_counts_ok. cbv zeta. rewrite (Z.mul_comm (swar3 x)).
  change (u64 (ones_step_8 * swar3 x)) with (u64 (0x0101010101010101 * swar3 x)). rewrite sums_ok by auto.
  rewrite leq_sums by (auto; lia). rewrite (geq_ok x k j) by (auto; lia).
  assert (EJ : Z.land (Z.shiftr (u64 (Z.shiftr (val (map (fun i => if j <=? i then 0 else 128) (zrange 0 8))) 7 * ones_step_8)) 53) (2 ^ 64 - 1 - 7) = 8 * j).
  { assert (D : j = 0 \/ j = 1 \/ j = 2 \/ j = 3 \/ j = 4 \/ j = 5 \/ j = 6 \/ j = 7) by lia.
    destruct D as [->|[->|[->|[->|[->|[->|[->| ->]]]]]]]; reflexivity. }
  rewrite EJ. destruct (byte_room x k j Hj HW) as (R1 & R2). pose proof (xbyte_bound x j) as XB.
  rewrite !shr64_ok by lia. cbn [bind]. rewrite PS_shifted by lia. rewrite xbyte_ok by (auto; lia).
  set (r := k - wones x 0 (8 * j)) in *. rewrite (wrap_small 64 r) by lia. rewrite (wrap_small 32 r) by lia.
  assert (ER : sgn 32 r = r) by (unfold sgn; replace (r <? 2 ^ (32 - 1)) with true by lia; reflexivity). rewrite ER.
  fold (tail (xbyte x j) r).
  destruct (byte_select tail_table x k j tail_table_ok Hx Hj HW) as (e & E & He & S). fold r in E.
  apply geti_inv in E. destruct E as (_ & E). unfold tail_table in E.
  rewrite (zn_map _ 0 0) in E by (unfold zlen; rewrite length_zrange; lia).
  rewrite zn_zrange in E by lia. replace ((0 + (xbyte x j + 256 * r)) mod 256) with (xbyte x j) in E by lia.
  replace ((0 + (xbyte x j + 256 * r)) / 256) with r in E by lia.
  subst e. eexists. split; [reflexivity|exact S].
Qed.

(** ** select in terms of the two numberings *)
Lemma whole_words ws : words ws -> forall j, 0 <= j -> ms ws 0 (64 * j) = sumf (gbit ws) 0 (64 * j).
Proof.
  intros W j Hj. pattern j. apply natlike_ind; [reflexivity| |exact Hj]. intros i Hi IH. unfold Z.succ.
  rewrite (ms_split ws 0 (64 * i) (64 * (i + 1))) by lia. rewrite (sumf_split _ 0 (64 * i) (64 * (i + 1))) by lia.
  rewrite IH, <- full_word, <- popcount_gbit by (auto; lia). reflexivity.
Qed.

(** Position of a bit selected inside word j. *)
Lemma wsel_select ws j k s : words ws -> 0 <= j < zlen ws -> wsel (zn 0 ws j) k s ->
  is_select (bits_of_words ws) (ms ws 0 (64 * j) + k) (64 * j + s).
Proof.
  intros W Hj (H1 & H2 & H3). split; [rewrite zlen_bits; lia|]. split.
  - rewrite bit_words by lia. replace ((64 * j + s) / 64) with j by lia. replace ((64 * j + s) mod 64) with s by lia. exact H2.
  - rewrite ones_words by lia. rewrite (sumf_split _ 0 (64 * j) (64 * j + s)) by lia. rewrite <- whole_words by (auto; lia). f_equal.
    replace (64 * j) with (0 + 64 * j) at 1 by lia. replace (64 * j + s) with (s + 64 * j) by lia. rewrite <- sumf_shift.
    rewrite <- H3. apply sumf_ext. intros t Ht. unfold gbit. replace ((t + 64 * j) / 64) with j by lia.
    replace ((t + 64 * j) mod 64) with t by lia. reflexivity.
Qed.

Lemma msel_select ws j k s : words ws -> 0 <= j < zlen ws -> msel 64 (zn 0 ws j) k s ->
  is_select (bits_msb ws) (ms ws 0 (64 * j) + k - 1) (64 * j + s).
Proof.
  intros W Hj (H1 & H2 & H3). split; [rewrite zlen_bits_msb; lia|]. split.
  - rewrite bit_msb by lia. replace ((64 * j + s) / 64) with j by lia. replace ((64 * j + s) mod 64) with s by lia.
    unfold wb, wbit in H2. change (64 - 1 - s) with (63 - s) in H2. destruct (Z.testbit (zn 0 ws j) (63 - s)); [reflexivity|discriminate].
  - rewrite ones_msb by lia. rewrite (ms_split ws 0 (64 * j) (64 * j + s)) by lia.
    replace (ms ws (64 * j) (64 * j + s)) with (k - 1); [lia|]. rewrite <- H3. unfold ms.
    replace (64 * j) with (0 + 64 * j) at 1 by lia. replace (64 * j + s) with (s + 64 * j) by lia. rewrite <- sumf_shift.
    apply sumf_ext. intros t Ht. unfold mb, wb. replace ((t + 64 * j) / 64) with j by lia.
    replace ((t + 64 * j) mod 64) with t by lia. f_equal.
Qed.

(** The word of the (k+1)-th one, in the ordinary numbering. *)
Lemma select_in_word ws k p : words ws -> is_select (bits_of_words ws) k p -> in_word ws (k + 1) (p / 64).
Proof.
  intros W (H1 & H2 & H3). rewrite zlen_bits in H1. split; [lia|]. rewrite !whole_words by (auto; lia).
  rewrite <- !ones_words by lia.
  pose proof (ones_before_mono (bits_of_words ws) (64 * (p / 64)) p ltac:(lia) ltac:(rewrite zlen_bits; lia)).
  pose proof (ones_before_mono (bits_of_words ws) (p + 1) (64 * (p / 64 + 1)) ltac:(lia) ltac:(rewrite zlen_bits; lia)).
  pose proof (ones_before_succ (bits_of_words ws) p ltac:(rewrite zlen_bits; lia)) as S. rewrite H2 in S. cbn [b2z] in S. lia.
Qed.

Lemma select_in_word_msb ws k p : words ws -> is_select (bits_msb ws) k p -> in_word ws (k + 1) (p / 64).
Proof.
  intros W (H1 & H2 & H3). rewrite zlen_bits_msb in H1. split; [lia|]. rewrite <- !ones_msb by lia.
  pose proof (ones_before_mono (bits_msb ws) (64 * (p / 64)) p ltac:(lia) ltac:(rewrite zlen_bits_msb; lia)).
  pose proof (ones_before_mono (bits_msb ws) (p + 1) (64 * (p / 64 + 1)) ltac:(lia) ltac:(rewrite zlen_bits_msb; lia)).
  pose proof (ones_before_succ (bits_msb ws) p ltac:(rewrite zlen_bits_msb; lia)) as S. rewrite H2 in S. cbn [b2z] in S. lia.
Qed.

Lemma word_rank ws k p : words ws -> is_select (bits_of_words ws) k p ->
  wsel (zn 0 ws (p / 64)) (k - ms ws 0 (64 * (p / 64))) (p mod 64).
Proof.
  intros W H. pose proof H as (H1 & H2 & H3). rewrite zlen_bits in H1. split; [lia|]. rewrite bit_words in H2 by lia. split; [exact H2|].
  rewrite ones_words in H3 by lia. rewrite whole_words by (auto; lia).
  rewrite (sumf_split _ 0 (64 * (p / 64)) p) in H3 by lia. enough (wones (zn 0 ws (p / 64)) 0 (p mod 64) = sumf (gbit ws) (64 * (p / 64)) p) by lia.
  transitivity (sumf (gbit ws) (0 + 64 * (p / 64)) (p mod 64 + 64 * (p / 64))); [|f_equal; lia].
  rewrite <- sumf_shift. apply sumf_ext. intros t Ht. unfold gbit. replace ((t + 64 * (p / 64)) / 64) with (p / 64) by lia.
  replace ((t + 64 * (p / 64)) mod 64) with t by lia. reflexivity.
Qed.

Lemma poppy_select_ok dbg ws t k p : words ws -> 64 * zlen ws <= 2 ^ 32 -> pinv ws t ->
  0 <= k < ms ws 0 (rank_bits (64 * zlen ws)) -> is_select (bits_of_words ws) k p ->
  (zn 0 ws (p / 64) = 2 ^ 64 - 1 /\ p mod 64 = 63 -> poppy_select dbg t (k + 1) = Ub UB_shift) /\
  (~ (zn 0 ws (p / 64) = 2 ^ 64 - 1 /\ p mod 64 = 63) ->
     exists q, poppy_select dbg t (k + 1) = Ok q /\ next_in_word ws k p q).
Proof.
  intros W Hn I Hk HS. unfold poppy_select.
  destruct (poppy_select_word select64 dbg ws t (k + 1) W Hn I ltac:(lia)) as (j & IW & Hj & E).
  pose proof (in_word_unique ws _ _ _ IW (select_in_word ws k p W HS)) as ->. set (j := p / 64) in *.
  pose proof (word_rank ws k p W HS) as WR. fold j in WR.
  set (r := k + 1 - ms ws 0 (64 * j)) in *. destruct IW as (J1 & J2).
  pose proof (ms_split ws 0 (64 * j) (64 * (j + 1)) ltac:(lia)) as SJ.
  pose proof (full_word ws j W ltac:(lia)) as FW.
  destruct (select64_cases (zn 0 ws j) r ltac:(unfold r; lia)) as [(L & s & Es & Ws)|[(L & L2 & Es)|(L & L2 & Es)]];
    rewrite Es in E; cbn [bind] in E.
  - split.
    + intros (F1 & F2). exfalso. rewrite F1 in *. rewrite F2 in WR. destruct WR as (_ & _ & WR).
      change (wones (2 ^ 64 - 1) 0 63) with 63 in WR. change (popcount (2 ^ 64 - 1)) with 64 in L. unfold r in L. lia.
    + intros _. exists (64 * j + s). split; [rewrite E; f_equal; apply wrap_small; destruct Ws; lia|]. split; [exact HS|]. left.
      pose proof (wsel_select ws j r s W J1 Ws) as Q. replace (ms ws 0 (64 * j) + r) with (k + 1) in Q by (unfold r; lia).
      split; [exact Q|]. fold j. destruct Ws. lia.
  - split.
    + intros (F1 & F2). exfalso. rewrite F1 in L. change (popcount (2 ^ 64 - 1)) with 64 in L. lia.
    + intros _. exists (64 * (j + 1)). split; [rewrite E; f_equal; rewrite wrap_small; lia|]. split; [exact HS|]. right. split; [|reflexivity].
      intros q Hq Eq. pose proof (select_in_word ws (k + 1) q W Hq) as (Q1 & Q2). rewrite Eq in Q2. fold j in Q2. unfold r in L. lia.
  - split; [intros _; exact E|]. intros F. exfalso. apply F. rewrite L2 in L. symmetry in L.
    assert (EW : zn 0 ws j = 2 ^ 64 - 1) by (apply popcount_64; [apply word_at; auto|exact L]). split; [exact EW|].
    rewrite EW in WR. destruct WR as (W1 & _ & W3). unfold r in L2.
    pose proof (wones_bound (2 ^ 64 - 1) 0 (p mod 64) ltac:(lia)). lia.
Qed.

(** With the commented-out alternative of select64, select is the inverse of rank. *)
Lemma poppy_select_search dbg ws t k p : words ws -> 64 * zlen ws <= 2 ^ 32 -> pinv ws t ->
  0 <= k < ms ws 0 (rank_bits (64 * zlen ws)) -> is_select (bits_msb ws) k p ->
  poppy_select_with (fun x k => Ok (select64_popcount_search x k)) dbg t (k + 1) = Ok p.
Proof.
  intros W Hn I Hk HS.
  destruct (poppy_select_word (fun x k => Ok (select64_popcount_search x k)) dbg ws t (k + 1) W Hn I ltac:(lia)) as (j & (J1 & J2) & Hj & ->).
  cbn [bind]. pose proof (ms_split ws 0 (64 * j) (64 * (j + 1)) ltac:(lia)) as SJ. pose proof (full_word ws j W ltac:(lia)) as FW.
  pose proof (select64_popcount_search_ok (zn 0 ws j) (k + 1 - ms ws 0 (64 * j)) (word_at ws j W) ltac:(lia)) as M.
  pose proof (msel_select ws j _ _ W J1 M) as Q.
  replace (ms ws 0 (64 * j) + (k + 1 - ms ws 0 (64 * j)) - 1) with k in Q by lia.
  rewrite (is_select_unique _ _ _ _ HS Q). f_equal. apply wrap_small. destruct M. lia.
Qed.
