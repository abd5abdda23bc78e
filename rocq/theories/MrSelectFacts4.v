(** The queries of SelectBasic64 inside a block. *)
From Coq Require Import ZifyBool.
From Verif Require Import Base BaseFacts Mem MemFacts Words WordFacts BlockFacts NodeFacts Trees TreeBuild Spec BitmapFacts KernelFacts SpecPoppy PoppyFacts PoppyFacts2 SpecText MrRank MrRankFacts MrRankFacts2 MrSelect MrSelectFacts MrSelectFacts2 MrSelectFacts3.
Ltac Zify.zify_post_hook ::= Z.div_mod_to_equations.

(** ** Bits of a stored byte *)
Fixpoint hb (t : list Z) (a : Z) (n : nat) : Z := match n with O => 0 | S m => 2 * hb t a m + tb t (a + Z.of_nat m) end.
Lemma bpart_hb t a n : (n <= 8)%nat -> bpart t a (Z.of_nat n) = 2 ^ (8 - Z.of_nat n) * hb t a n.
Proof.
  induction n as [|n IH]; intros Hn; [reflexivity|]. replace (Z.of_nat (S n)) with (Z.of_nat n + 1) by lia. rewrite bpart_succ by lia.
  rewrite IH by lia. cbn [hb]. replace (8 - Z.of_nat n) with (7 - Z.of_nat n + 1) by lia. rewrite Z.pow_add_r by lia.
  replace (8 - (Z.of_nat n + 1)) with (7 - Z.of_nat n) by lia. ring.
Qed.
Lemma hb_bit t a n : forall k, 0 <= k -> wbit (hb t a n) k = if k <? Z.of_nat n then tb t (a + (Z.of_nat n - 1 - k)) else 0.
Proof.
  induction n as [|n IH]; intros k Hk; [unfold wbit; cbn [hb]; rewrite Z.bits_0; destruct (k <? Z.of_nat 0) eqn:E; [lia|reflexivity]|].
  cbn [hb]. assert (EB : tb t (a + Z.of_nat n) = Z.b2z (tb t (a + Z.of_nat n) =? 1)) by (destruct (tb_cases t (a + Z.of_nat n)) as [->| ->]; reflexivity).
  destruct (Z.eq_dec k 0) as [->|NE].
  - unfold wbit. rewrite EB at 1. rewrite Z.testbit_0_r. replace (0 <? Z.of_nat (S n)) with true by lia.
    replace (Z.of_nat (S n) - 1 - 0) with (Z.of_nat n) by lia. destruct (tb_cases t (a + Z.of_nat n)) as [->| ->]; reflexivity.
  - specialize (IH (k - 1) ltac:(lia)). unfold wbit in *. rewrite EB at 1. replace k with (Z.succ (k - 1)) at 1 by lia. rewrite Z.testbit_succ_r by lia. rewrite IH.
    replace (k <? Z.of_nat (S n)) with (k - 1 <? Z.of_nat n) by lia. destruct (k - 1 <? Z.of_nat n); [f_equal; lia|reflexivity].
Qed.
Lemma bpart_bit t a m u : 0 <= m <= 8 -> 0 <= u < 8 -> wbit (bpart t a m) (7 - u) = if u <? m then tb t (a + u) else 0.
Proof.
  intros Hm Hu. replace m with (Z.of_nat (Z.to_nat m)) in * by lia. set (n := Z.to_nat m) in *. clearbody n. rewrite bpart_hb by lia.
  unfold wbit. rewrite Z.mul_comm, <- Z.shiftl_mul_pow2 by lia. rewrite Z.shiftl_spec by lia.
  destruct (u <? Z.of_nat n) eqn:E.
  - pose proof (hb_bit t a n (Z.of_nat n - 1 - u) ltac:(lia)) as B. unfold wbit in B. replace (7 - u - (8 - Z.of_nat n)) with (Z.of_nat n - 1 - u) by lia. rewrite B.
    replace (Z.of_nat n - 1 - u <? Z.of_nat n) with true by lia. f_equal. lia.
  - rewrite Z.testbit_neg_r by lia. reflexivity.
Qed.
Lemma ts_shift t a m : 0 <= m -> sumf (fun u => tb t (a + u)) 0 m = ts t a (a + m).
Proof.
  intros Hm. unfold ts. rewrite (sumf_ext _ (fun u => tb t (u + a)) 0 m) by (intros; f_equal; lia). rewrite (sumf_shift (tb t)). f_equal; lia.
Qed.
Lemma bpart_sum t a m r : 0 <= m <= 8 -> 0 <= r <= 8 -> sumf (fun u => wbit (bpart t a m) (7 - u)) 0 r = ts t a (a + Z.min r m).
Proof.
  intros Hm Hr. rewrite <- ts_shift by lia. rewrite (sumf_split _ 0 (Z.min r m) r) by lia. rewrite (sumf_const0 _ (Z.min r m) r).
  - rewrite Z.add_0_r. apply sumf_ext. intros u Hu. rewrite bpart_bit by lia. replace (u <? m) with true by lia. reflexivity.
  - intros u Hu. rewrite bpart_bit by lia. replace (u <? m) with false by lia. reflexivity.
Qed.
Lemma bpart_ones t a m : 0 <= m <= 8 -> wones (bpart t a m) 0 8 = ts t a (a + m).
Proof. intros Hm. rewrite wones_rev, bpart_sum by lia. f_equal. lia. Qed.

(** ** Tables *)
Lemma lut_table : forallb (fun b => zn 0 popcnt_lut b =? wones b 0 8) (zrange 0 256) = true.
Proof. vm_compute. reflexivity. Qed.
Lemma lut_ok b : 0 <= b < 256 -> geti popcnt_lut b = Ok (wones b 0 8).
Proof.
  intros Hb. rewrite geti_ok by (change (zlen popcnt_lut) with 256; lia). f_equal.
  pose proof lut_table as F. rewrite forallb_forall in F. specialize (F b ltac:(apply in_zrange; lia)). lia.
Qed.
Lemma bit_masks_ok j : 0 <= j < 8 -> geti bit_masks j = Ok (2 ^ (7 - j)).
Proof.
  intros H. assert (E : j = 0 \/ j = 1 \/ j = 2 \/ j = 3 \/ j = 4 \/ j = 5 \/ j = 6 \/ j = 7) by lia.
  repeat destruct E as [->|E]; try subst j; reflexivity.
Qed.
Lemma land_pow2 b n : 0 <= n -> Z.land b (2 ^ n) = wbit b n * 2 ^ n.
Proof.
  intros Hn. apply Z.bits_inj'. intros k Hk. rewrite Z.land_spec, Z.pow2_bits_eqb by lia. unfold wbit.
  destruct (Z.testbit b n) eqn:E; cbn [b2z].
  - rewrite Z.mul_1_l, Z.pow2_bits_eqb by lia. destruct (n =? k) eqn:E2; [|apply andb_false_r]. replace k with n by lia. rewrite E. reflexivity.
  - rewrite Z.mul_0_l, Z.bits_0. destruct (n =? k) eqn:E2; [|apply andb_false_r]. replace k with n by lia. rewrite E. reflexivity.
Qed.

(** ** The three loops *)
Lemma bit_loop_ok b select n : forall u i, u + Z.of_nat n = 8 -> 0 <= u -> 1 <= i <= sumf (fun v => wbit b (7 - v)) u 8 ->
  exists r, u <= r < 8 /\ wbit b (7 - r) = 1 /\ sumf (fun v => wbit b (7 - v)) u r = i - 1 /\ bit_loop b (zrange u n) i select = Ok (u64 (select + r)).
Proof.
  induction n as [|n IH]; intros u i Hu H0 Hi.
  - rewrite sumf_empty in Hi by lia. lia.
  - cbn [zrange bit_loop]. rewrite bit_masks_ok by lia. cbn [bind]. rewrite land_pow2 by lia.
    pose proof (Z.pow_pos_nonneg 2 (7 - u) ltac:(lia) ltac:(lia)) as PP. pose proof (wbit_01 b (7 - u)) as WB.
    rewrite sumf_first in Hi by lia. assert (CB : wbit b (7 - u) = 0 \/ wbit b (7 - u) = 1) by lia. destruct CB as [E|E]; rewrite E in *.
    + rewrite Z.mul_0_l, Z.eqb_refl. destruct (IH (u + 1) i ltac:(lia) ltac:(lia) ltac:(lia)) as (r & R1 & R2 & R3 & R4).
      exists r. split; [lia|]. split; [auto|]. split; [|auto]. rewrite sumf_first by lia. lia.
    + rewrite Z.mul_1_l. replace (2 ^ (7 - u) =? 0) with false by lia. destruct (i =? 1) eqn:E1.
      * exists u. split; [lia|]. split; [auto|]. split; [rewrite sumf_empty; lia|reflexivity].
      * destruct (IH (u + 1) (i - 1) ltac:(lia) ltac:(lia) ltac:(lia)) as (r & R1 & R2 & R3 & R4).
        exists r. split; [lia|]. split; [auto|]. split; [|auto]. rewrite sumf_first by lia. lia.
Qed.

(** [e] bits of the text from [s] on are stored from byte [off] on. *)
Definition dense (t bits : list Z) (s e off : Z) : Prop :=
  0 <= off /\ off + up8 e <= zlen bits /\ forall j, 0 <= j < up8 e -> zn 0 bits (off + j) = bpart t (s + 8 * j) (Z.min 8 (e - 8 * j)).

Lemma dense_byte t bits s e off j : dense t bits s e off -> 0 <= j -> 8 * j < e ->
  geti bits (off + j) = Ok (bpart t (s + 8 * j) (Z.min 8 (e - 8 * j))) /\ wones (bpart t (s + 8 * j) (Z.min 8 (e - 8 * j))) 0 8 = ts t (s + 8 * j) (s + Z.min (8 * j + 8) e).
Proof.
  intros (D0 & D1 & D2) Hj He. pose proof (up8_bound e ltac:(lia)). split.
  - rewrite geti_ok by lia. rewrite D2 by lia. reflexivity.
  - rewrite bpart_ones by lia. f_equal. lia.
Qed.

Lemma byte_loop_ok t bits s e off : dense t bits s e off -> 0 <= s -> s + e < 2 ^ 62 -> forall fuel b i, 0 <= b -> 8 * b <= e ->
  up8 e - b < Z.of_nat fuel -> 1 <= i <= ts t (s + 8 * b) (s + e) ->
  exists b' i', byte_loop bits fuel (off + b) i (s + 8 * b) = Ok (off + b', i', s + 8 * b') /\ b <= b' /\ 8 * b' < e /\
    1 <= i' <= ts t (s + 8 * b') (s + Z.min (8 * b' + 8) e) /\ i = i' + ts t (s + 8 * b) (s + 8 * b').
Proof.
  intros D Hs Hb. induction fuel as [|fuel IH]; intros b i B0 B1 Hf Hi; [pose proof (up8_bound e ltac:(lia)); lia|].
  assert (BE : 8 * b < e). { destruct (Z.eq_dec (8 * b) e) as [E|]; [|lia]. rewrite E, ts_empty in Hi. lia. }
  destruct (dense_byte t bits s e off b D B0 BE) as [G W]. cbn [byte_loop]. rewrite G. cbn [bind].
  rewrite lut_ok by (apply bpart_byte; lia). cbn [bind]. rewrite W.
  destruct (ts t (s + 8 * b) (s + Z.min (8 * b + 8) e) >=? i) eqn:E.
  - exists b, i. rewrite ts_empty. split; [reflexivity|]. lia.
  - assert (B8 : 8 * b + 8 <= e). { destruct (Z_le_gt_dec (8 * b + 8) e); auto. rewrite Z.min_r in E by lia. lia. }
    rewrite Z.min_l in * by lia. rewrite (ts_split t (s + 8 * b) (s + (8 * b + 8)) (s + e)) in Hi by lia.
    rewrite wrap_small by lia. replace (off + b + 1) with (off + (b + 1)) by lia. replace (s + 8 * b + 8) with (s + 8 * (b + 1)) by lia.
    replace (s + (8 * b + 8)) with (s + 8 * (b + 1)) in * by lia.
    destruct (IH (b + 1) (i - ts t (s + 8 * b) (s + 8 * (b + 1))) ltac:(lia) ltac:(lia) ltac:(lia) ltac:(lia)) as (b' & i' & R1 & R2 & R3 & R4 & R5).
    exists b', i'. split; [exact R1|]. split; [lia|]. split; [lia|]. split; [exact R4|].
    rewrite (ts_split t (s + 8 * b) (s + 8 * (b + 1)) (s + 8 * b')) by lia. lia.
Qed.

Lemma rd_val n : forall m off, rd n m off = val (map (fun j => zn 0 m j) (zrange off n)).
Proof. induction n; intros m off; [reflexivity|]. cbn [rd zrange map val]. rewrite IHn. reflexivity. Qed.
Lemma popcount_rd m off : bytes (map (fun j => zn 0 m j) (zrange off 8)) -> popcount (rd 8 m off) = sumf (fun j => wones (zn 0 m (off + j)) 0 8) 0 8.
Proof.
  intros B. rewrite popcount_wones, rd_val. set (l := map (fun j => zn 0 m j) (zrange off 8)) in *.
  assert (N : forall j, 0 <= j < 8 -> zn 0 l j = zn 0 m (off + j)).
  { intros j Hj. unfold l. rewrite (zn_map (fun j => zn 0 m j) 0 0) by (unfold zlen; rewrite length_zrange; lia). rewrite zn_zrange by lia. reflexivity. }
  assert (G : forall n, (n <= 8)%nat -> wones (val l) 0 (8 * Z.of_nat n) = sumf (fun j => wones (zn 0 m (off + j)) 0 8) 0 (Z.of_nat n)).
  { induction n as [|n IH]; intros Hn; [reflexivity|]. replace (Z.of_nat (S n)) with (Z.of_nat n + 1) by lia. rewrite sumf_succ by lia.
    rewrite <- IH by lia. rewrite (wones_split _ 0 (8 * Z.of_nat n)) by lia. replace (8 * (Z.of_nat n + 1)) with (8 * Z.of_nat n + 8) by lia.
    rewrite wones_byte by (auto; lia). rewrite N by lia. reflexivity. }
  exact (G 8%nat ltac:(lia)).
Qed.
Lemma dense_word t bits s e off b : dense t bits s e off -> 0 <= b -> 8 * b + 64 <= e ->
  load 8 bits (off + b) = Ok (rd 8 bits (off + b)) /\ popcount (rd 8 bits (off + b)) = ts t (s + 8 * b) (s + 8 * b + 64).
Proof.
  intros (D0 & D1 & D2) Hb He. pose proof (up8_bound e ltac:(lia)). split; [apply load_ok; cbn; lia|].
  assert (N : forall j, 0 <= j < 8 -> zn 0 bits (off + b + j) = bpart t (s + 8 * b + 8 * j) 8).
  { intros j Hj. rewrite <- Z.add_assoc, D2 by lia. rewrite Z.min_l by lia. f_equal. lia. }
  rewrite popcount_rd.
  - assert (G : forall n, (n <= 8)%nat -> sumf (fun j => wones (zn 0 bits (off + b + j)) 0 8) 0 (Z.of_nat n) = ts t (s + 8 * b) (s + 8 * b + 8 * Z.of_nat n)).
    { induction n as [|n IH]; intros Hn; [cbn; rewrite Z.add_0_r, ts_empty; reflexivity|].
      replace (Z.of_nat (S n)) with (Z.of_nat n + 1) by lia. rewrite sumf_succ by lia. rewrite IH, N by lia. rewrite bpart_ones by lia.
      rewrite (ts_split t (s + 8 * b) (s + 8 * b + 8 * Z.of_nat n) (s + 8 * b + 8 * (Z.of_nat n + 1))) by lia. do 2 f_equal. lia. }
    exact (G 8%nat ltac:(lia)).
  - apply Forall_forall. intros x Hx. apply in_map_iff in Hx. destruct Hx as (j & <- & Hj). apply in_zrange in Hj.
    replace j with (off + b + (j - off - b)) by lia. rewrite N by lia. apply bpart_byte. lia.
Qed.

Lemma word_loop_ok t bits s e diff off : dense t bits s e off -> 0 <= s -> s + e < 2 ^ 62 -> diff <= e + 1 -> forall fuel m i, 0 <= m -> 64 * m <= e ->
  up8 e - 8 * m < Z.of_nat fuel -> 1 <= i <= ts t (s + 64 * m) (s + e) ->
  exists m' i', word_loop bits fuel (64 * (m + 1)) diff (off + 8 * m) i (s + 64 * m) = Ok (off + 8 * m', i', s + 64 * m') /\ m <= m' /\ 64 * m' <= e /\
    1 <= i' <= ts t (s + 64 * m') (s + e) /\ i = i' + ts t (s + 64 * m) (s + 64 * m').
Proof.
  intros D Hs Hb Hd. induction fuel as [|fuel IH]; intros m i M0 M1 Hf Hi; [pose proof (up8_bound e ltac:(lia)); lia|].
  cbn [word_loop]. destruct (64 * (m + 1) <? diff) eqn:E0.
  - assert (M2 : 64 * m + 64 <= e) by lia. destruct (dense_word t bits s e off (8 * m) D ltac:(lia) ltac:(lia)) as [-> W]. cbn [bind]. rewrite W.
    replace (s + 8 * (8 * m)) with (s + 64 * m) by lia. destruct (ts t (s + 64 * m) (s + 64 * m + 64) >=? i) eqn:E.
    + exists m, i. rewrite ts_empty. split; [reflexivity|]. lia.
    + replace (s + 64 * m + 64) with (s + 64 * (m + 1)) in * by lia. rewrite (ts_split t (s + 64 * m) (s + 64 * (m + 1)) (s + e)) in Hi by lia.
      rewrite wrap_small by lia. replace (off + 8 * m + 8) with (off + 8 * (m + 1)) by lia.
      replace (64 * (m + 1) + 64) with (64 * (m + 1 + 1)) by lia.
      destruct (IH (m + 1) (i - ts t (s + 64 * m) (s + 64 * (m + 1))) ltac:(lia) ltac:(lia) ltac:(lia) ltac:(lia)) as (m' & i' & R1 & R2 & R3 & R4 & R5).
      exists m', i'. split; [exact R1|]. split; [lia|]. split; [lia|]. split; [exact R4|].
      rewrite (ts_split t (s + 64 * m) (s + 64 * (m + 1)) (s + 64 * m')) by lia. lia.
  - exists m, i. rewrite ts_empty. split; [reflexivity|]. lia.
Qed.

Lemma dense_select t bits s e diff off th i : dense t bits s e off -> 0 <= s -> s + e < 2 ^ 62 -> diff <= e + 1 -> diff <= th ->
  1 <= i <= ts t s (s + e) -> exists p, in_block th bits off diff i s = Ok p /\ s <= p < s + e /\ tb t p = 1 /\ ts t s p = i - 1.
Proof.
  intros D Hs Hb Hd Ht Hi. assert (E0 : 0 <= e). { destruct (Z_le_gt_dec 0 e); auto. unfold ts in Hi. rewrite sumf_empty in Hi by lia. lia. }
  pose proof D as (D0 & D1 & D2). assert (FU : up8 e < Z.of_nat (S (length bits))) by (unfold zlen in D1; lia).
  unfold in_block. replace (diff >? th) with false by lia.
  destruct (word_loop_ok t bits s e diff off D Hs Hb Hd (S (length bits)) 0 i ltac:(lia) ltac:(lia) ltac:(lia)) as (m & i1 & R1 & R2 & R3 & R4 & R5).
  { rewrite Z.mul_0_r, Z.add_0_r. exact Hi. }
  change (64 * (0 + 1)) with 64 in R1. rewrite !Z.mul_0_r, !Z.add_0_r in R1. rewrite R1. cbn [bind].
  replace (64 * m) with (8 * (8 * m)) in * by lia.
  destruct (byte_loop_ok t bits s e off D Hs Hb (S (length bits)) (8 * m) i1 ltac:(lia) ltac:(lia) ltac:(lia) R4) as (b & i2 & Q1 & Q2 & Q3 & Q4 & Q5).
  rewrite Q1. cbn [bind]. destruct (dense_byte t bits s e off b D ltac:(lia) Q3) as [G W]. rewrite G. cbn [bind].
  assert (EQ : s + Z.min (8 * b + 8) e = s + 8 * b + Z.min 8 (e - 8 * b)) by lia. rewrite EQ in Q4.
  set (w := bpart t (s + 8 * b) (Z.min 8 (e - 8 * b))) in *.
  destruct (bit_loop_ok w (s + 8 * b) 8 0 i2 ltac:(lia) ltac:(lia)) as (r & B1 & B2 & B3 & B4).
  { unfold w. rewrite bpart_sum by lia. rewrite Z.min_r by lia. exact Q4. }
  rewrite B4. rewrite wrap_small by lia. exists (s + 8 * b + r). split; [reflexivity|].
  unfold w in B2. rewrite bpart_bit in B2 by lia. destruct (r <? Z.min 8 (e - 8 * b)) eqn:ER; [|discriminate].
  split; [lia|]. split; [exact B2|]. unfold w in B3. rewrite bpart_sum in B3 by lia. rewrite Z.min_l in B3 by lia.
  rewrite (ts_split t s (s + 8 * b) (s + 8 * b + r)) by lia. rewrite (ts_split t s (s + 8 * (8 * m)) (s + 8 * b)) by lia.
  rewrite Z.mul_0_r, Z.add_0_r in R5. lia.
Qed.

(** ** Any block *)
Definition answer_in (L T : Z) (t : list Z) (c i : Z) : Z := if mo L T t c then SS L t c + i - 1 else P t (c * L + i).

Lemma mono_right L T t c i : 1 <= L -> 0 <= c < nbk L t -> fullb L t c = true -> mo L T t c = true -> 1 <= i < L -> SS L t c + i - 1 = P t (c * L + i).
Proof.
  intros HL Hc F M Hi. pose proof (DD_ones L t c HL Hc) as E. unfold mo in M. unfold fullb in F. assert (D : DD L t c = L) by lia. unfold DD in D.
  replace (Z.min L (K t - c * L)) with L in E by lia. pose proof (SS_bound L t c HL ltac:(lia)).
  assert (A : forall p, SS L t c <= p < SS L t (c + 1) -> tb t p = 1) by (apply ts_full; lia).
  apply P_uniq; [nia|lia|apply A; lia|]. destruct (in_ones L t c (SS L t c + i - 1) HL Hc ltac:(lia)) as [X _]. rewrite X.
  rewrite ts_all1 by (try lia; intros p Hp; apply A; lia). lia.
Qed.

Lemma block_answer L T t bits c i : 1 <= L < T -> zlen t < 2 ^ 58 -> 0 <= c < nbk L t -> 1 <= i < L -> c * L + i <= K t -> mo L T t c = false ->
  payload L T t bits c -> OO L T t (nbk L t) <= zlen bits -> in_block T bits (OO L T t c) (DD L t c) i (SS L t c) = Ok (P t (c * L + i)).
Proof.
  intros HL Hl Hc Hi HK EM [P1 P2] HO. pose proof (OO_nonneg L T t c ltac:(lia) ltac:(lia)) as ON. pose proof (room L T t c ltac:(lia) Hc) as RM.
  pose proof (SS_bound L t c ltac:(lia) ltac:(lia)) as SB. pose proof (SS_bound L t (c + 1) ltac:(lia) ltac:(lia)) as SB1. pose proof (SS_step L t c ltac:(lia) Hc) as SST.
  assert (OI : i <= ones_in L t c).
  { unfold ones_in. destruct (fullb L t c) eqn:F; [lia|]. destruct (not_full_last L t c ltac:(lia) Hc F) as (_ & _ & X & _). lia. }
  destruct (sp L T t c) eqn:ES.
  - pose proof (ww_sp L T t c ES). unfold in_block. unfold sp in ES. rewrite ES. rewrite load_ok by lia. rewrite P1 by (auto; lia). reflexivity.
  - pose proof (ww_de L T t c ES EM) as WW. pose proof (ee_bound L t c ltac:(lia) Hc) as EB. pose proof (ee_ones L t c ltac:(lia) Hc) as EO. fold (ones_in L t c) in EO.
    assert (ED : ee L t c <= DD L t c <= ee L t c + 1) by (unfold ee; destruct (fullb L t c); lia).
    destruct (dense_select t bits (SS L t c) (ee L t c) (DD L t c) (OO L T t c) T i) as (p & E & B1 & B2 & B3); try lia.
    + split; [lia|]. split; [lia|]. apply P2; auto.
    + unfold DD in *. lia.
    + unfold sp in ES. lia.
    + rewrite E. f_equal. pose proof (ts_bound t 0 (SS L t c) ltac:(lia)). apply P_uniq; [nia|lia|auto|].
      rewrite (ts_split t 0 (SS L t c) p) by lia. rewrite ts_SS by lia. pose proof (proj1 (blk_lt L t c ltac:(lia) ltac:(lia)) ltac:(lia)). lia.
Qed.
