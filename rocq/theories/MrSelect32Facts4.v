(** The queries of SelectBasic32 inside a block. *)
From Coq Require Import ZifyBool.
From Verif Require Import Base BaseFacts Mem MemFacts Words WordFacts BlockFacts NodeFacts Trees TreeBuild Spec BitmapFacts KernelFacts SpecPoppy PoppyFacts PoppyFacts2 SpecText MrRank MrRankFacts MrRankFacts2 MrSelect MrSelectFacts MrSelectFacts2 MrSelectFacts3 MrSelectFacts4 MrSelect32 MrSelect32Facts MrSelect32Facts2 MrSelect32Facts3.
Ltac Zify.zify_post_hook ::= Z.div_mod_to_equations.

(** ** The three loops *)
Lemma bit_loop32_ok b select n : forall u i, u + Z.of_nat n = 8 -> 0 <= u -> 1 <= i <= sumf (fun v => wbit b (7 - v)) u 8 ->
  exists r, u <= r < 8 /\ wbit b (7 - r) = 1 /\ sumf (fun v => wbit b (7 - v)) u r = i - 1 /\ bit_loop32 b (zrange u n) i select = Ok (u32 (select + r)).
Proof.
  induction n as [|n IH]; intros u i Hu H0 Hi.
  - rewrite sumf_empty in Hi by lia. lia.
  - cbn [zrange bit_loop32]. rewrite bit_masks_ok by lia. cbn [bind]. rewrite land_pow2 by lia.
    pose proof (Z.pow_pos_nonneg 2 (7 - u) ltac:(lia) ltac:(lia)) as PP. pose proof (wbit_01 b (7 - u)) as WB.
    rewrite sumf_first in Hi by lia. assert (CB : wbit b (7 - u) = 0 \/ wbit b (7 - u) = 1) by lia. destruct CB as [E|E]; rewrite E in *.
    + rewrite Z.mul_0_l, Z.eqb_refl. destruct (IH (u + 1) i ltac:(lia) ltac:(lia) ltac:(lia)) as (r & R1 & R2 & R3 & R4).
      exists r. split; [lia|]. split; [auto|]. split; [|auto]. rewrite sumf_first by lia. lia.
    + rewrite Z.mul_1_l. replace (2 ^ (7 - u) =? 0) with false by lia. destruct (i =? 1) eqn:E1.
      * exists u. split; [lia|]. split; [auto|]. split; [rewrite sumf_empty; lia|reflexivity].
      * destruct (IH (u + 1) (i - 1) ltac:(lia) ltac:(lia) ltac:(lia)) as (r & R1 & R2 & R3 & R4).
        exists r. split; [lia|]. split; [auto|]. split; [|auto]. rewrite sumf_first by lia. lia.
Qed.

Lemma byte_loop32_ok t bits s e off : dense t bits s e off -> 0 <= s -> s + e < 2 ^ 32 -> forall fuel b i, 0 <= b -> 8 * b <= e ->
  up8 e - b < Z.of_nat fuel -> 1 <= i <= ts t (s + 8 * b) (s + e) ->
  exists b' i', byte_loop32 bits fuel (off + b) i (s + 8 * b) = Ok (off + b', i', s + 8 * b') /\ b <= b' /\ 8 * b' < e /\
    1 <= i' <= ts t (s + 8 * b') (s + Z.min (8 * b' + 8) e) /\ i = i' + ts t (s + 8 * b) (s + 8 * b').
Proof.
  intros D Hs Hb. induction fuel as [|fuel IH]; intros b i B0 B1 Hf Hi; [pose proof (up8_bound e ltac:(lia)); lia|].
  assert (BE : 8 * b < e). { destruct (Z.eq_dec (8 * b) e) as [E|]; [|lia]. rewrite E, ts_empty in Hi. lia. }
  destruct (dense_byte t bits s e off b D B0 BE) as [G W]. cbn [byte_loop32]. rewrite G. cbn [bind].
  rewrite lut_ok by (apply bpart_byte; lia). cbn [bind]. rewrite W.
  destruct (ts t (s + 8 * b) (s + Z.min (8 * b + 8) e) >=? i) eqn:E.
  - exists b, i. rewrite ts_empty. split; [reflexivity|]. lia.
  - assert (B8 : 8 * b + 8 <= e). { destruct (Z_le_gt_dec (8 * b + 8) e); auto. rewrite Z.min_r in E by lia. lia. }
    rewrite Z.min_l in * by lia. rewrite (ts_split t (s + 8 * b) (s + (8 * b + 8)) (s + e)) in Hi by lia.
    rewrite wrap_small by lia. replace (off + b + 1) with (off + (b + 1)) by lia. replace (s + 8 * b + 8) with (s + 8 * (b + 1)) by lia.
    replace (s + (8 * b + 8)) with (s + 8 * (b + 1)) in * by lia.
    destruct (IH (b + 1) (i - ts t (s + 8 * b) (s + 8 * (b + 1))) ltac:(lia) ltac:(lia) ltac:(lia) ltac:(lia)) as (b' & i' & R1 & R2 & R3 & R4 & R5).
    exists b', i'. split; [exact R1|]. split; [lia|]. split; [lia|]. split; [exact R4|].
    rewrite (ts_split t (s + 8 * b) (s + 8 * (b + 1)) (s + 8 * b')) by lia. lia.
Qed.

Lemma word_loop32_ok t bits s e diff off : dense t bits s e off -> 0 <= s -> s + e < 2 ^ 32 -> diff <= e + 1 -> diff <= 2 ^ 32 - 64 -> forall fuel m i, 0 <= m -> 64 * m <= e ->
  up8 e - 8 * m < Z.of_nat fuel -> 1 <= i <= ts t (s + 64 * m) (s + e) ->
  exists m' i', word_loop32 bits fuel (64 * (m + 1)) diff (off + 8 * m) i (s + 64 * m) = Ok (off + 8 * m', i', s + 64 * m') /\ m <= m' /\ 64 * m' <= e /\
    1 <= i' <= ts t (s + 64 * m') (s + e) /\ i = i' + ts t (s + 64 * m) (s + 64 * m').
Proof.
  intros D Hs Hb Hd HD. induction fuel as [|fuel IH]; intros m i M0 M1 Hf Hi; [pose proof (up8_bound e ltac:(lia)); lia|].
  cbn [word_loop32]. destruct (64 * (m + 1) <? diff) eqn:E0.
  - assert (M2 : 64 * m + 64 <= e) by lia. destruct (dense_word t bits s e off (8 * m) D ltac:(lia) ltac:(lia)) as [-> W]. cbn [bind]. rewrite W.
    replace (s + 8 * (8 * m)) with (s + 64 * m) by lia. destruct (ts t (s + 64 * m) (s + 64 * m + 64) >=? i) eqn:E.
    + exists m, i. rewrite ts_empty. split; [reflexivity|]. lia.
    + replace (s + 64 * m + 64) with (s + 64 * (m + 1)) in * by lia. rewrite (ts_split t (s + 64 * m) (s + 64 * (m + 1)) (s + e)) in Hi by lia.
      rewrite !wrap_small by lia. replace (off + 8 * m + 8) with (off + 8 * (m + 1)) by lia.
      replace (64 * (m + 1) + 64) with (64 * (m + 1 + 1)) by lia.
      destruct (IH (m + 1) (i - ts t (s + 64 * m) (s + 64 * (m + 1))) ltac:(lia) ltac:(lia) ltac:(lia) ltac:(lia)) as (m' & i' & R1 & R2 & R3 & R4 & R5).
      exists m', i'. split; [exact R1|]. split; [lia|]. split; [lia|]. split; [exact R4|].
      rewrite (ts_split t (s + 64 * m) (s + 64 * (m + 1)) (s + 64 * m')) by lia. lia.
  - exists m, i. rewrite ts_empty. split; [reflexivity|]. lia.
Qed.

Lemma dense_select32 t bits s e diff off th i : dense t bits s e off -> 0 <= s -> s + e < 2 ^ 32 -> diff <= e + 1 -> diff <= th -> th <= 2 ^ 32 - 64 ->
  1 <= i <= ts t s (s + e) -> exists p, in_block32 th bits off diff i s = Ok p /\ s <= p < s + e /\ tb t p = 1 /\ ts t s p = i - 1.
Proof.
  intros D Hs Hb Hd Ht HT Hi. assert (E0 : 0 <= e). { destruct (Z_le_gt_dec 0 e); auto. unfold ts in Hi. rewrite sumf_empty in Hi by lia. lia. }
  pose proof D as (D0 & D1 & D2). assert (FU : up8 e < Z.of_nat (S (length bits))) by (unfold zlen in D1; lia).
  unfold in_block32. replace (diff >? th) with false by lia.
  destruct (word_loop32_ok t bits s e diff off D Hs Hb Hd ltac:(lia) (S (length bits)) 0 i ltac:(lia) ltac:(lia) ltac:(lia)) as (m & i1 & R1 & R2 & R3 & R4 & R5).
  { rewrite Z.mul_0_r, Z.add_0_r. exact Hi. }
  change (64 * (0 + 1)) with 64 in R1. rewrite !Z.mul_0_r, !Z.add_0_r in R1. rewrite R1. cbn [bind].
  replace (64 * m) with (8 * (8 * m)) in * by lia.
  destruct (byte_loop32_ok t bits s e off D Hs Hb (S (length bits)) (8 * m) i1 ltac:(lia) ltac:(lia) ltac:(lia) R4) as (b & i2 & Q1 & Q2 & Q3 & Q4 & Q5).
  rewrite Q1. cbn [bind]. destruct (dense_byte t bits s e off b D ltac:(lia) Q3) as [G W]. rewrite G. cbn [bind].
  assert (EQ : s + Z.min (8 * b + 8) e = s + 8 * b + Z.min 8 (e - 8 * b)) by lia. rewrite EQ in Q4.
  set (w := bpart t (s + 8 * b) (Z.min 8 (e - 8 * b))) in *.
  destruct (bit_loop32_ok w (s + 8 * b) 8 0 i2 ltac:(lia) ltac:(lia)) as (r & B1 & B2 & B3 & B4).
  { unfold w. rewrite bpart_sum by lia. rewrite Z.min_r by lia. exact Q4. }
  unfold w in B2. rewrite bpart_bit in B2 by lia. destruct (r <? Z.min 8 (e - 8 * b)) eqn:ER; [|discriminate].
  rewrite B4. rewrite wrap_small by lia. exists (s + 8 * b + r). split; [reflexivity|].
  split; [lia|]. split; [exact B2|]. unfold w in B3. rewrite bpart_sum in B3 by lia. rewrite Z.min_l in B3 by lia.
  rewrite (ts_split t s (s + 8 * b) (s + 8 * b + r)) by lia. rewrite (ts_split t s (s + 8 * (8 * m)) (s + 8 * b)) by lia.
  rewrite Z.mul_0_r, Z.add_0_r in R5. lia.
Qed.

(** ** Any block *)
Lemma block_answer32 L T t bits c i : 1 <= L < T -> T <= 2 ^ 32 - 64 -> zlen t < 2 ^ 29 -> 0 <= c < nbk L t -> 1 <= i < L -> c * L + i <= K t -> mo L T t c = false ->
  payload32 L T t bits c -> OO32 L T t (nbk L t) <= zlen bits < 2 ^ 32 -> in_block32 T bits (OO32 L T t c) (DD L t c) i (SS L t c) = Ok (P t (c * L + i)).
Proof.
  intros HL HT Hl Hc Hi HK EM [P1 P2] HO. pose proof (OO32_nonneg L T t c ltac:(lia) ltac:(lia)) as ON. pose proof (room32 L T t c ltac:(lia) Hc) as RM.
  pose proof (SS_bound L t c ltac:(lia) ltac:(lia)) as SB. pose proof (SS_bound L t (c + 1) ltac:(lia) ltac:(lia)) as SB1. pose proof (SS_step L t c ltac:(lia) Hc) as SST.
  assert (OI : i <= ones_in L t c).
  { unfold ones_in. destruct (fullb L t c) eqn:F; [lia|]. destruct (not_full_last L t c ltac:(lia) Hc F) as (_ & _ & X & _). lia. }
  destruct (sp L T t c) eqn:ES.
  - pose proof (ww_sp32 L T t c ES). unfold in_block32. unfold sp in ES. rewrite ES. rewrite (wrap_small 32 (4 * (i - 1))) by lia. rewrite load_ok by lia. rewrite P1 by (auto; lia). reflexivity.
  - pose proof (ww_de32 L T t c ES EM) as WW. pose proof (ee_bound L t c ltac:(lia) Hc) as EB. pose proof (ee_ones L t c ltac:(lia) Hc) as EO. fold (ones_in L t c) in EO.
    assert (ED : ee L t c <= DD L t c <= ee L t c + 1) by (unfold ee; destruct (fullb L t c); lia).
    destruct (dense_select32 t bits (SS L t c) (ee L t c) (DD L t c) (OO32 L T t c) T i) as (p & E & B1 & B2 & B3); try lia.
    + split; [lia|]. split; [lia|]. apply P2; auto.
    + unfold DD in *. lia.
    + unfold sp in ES. lia.
    + rewrite E. f_equal. pose proof (ts_bound t 0 (SS L t c) ltac:(lia)). apply P_uniq; [nia|lia|auto|].
      rewrite (ts_split t 0 (SS L t c) p) by lia. rewrite ts_SS by lia. pose proof (proj1 (blk_lt L t c ltac:(lia) ltac:(lia)) ltac:(lia)). lia.
Qed.
