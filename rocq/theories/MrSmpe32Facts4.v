(** Queries of SelectMPE32 inside a block. *)
From Coq Require Import ZifyBool.
From Verif Require Import Base BaseFacts Mem MemFacts Words WordFacts BlockFacts NodeFacts Trees TreeBuild Spec BitmapFacts KernelFacts SpecPoppy PoppyFacts PoppyFacts2 SpecText MrRank MrRankFacts MrRankFacts2 MrRankFacts3 MrSelect MrSelectFacts MrSelectFacts2 MrSelectFacts3 MrSelectFacts4 MrMpe MrMpeFacts2 MrSelect32 MrSelect32Facts4 MrSmpe MrSmpeFacts2 MrSmpeFacts4 MrSmpe32.
Ltac Zify.zify_post_hook ::= Z.div_mod_to_equations.

Lemma in_buffer32_ok t buf s e i : dense t buf s e 0 -> 0 <= s -> s + e < 2 ^ 32 -> 1 <= i <= ts t s (s + e) ->
  exists p, in_buffer32 buf i s = Ok p /\ s <= p < s + e /\ tb t p = 1 /\ ts t s p = i - 1.
Proof.
  intros D Hs Hb Hi. assert (E0 : 0 <= e). { destruct (Z_le_gt_dec 0 e); auto. unfold ts in Hi. rewrite sumf_empty in Hi by lia. lia. }
  pose proof D as (D0 & D1 & D2). assert (FU : up8 e < Z.of_nat (S (length buf))) by (unfold zlen in D1; lia). unfold in_buffer32.
  destruct (byte_loop32_ok t buf s e 0 D Hs Hb (S (length buf)) 0 i ltac:(lia) ltac:(lia) ltac:(lia)) as (b & i2 & Q1 & Q2 & Q3 & Q4 & Q5).
  { rewrite Z.mul_0_r, Z.add_0_r. exact Hi. }
  rewrite Z.mul_0_r, !Z.add_0_r in *. rewrite Q1. cbn [bind]. destruct (dense_byte t buf s e 0 b D ltac:(lia) Q3) as [G W]. rewrite G. cbn [bind].
  assert (EQ : s + Z.min (8 * b + 8) e = s + 8 * b + Z.min 8 (e - 8 * b)) by lia. rewrite EQ in Q4.
  set (w := bpart t (s + 8 * b) (Z.min 8 (e - 8 * b))) in *.
  destruct (bit_loop32_ok w (s + 8 * b) 8 0 i2 ltac:(lia) ltac:(lia)) as (r & B1 & B2 & B3 & B4).
  { unfold w. rewrite bpart_sum by lia. rewrite Z.min_r by lia. exact Q4. }
  unfold w in B2. rewrite bpart_bit in B2 by lia. destruct (r <? Z.min 8 (e - 8 * b)) eqn:ER; [|discriminate].
  rewrite B4. rewrite wrap_small by lia. exists (s + 8 * b + r). split; [reflexivity|].
  split; [lia|]. split; [exact B2|]. unfold w in B3. rewrite bpart_sum in B3 by lia. rewrite Z.min_l in B3 by lia.
  rewrite (ts_split t s (s + 8 * b) (s + 8 * b + r)) by lia. lia.
Qed.

Lemma decode32_step kind bits p tl j r buf bc take i select dp : decode32 kind bits p tl (j :: r) buf bc take i select dp =
  let* '(buf, bc, dp, over) := pair_read kind bits p tl j buf bc take dp in
  if over then in_buffer32 buf i select else
  if bc mod 8 =? 0
  then let* full := load 8 buf 0 in
       if popcount full >=? i then in_buffer32 buf i select
       else decode32 kind bits p tl r buf 0 (take - 16) (i - popcount full) (u32 (select + 64)) dp
  else decode32 kind bits p tl r buf bc (take - 16) i select dp.
Proof.
  cbn [decode32]. unfold pair_read. destruct (geti bits (p + j / 8)); cbn [bind]; [|reflexivity|reflexivity]. destruct (geti bit_masks (j mod 8)); cbn [bind]; reflexivity.
Qed.

Lemma decode32_ok z o t s e tl bits p : z || o = true -> 0 <= s -> 0 <= e -> s + e < 2 ^ 32 -> tl = e / 128 + 1 ->
  packed z o (gbyte t s e) (up8 e) tl bits p -> 0 <= p -> p + width z o (gbyte t s e) (up8 e) tl < zlen bits ->
  forall m j buf i, j + Z.of_nat m = 8 * tl -> 0 <= j -> 16 * j <= e -> zlen buf = 8 ->
  (forall k, 0 <= k < 2 * (j mod 4) -> zn 0 buf k = gbyte t s e (8 * (j / 4) + k)) -> 1 <= i <= ts t (s + 64 * (j / 4)) (s + e) ->
  exists q, decode32 (kind_of z o) bits p tl (zrange j m) buf (2 * (j mod 4)) (e + 1 - 16 * j) i (s + 64 * (j / 4)) (p + heads z o tl + 2 * (j - cnt (rm z o (gbyte t s e) (up8 e)) j)) = Ok q /\
    s + 64 * (j / 4) <= q < s + e /\ tb t q = 1 /\ ts t (s + 64 * (j / 4)) q = i - 1.
Proof.
  intros HZ Hs He Hse Ht PK Hp Hl. induction m as [|m IH]; intros j buf i Hm Hj Hje Hb HB Hi; [exfalso; clear - Hm Ht Hje Hj; lia|].
  cbn [zrange]. rewrite decode32_step.
  destruct (pair_read_ok z o t s e tl bits p buf j HZ Hs He Ht PK Hp Hl Hb Hj Hje) as (buf' & bc' & dp' & -> & Z1 & B1 & B2 & B3 & B4). cbn [bind].
  assert (UB : e <= 8 * up8 e <= e + 7) by (apply up8_bound; lia).
  set (j4 := j / 4) in *. set (k4 := j mod 4) in *. assert (JE : j = 4 * j4 + k4 /\ 0 <= k4 < 4) by (unfold j4, k4; clear; lia). destruct JE as [JE K4].
  assert (J40 : 0 <= j4) by (unfold j4; clear - Hj; lia).
  assert (NEW : forall k, 0 <= k < 2 * k4 + 2 -> 8 * j4 + k < up8 e -> zn 0 buf' k = gbyte t s e (8 * j4 + k)).
  { intros k Hk Hn. destruct (Z_lt_le_dec k (2 * k4)); [rewrite B1 by lia; apply HB; lia|]. destruct (Z.eq_dec k (2 * k4)) as [EK|].
    - rewrite EK. rewrite B2 by lia. f_equal. lia.
    - replace k with (2 * k4 + 1) by lia. rewrite B3 by lia. f_equal. lia. }
  destruct (e + 1 - 16 * j <=? 16) eqn:EO.
  - assert (UE : up8 (e - 64 * j4) <= 2 * k4 + 2 /\ up8 (e - 64 * j4) = up8 e - 8 * j4).
    { pose proof (up8_bound (e - 64 * j4) ltac:(lia)). lia. }
    destruct (in_buffer32_ok t buf' (s + 64 * j4) (e - 64 * j4) i) as (q & -> & Q1 & Q2 & Q3); try lia.
    + split; [lia|]. split; [lia|]. intros k Hk. rewrite Z.add_0_l. rewrite NEW by lia. apply gbyte_part.
    + replace (s + 64 * j4 + (e - 64 * j4)) with (s + e) by lia. exact Hi.
    + exists q. split; [reflexivity|]. split; [lia|]. auto.
  - destruct (B4 ltac:(lia)) as [-> ->]. destruct ((2 * k4 + 2) mod 8 =? 0) eqn:E8.
    + assert (k4 = 3) by (clear - E8 K4; lia). assert (DN : dense t buf' (s + 64 * j4) 64 0).
      { split; [lia|]. change (up8 64) with 8. split; [lia|]. intros k Hk. rewrite Z.add_0_l. rewrite NEW by lia. rewrite gbyte_part. f_equal. lia. }
      destruct (dense_word t buf' (s + 64 * j4) 64 0 0 DN ltac:(lia) ltac:(lia)) as [LD PC]. change (0 + 0) with 0 in *. rewrite LD. cbn [bind]. rewrite PC. rewrite Z.mul_0_r, Z.add_0_r.
      destruct (ts t (s + 64 * j4) (s + 64 * j4 + 64) >=? i) eqn:EP.
      * destruct (in_buffer32_ok t buf' (s + 64 * j4) 64 i) as (q & -> & Q1 & Q2 & Q3); try lia; auto. exists q. split; [reflexivity|]. split; [lia|]. auto.
      * assert (NJ : (j + 1) / 4 = j4 + 1 /\ (j + 1) mod 4 = 0) by (clear - JE H; lia). destruct NJ as [NJ1 NJ2].
        assert (SP : ts t (s + 64 * j4) (s + e) = ts t (s + 64 * j4) (s + 64 * j4 + 64) + ts t (s + 64 * j4 + 64) (s + e)) by (apply ts_split; lia).
        destruct (IH (j + 1) buf' (i - ts t (s + 64 * j4) (s + 64 * j4 + 64))) as (q & E & Q1 & Q2 & Q3); [lia|lia|lia|exact Z1|rewrite NJ2; intros; lia|..].
        -- rewrite NJ1. replace (s + 64 * (j4 + 1)) with (s + 64 * j4 + 64) by lia. lia.
        -- rewrite NJ1, NJ2 in *. rewrite Z.mul_0_r in E. replace (s + 64 * (j4 + 1)) with (s + 64 * j4 + 64) in * by lia. replace (e + 1 - 16 * (j + 1)) with (e + 1 - 16 * j - 16) in E by lia.
           rewrite wrap_small by lia. rewrite E. exists q. split; [reflexivity|]. split; [lia|]. split; [auto|]. rewrite (ts_split t (s + 64 * j4) (s + 64 * j4 + 64) q) by lia. lia.
    + assert (NJ : (j + 1) / 4 = j4 /\ (j + 1) mod 4 = k4 + 1) by (clear - JE K4 E8; lia). destruct NJ as [NJ1 NJ2].
      destruct (IH (j + 1) buf' i) as (q & E & Q1 & Q2 & Q3); [lia|lia|lia|exact Z1|..].
      * rewrite NJ1, NJ2. intros k Hk. apply NEW; lia.
      * rewrite NJ1. exact Hi.
      * rewrite NJ1, NJ2 in *. replace (2 * (k4 + 1)) with (2 * k4 + 2) in E by lia. replace (e + 1 - 16 * (j + 1)) with (e + 1 - 16 * j - 16) in E by lia.
        exists q. split; [exact E|]. auto.
Qed.

Lemma compressed32_ok z o t s e bits buf p i : z || o = true -> 0 <= s -> 0 <= e -> s + e < 2 ^ 32 ->
  packed z o (gbyte t s e) (up8 e) (table_len32 (e + 1)) bits p -> 0 <= p -> p + width z o (gbyte t s e) (up8 e) (table_len32 (e + 1)) < zlen bits -> zlen buf = 8 -> 1 <= i <= ts t s (s + e) ->
  exists q, in_compressed32 (kind_of z o) bits buf p (e + 1) i s = Ok q /\ s <= q < s + e /\ tb t q = 1 /\ ts t s q = i - 1.
Proof.
  intros HZ Hs He Hse PK Hp Hl Hb Hi. unfold in_compressed32. assert (TE : table_len32 (e + 1) = e / 128 + 1) by (unfold table_len32; rewrite wrap_small by lia; f_equal; f_equal; lia).
  set (tl := table_len32 (e + 1)) in *. assert (T1 : 1 <= tl) by (rewrite TE; clear - He; lia).
  destruct (decode32_ok z o t s e tl bits p HZ Hs He Hse TE PK Hp Hl (Z.to_nat (8 * tl)) 0 buf i ltac:(lia) ltac:(lia) ltac:(lia) Hb) as (q & E & Q1 & Q2 & Q3).
  - intros k Hk. change (0 mod 4) with 0 in Hk. lia.
  - change (0 / 4) with 0. rewrite Z.mul_0_r, Z.add_0_r. exact Hi.
  - change (0 / 4) with 0 in *. change (0 mod 4) with 0 in *. change (cnt _ 0) with 0 in E. rewrite !Z.mul_0_r, !Z.add_0_r, !Z.sub_0_r in *. change (0 - 0) with 0 in E.
    exists q. split; [|auto]. rewrite <- E. f_equal. unfold heads, kind_of. destruct z, o; cbn [b2z orb] in *; try discriminate; lia.
Qed.
