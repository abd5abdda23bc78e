(** Queries of SelectMPE64 inside a block. *)
From Coq Require Import ZifyBool.
From Verif Require Import Base BaseFacts Mem MemFacts Words WordFacts BlockFacts NodeFacts Trees TreeBuild Spec BitmapFacts KernelFacts SpecPoppy PoppyFacts PoppyFacts2 SpecText MrRank MrRankFacts MrRankFacts2 MrRankFacts3 MrSelect MrSelectFacts MrSelectFacts2 MrSelectFacts3 MrSelectFacts4 MrMpe MrMpeFacts2 MrSmpe MrSmpeFacts2.
Ltac Zify.zify_post_hook ::= Z.div_mod_to_equations.

Lemma in_buffer_ok t buf s e i : dense t buf s e 0 -> 0 <= s -> s + e < 2 ^ 62 -> 1 <= i <= ts t s (s + e) ->
  exists p, in_buffer buf i s = Ok p /\ s <= p < s + e /\ tb t p = 1 /\ ts t s p = i - 1.
Proof.
  intros D Hs Hb Hi. assert (E0 : 0 <= e). { destruct (Z_le_gt_dec 0 e); auto. unfold ts in Hi. rewrite sumf_empty in Hi by lia. lia. }
  pose proof D as (D0 & D1 & D2). assert (FU : up8 e < Z.of_nat (S (length buf))) by (unfold zlen in D1; lia). unfold in_buffer.
  destruct (byte_loop_ok t buf s e 0 D Hs Hb (S (length buf)) 0 i ltac:(lia) ltac:(lia) ltac:(lia)) as (b & i2 & Q1 & Q2 & Q3 & Q4 & Q5).
  { rewrite Z.mul_0_r, Z.add_0_r. exact Hi. }
  rewrite Z.mul_0_r, !Z.add_0_r in *. rewrite Q1. cbn [bind]. destruct (dense_byte t buf s e 0 b D ltac:(lia) Q3) as [G W]. rewrite G. cbn [bind].
  assert (EQ : s + Z.min (8 * b + 8) e = s + 8 * b + Z.min 8 (e - 8 * b)) by lia. rewrite EQ in Q4.
  set (w := bpart t (s + 8 * b) (Z.min 8 (e - 8 * b))) in *.
  destruct (bit_loop_ok w (s + 8 * b) 8 0 i2 ltac:(lia) ltac:(lia)) as (r & B1 & B2 & B3 & B4).
  { unfold w. rewrite bpart_sum by lia. rewrite Z.min_r by lia. exact Q4. }
  rewrite B4. rewrite wrap_small by lia. exists (s + 8 * b + r). split; [reflexivity|].
  unfold w in B2. rewrite bpart_bit in B2 by lia. destruct (r <? Z.min 8 (e - 8 * b)) eqn:ER; [|discriminate].
  split; [lia|]. split; [exact B2|]. unfold w in B3. rewrite bpart_sum in B3 by lia. rewrite Z.min_l in B3 by lia.
  rewrite (ts_split t s (s + 8 * b) (s + 8 * b + r)) by lia. lia.
Qed.

(** The bytes of a block of [e] bits from [s] on. *)
Definition gbyte (t : list Z) (s e j : Z) : Z := bpart t (s + 8 * j) (Z.min 8 (e - 8 * j)).

Definition kind_of (z o : bool) : left_out := if z then (if o then Both else Only 0) else Only 255.

Lemma table_bit R bits p k j : zn 0 bits (p + j / 8) = tabv R (j / 8) -> k = j mod 8 -> 0 <= j -> (Z.land (zn 0 bits (p + j / 8)) (2 ^ (7 - k)) =? 0) = negb (R j).
Proof.
  intros -> -> Hj. rewrite MrSelectFacts4.land_pow2 by lia. pose proof (tabv_bit R (j / 8) (j mod 8) ltac:(lia)) as B. replace (8 * (j / 8) + j mod 8) with j in B by lia.
  unfold wbit. rewrite B. pose proof (Z.pow_pos_nonneg 2 (7 - j mod 8) ltac:(lia) ltac:(lia)). destruct (R j); cbn [b2z negb]; lia.
Qed.

(** One pair decoded. *)
Definition pair_read (kind : left_out) (bits : list Z) (p tl j : Z) (buf : list Z) (bc take dp : Z) : res (list Z * Z * Z * bool) :=
  let* w := geti bits (p + j / 8) in
  let* mask := geti bit_masks (j mod 8) in
  if Z.land w mask =? 0
  then let* x := geti bits dp in
       let* buf := seti buf bc x in
       if take <=? 8 then Ok (buf, bc + 1, dp, true) else
       let* y := geti bits (dp + 1) in
       let* buf := seti buf (bc + 1) y in
       Ok (buf, bc + 2, dp + 2, take <=? 16)
  else let* v := pair_value kind bits p tl j mask in
       let* buf := seti buf bc v in
       let* buf := seti buf (bc + 1) v in
       Ok (buf, bc + 2, dp, take <=? 16).

Lemma decode_step kind bits p tl j r buf bc take i select dp : decode kind bits p tl (j :: r) buf bc take i select dp =
  let* '(buf, bc, dp, over) := pair_read kind bits p tl j buf bc take dp in
  if over then in_buffer buf i select else
  if bc mod 8 =? 0
  then let* full := load 8 buf 0 in
       if popcount full >=? i then in_buffer buf i select
       else decode kind bits p tl r buf 0 (take - 16) (i - popcount full) (u64 (select + 64)) dp
  else decode kind bits p tl r buf bc (take - 16) i select dp.
Proof.
  cbn [decode]. unfold pair_read. destruct (geti bits (p + j / 8)); cbn [bind]; [|reflexivity|reflexivity]. destruct (geti bit_masks (j mod 8)); cbn [bind]; reflexivity.
Qed.

(** The pair is read as it was, as far as it belongs to the block; what is read
    after the end of the block is inside the array. *)
Lemma pair_read_ok z o t s e tl bits p buf j : z || o = true -> 0 <= s -> 0 <= e -> tl = e / 128 + 1 ->
  packed z o (gbyte t s e) (up8 e) tl bits p -> 0 <= p -> p + width z o (gbyte t s e) (up8 e) tl < zlen bits -> zlen buf = 8 -> 0 <= j -> 16 * j <= e ->
  exists buf' bc' dp' , pair_read (kind_of z o) bits p tl j buf (2 * (j mod 4)) (e + 1 - 16 * j) (p + heads z o tl + 2 * (j - cnt (rm z o (gbyte t s e) (up8 e)) j)) = Ok (buf', bc', dp', e + 1 - 16 * j <=? 16) /\
    zlen buf' = 8 /\ (forall k, 0 <= k < 2 * (j mod 4) -> zn 0 buf' k = zn 0 buf k) /\
    (2 * j < up8 e -> zn 0 buf' (2 * (j mod 4)) = gbyte t s e (2 * j)) /\ (2 * j + 1 < up8 e -> zn 0 buf' (2 * (j mod 4) + 1) = gbyte t s e (2 * j + 1)) /\
    (16 * j + 16 <= e -> bc' = 2 * (j mod 4) + 2 /\ dp' = p + heads z o tl + 2 * (j + 1 - cnt (rm z o (gbyte t s e) (up8 e)) (j + 1))).
Proof.
  intros HZ Hs He Ht (A & B & C & D) Hp Hl Hb Hj Hje. specialize (A HZ).
  set (g := gbyte t s e) in *. set (n := up8 e) in *. set (R := rm z o g n) in *. assert (UB : e <= 8 * n <= e + 7) by (unfold n; apply up8_bound; lia).
  pose proof (rn_bound z o g n ltac:(lia)) as RB. unfold width in Hl.
  assert (HD : tl <= heads z o tl /\ (z && o = true -> heads z o tl = 2 * tl)).
  { unfold heads. destruct z, o; cbn [b2z orb andb] in *; try discriminate; (split; [lia|intros; lia || discriminate]). }
  destruct HD as [HD HD2]. assert (J8 : j / 8 < tl) by (clear - Ht Hje Hj; lia). assert (JN : 2 * j <= n) by lia. assert (T0 : 1 <= tl) by (clear - Ht He; lia).
  pose proof (cnt_diff R 0 j ltac:(lia)) as Q0. change (cnt R 0) with 0 in Q0. pose proof (cnt_diff R j (n / 2) ltac:(lia)) as Q1. assert (RN : rn z o g n = cnt R (n / 2)) by reflexivity.
  pose proof (cnt_succ R j Hj) as CS. fold R in C, D. clear Ht.
  unfold pair_read. assert (JJ : 0 <= j / 8) by (clear - Hj; lia). assert (J4 : 0 <= j mod 4 < 4) by (clear; lia). set (k4 := j mod 4) in *. rewrite geti_ok by lia. cbn [bind]. rewrite bit_masks_ok by lia. cbn [bind].
  rewrite (table_bit R) by (auto; apply A; lia).
  destruct (R j) eqn:ER; cbn [negb].
  - (* left out *)
    assert (JL : j < n / 2). { destruct (Z_lt_le_dec j (n / 2)); auto. unfold R in ER. rewrite rm_over in ER by lia. discriminate. }
    assert (PV : exists v, pair_value (kind_of z o) bits p tl j (2 ^ (7 - j mod 8)) = Ok v /\ g (2 * j) = v /\ g (2 * j + 1) = v).
    { unfold R, rm, gp in ER. replace (j <? n / 2) with true in ER by (clear - JL; lia). cbn [andb] in ER. destruct z, o; cbn [kind_of pair_value andb orb] in *; try discriminate.
      - rewrite geti_ok by lia. cbn [bind]. rewrite (table_bit (fl true g n) bits (p + tl)) by (auto; apply B; auto; lia).
        unfold fl, gp. replace (j <? n / 2) with true by (clear - JL; lia). cbn [andb]. destruct ((g (2 * j) =? 255) && (g (2 * j + 1) =? 255)) eqn:E; cbn [negb]; eexists; (split; [reflexivity|]); clear - ER E; lia.
      - eexists. split; [reflexivity|]. clear - ER. lia.
      - eexists. split; [reflexivity|]. clear - ER. lia. }
    destruct PV as (v & -> & G1 & G2). cbn [bind]. rewrite seti_ok by lia. cbn [bind]. rewrite seti_ok by (rewrite zlen_upd; lia). cbn [bind].
    do 3 eexists. split; [reflexivity|]. rewrite !zlen_upd. split; [auto|]. split; [|split; [|split]].
    + intros k Hk. rewrite !zn_upd by (rewrite ?zlen_upd; lia). replace (k =? 2 * k4 + 1) with false by lia. replace (k =? 2 * k4) with false by lia. reflexivity.
    + intros _. rewrite !zn_upd by (rewrite ?zlen_upd; lia). replace (2 * k4 =? 2 * k4 + 1) with false by lia. rewrite Z.eqb_refl. auto.
    + intros _. rewrite !zn_upd by (rewrite ?zlen_upd; lia). rewrite Z.eqb_refl. auto.
    + intros _. cbn [b2z] in CS. split; [reflexivity|]. lia.
  - cbn [b2z] in CS. set (dp := p + heads z o tl + 2 * (j - cnt R j)) in *.
    assert (X1 : 2 * j < n -> zn 0 bits dp = g (2 * j)).
    { intros X. destruct (Z_lt_le_dec j (n / 2)) as [Y|Y]; [apply C; auto; lia|]. assert (EJ : j = n / 2) by lia. specialize (D ltac:(lia)). unfold dp. rewrite EJ, <- RN. rewrite D. f_equal. lia. }
    assert (X2 : 2 * j + 1 < n -> zn 0 bits (dp + 1) = g (2 * j + 1)) by (intros X; apply C; auto; lia).
    assert (LE : j = n / 2 \/ dp + 2 <= p + heads z o tl + 2 * (n / 2 - rn z o g n)).
    { destruct (Z.eq_dec j (n / 2)); [left; auto|right]. pose proof (cnt_diff R (j + 1) (n / 2) ltac:(lia)) as Q2. lia. }
    assert (Q3 : dp <= p + heads z o tl + 2 * (n / 2 - rn z o g n)) by (unfold dp; lia).
    rewrite geti_ok by lia. cbn [bind]. rewrite seti_ok by lia. cbn [bind]. destruct (e + 1 - 16 * j <=? 8) eqn:E8.
    + replace (e + 1 - 16 * j <=? 16) with true by lia. do 3 eexists. split; [reflexivity|]. rewrite zlen_upd. split; [auto|]. split; [|split; [|split]]; try lia.
      * intros k Hk. rewrite zn_upd by lia. replace (k =? 2 * k4) with false by lia. reflexivity.
      * intros X. rewrite zn_upd by lia. rewrite Z.eqb_refl. auto.
    + rewrite geti_ok by lia. cbn [bind]. rewrite seti_ok by (rewrite zlen_upd; lia). cbn [bind]. do 3 eexists. split; [reflexivity|]. rewrite !zlen_upd. split; [auto|]. split; [|split; [|split]].
      * intros k Hk. rewrite !zn_upd by (rewrite ?zlen_upd; lia). replace (k =? 2 * k4 + 1) with false by lia. replace (k =? 2 * k4) with false by lia. reflexivity.
      * intros X. rewrite !zn_upd by (rewrite ?zlen_upd; lia). replace (2 * k4 =? 2 * k4 + 1) with false by lia. rewrite Z.eqb_refl. auto.
      * intros X. rewrite !zn_upd by (rewrite ?zlen_upd; lia). rewrite Z.eqb_refl. auto.
      * intros X. split; [reflexivity|]. unfold dp. lia.
Qed.

Lemma gbyte_part t s e q k : gbyte t s e (8 * q + k) = bpart t (s + 64 * q + 8 * k) (Z.min 8 (e - 64 * q - 8 * k)).
Proof. unfold gbyte. f_equal; lia. Qed.

Lemma decode_ok z o t s e tl bits p : z || o = true -> 0 <= s -> 0 <= e -> s + e < 2 ^ 62 -> tl = e / 128 + 1 ->
  packed z o (gbyte t s e) (up8 e) tl bits p -> 0 <= p -> p + width z o (gbyte t s e) (up8 e) tl < zlen bits ->
  forall m j buf i, j + Z.of_nat m = 8 * tl -> 0 <= j -> 16 * j <= e -> zlen buf = 8 ->
  (forall k, 0 <= k < 2 * (j mod 4) -> zn 0 buf k = gbyte t s e (8 * (j / 4) + k)) -> 1 <= i <= ts t (s + 64 * (j / 4)) (s + e) ->
  exists q, decode (kind_of z o) bits p tl (zrange j m) buf (2 * (j mod 4)) (e + 1 - 16 * j) i (s + 64 * (j / 4)) (p + heads z o tl + 2 * (j - cnt (rm z o (gbyte t s e) (up8 e)) j)) = Ok q /\
    s + 64 * (j / 4) <= q < s + e /\ tb t q = 1 /\ ts t (s + 64 * (j / 4)) q = i - 1.
Proof.
  intros HZ Hs He Hse Ht PK Hp Hl. induction m as [|m IH]; intros j buf i Hm Hj Hje Hb HB Hi; [exfalso; clear - Hm Ht Hje Hj; lia|].
  cbn [zrange]. rewrite decode_step.
  destruct (pair_read_ok z o t s e tl bits p buf j HZ Hs He Ht PK Hp Hl Hb Hj Hje) as (buf' & bc' & dp' & -> & Z1 & B1 & B2 & B3 & B4). cbn [bind].
  assert (UB : e <= 8 * up8 e <= e + 7) by (apply up8_bound; lia).
  set (j4 := j / 4) in *. set (k4 := j mod 4) in *. assert (JE : j = 4 * j4 + k4 /\ 0 <= k4 < 4) by (unfold j4, k4; clear; lia). destruct JE as [JE K4].
  assert (J40 : 0 <= j4) by (unfold j4; clear - Hj; lia).
  assert (NEW : forall k, 0 <= k < 2 * k4 + 2 -> 8 * j4 + k < up8 e -> zn 0 buf' k = gbyte t s e (8 * j4 + k)).
  { intros k Hk Hn. destruct (Z_lt_le_dec k (2 * k4)); [rewrite B1 by lia; apply HB; lia|]. destruct (Z.eq_dec k (2 * k4)) as [EK|].
    - rewrite EK. rewrite B2 by lia. f_equal. lia.
    - replace k with (2 * k4 + 1) by lia. rewrite B3 by lia. f_equal. lia. }
  destruct (e + 1 - 16 * j <=? 16) eqn:EO.
  - assert (UE : up8 (e - 64 * j4) <= 2 * k4 + 2 /\ up8 (e - 64 * j4) = up8 e - 8 * j4).
    { pose proof (up8_bound (e - 64 * j4) ltac:(lia)). lia. }
    destruct (in_buffer_ok t buf' (s + 64 * j4) (e - 64 * j4) i) as (q & -> & Q1 & Q2 & Q3); try lia.
    + split; [lia|]. split; [lia|]. intros k Hk. rewrite Z.add_0_l. rewrite NEW by lia. apply gbyte_part.
    + replace (s + 64 * j4 + (e - 64 * j4)) with (s + e) by lia. exact Hi.
    + exists q. split; [reflexivity|]. split; [lia|]. auto.
  - destruct (B4 ltac:(lia)) as [-> ->]. destruct ((2 * k4 + 2) mod 8 =? 0) eqn:E8.
    + assert (k4 = 3) by (clear - E8 K4; lia). assert (DN : dense t buf' (s + 64 * j4) 64 0).
      { split; [lia|]. change (up8 64) with 8. split; [lia|]. intros k Hk. rewrite Z.add_0_l. rewrite NEW by lia. rewrite gbyte_part. f_equal. lia. }
      destruct (dense_word t buf' (s + 64 * j4) 64 0 0 DN ltac:(lia) ltac:(lia)) as [LD PC]. change (0 + 0) with 0 in *. rewrite LD. cbn [bind]. rewrite PC. rewrite Z.mul_0_r, Z.add_0_r.
      destruct (ts t (s + 64 * j4) (s + 64 * j4 + 64) >=? i) eqn:EP.
      * destruct (in_buffer_ok t buf' (s + 64 * j4) 64 i) as (q & -> & Q1 & Q2 & Q3); try lia; auto. exists q. split; [reflexivity|]. split; [lia|]. auto.
      * assert (NJ : (j + 1) / 4 = j4 + 1 /\ (j + 1) mod 4 = 0) by (clear - JE H; lia). destruct NJ as [NJ1 NJ2].
        assert (SP : ts t (s + 64 * j4) (s + e) = ts t (s + 64 * j4) (s + 64 * j4 + 64) + ts t (s + 64 * j4 + 64) (s + e)) by (apply ts_split; lia).
        destruct (IH (j + 1) buf' (i - ts t (s + 64 * j4) (s + 64 * j4 + 64))) as (q & E & Q1 & Q2 & Q3); [lia|lia|lia|exact Z1|rewrite NJ2; intros; lia|..].
        -- rewrite NJ1. replace (s + 64 * (j4 + 1)) with (s + 64 * j4 + 64) by lia. lia.
        -- rewrite NJ1, NJ2 in *. rewrite Z.mul_0_r in E. replace (s + 64 * (j4 + 1)) with (s + 64 * j4 + 64) in * by lia. replace (e + 1 - 16 * (j + 1)) with (e + 1 - 16 * j - 16) in E by lia.
           rewrite wrap_small by lia. rewrite E. exists q. split; [reflexivity|]. split; [lia|]. split; [auto|]. rewrite (ts_split t (s + 64 * j4) (s + 64 * j4 + 64) q) by lia. lia.
    + assert (NJ : (j + 1) / 4 = j4 /\ (j + 1) mod 4 = k4 + 1) by (clear - JE K4 E8; lia). destruct NJ as [NJ1 NJ2].
      destruct (IH (j + 1) buf' i) as (q & E & Q1 & Q2 & Q3); [lia|lia|lia|exact Z1|..].
      * rewrite NJ1, NJ2. intros k Hk. apply NEW; lia.
      * rewrite NJ1. exact Hi.
      * rewrite NJ1, NJ2 in *. replace (2 * (k4 + 1)) with (2 * k4 + 2) in E by lia. replace (e + 1 - 16 * (j + 1)) with (e + 1 - 16 * j - 16) in E by lia.
        exists q. split; [exact E|]. auto.
Qed.

Lemma compressed_ok z o t s e bits buf p i : z || o = true -> 0 <= s -> 0 <= e -> s + e < 2 ^ 62 ->
  packed z o (gbyte t s e) (up8 e) (table_len (e + 1)) bits p -> 0 <= p -> p + width z o (gbyte t s e) (up8 e) (table_len (e + 1)) < zlen bits -> zlen buf = 8 -> 1 <= i <= ts t s (s + e) ->
  exists q, in_compressed (kind_of z o) bits buf p (e + 1) i s = Ok q /\ s <= q < s + e /\ tb t q = 1 /\ ts t s q = i - 1.
Proof.
  intros HZ Hs He Hse PK Hp Hl Hb Hi. unfold in_compressed. assert (TE : table_len (e + 1) = e / 128 + 1) by (unfold table_len; rewrite wrap_small by lia; f_equal; f_equal; lia).
  set (tl := table_len (e + 1)) in *. assert (T1 : 1 <= tl) by (rewrite TE; clear - He; lia).
  destruct (decode_ok z o t s e tl bits p HZ Hs He Hse TE PK Hp Hl (Z.to_nat (8 * tl)) 0 buf i ltac:(lia) ltac:(lia) ltac:(lia) Hb) as (q & E & Q1 & Q2 & Q3).
  - intros k Hk. change (0 mod 4) with 0 in Hk. lia.
  - change (0 / 4) with 0. rewrite Z.mul_0_r, Z.add_0_r. exact Hi.
  - change (0 / 4) with 0 in *. change (0 mod 4) with 0 in *. change (cnt _ 0) with 0 in E. rewrite !Z.mul_0_r, !Z.add_0_r, !Z.sub_0_r in *. change (0 - 0) with 0 in E.
    exists q. split; [|auto]. rewrite <- E. f_equal. unfold heads, kind_of. destruct z, o; cbn [b2z orb] in *; try discriminate; lia.
Qed.
