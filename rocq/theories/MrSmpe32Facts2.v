(** Blocks of SelectMPE64 and SelectMPE32 that do not fit into the bytes allocated. *)
From Coq Require Import ZifyBool.
From Verif Require Import Base BaseFacts Mem MemFacts Words WordFacts BlockFacts NodeFacts Trees TreeBuild Spec BitmapFacts KernelFacts SpecPoppy PoppyFacts PoppyFacts2 SpecText MrRank MrRankFacts MrSelect MrSelectFacts MrSelectFacts2 MrSelectFacts3 MrMpe MrMpeFacts MrMpeFacts2 MrSmpe MrSmpeFacts MrSmpeFacts2.
Ltac Zify.zify_post_hook ::= Z.div_mod_to_equations.

Lemma seti_or (l : list Z) k v : 0 <= k -> (k < zlen l /\ seti l k v = Ok (upd l k v)) \/ (zlen l <= k /\ seti l k v = Ub UB_bounds).
Proof. intros H. unfold seti. destruct ((0 <=? k) && (k <? zlen l)) eqn:E; [left|right]; (split; [lia|reflexivity]). Qed.

Lemma put_pair_or g n cont bits bc j : holds g n cont -> 0 <= j < n / 2 -> 0 <= bc ->
  (exists bits', put_pair cont bits bc j = Ok (bits', bc + 2) /\ zlen bits' = zlen bits /\ bc + 2 <= zlen bits) \/ put_pair cont bits bc j = Ub UB_bounds.
Proof.
  intros (H0 & H1 & H2) Hj Hb. unfold put_pair. rewrite geti_ok by lia. cbn [bind].
  destruct (seti_or bits bc (u8 (zn 0 cont (2 * j))) Hb) as [[A ->]|[A ->]]; cbn [bind]; [|auto]. rewrite geti_ok by lia. cbn [bind].
  destruct (seti_or (upd bits bc (u8 (zn 0 cont (2 * j)))) (bc + 1) (u8 (zn 0 cont (2 * j + 1))) ltac:(lia)) as [[B ->]|[B ->]]; cbn [bind]; [left|auto].
  rewrite zlen_upd in B. eexists. split; [reflexivity|]. rewrite !zlen_upd. split; [auto|lia].
Qed.

Lemma put_odd_or g n cont bits bc : holds g n cont -> 0 <= bc ->
  (exists bits', put_odd cont bits bc n = Ok (bits', bc + n mod 2) /\ zlen bits' = zlen bits /\ (n mod 2 = 1 -> bc + n mod 2 <= zlen bits)) \/ put_odd cont bits bc n = Ub UB_bounds.
Proof.
  intros (H0 & H1 & H2) Hb. unfold put_odd. destruct (n mod 2 =? 1) eqn:E.
  - rewrite geti_ok by lia. cbn [bind]. destruct (seti_or bits bc (u8 (zn 0 cont (n - 1))) Hb) as [[A ->]|[A ->]]; cbn [bind]; [left|auto].
    eexists. split; [do 2 f_equal; lia|]. rewrite zlen_upd. split; [auto|lia].
  - left. exists bits. split; [do 2 f_equal; lia|]. split; [auto|lia].
Qed.

Lemma put_table_or tab off tl bits : 0 <= off -> 0 <= tl <= zlen tab ->
  (exists bits', put_table bits off tl tab = Ok bits' /\ zlen bits' = zlen bits /\ (tl = 0 \/ off + tl <= zlen bits)) \/ put_table bits off tl tab = Ub UB_bounds.
Proof.
  intros H0 Ht. unfold put_table.
  destruct (foldM_inv_or (fun bits k => let* x := geti tab k in seti bits (off + k) x) (fun q b => zlen b = zlen bits /\ (q = 0 \/ off + q <= zlen bits)) UB_bounds True (Z.to_nat tl) 0 bits) as [(b & E & I1 & I2)|[E _]].
  - auto.
  - intros q b Hq (I1 & I2). rewrite geti_ok by lia. cbn [bind]. destruct (seti_or b (off + q) (zn 0 tab q) ltac:(lia)) as [[A ->]|[A ->]]; [left|auto].
    eexists. split; [reflexivity|]. rewrite zlen_upd. split; [auto|lia].
  - left. exists b. split; [exact E|]. split; [auto|lia].
  - right. exact E.
Qed.

(** The pairs kept so far. *)
Definition keptP (R : Z -> bool) (base : Z) (bits : list Z) (j : Z) (bits' : list Z) (bc : Z) : Prop :=
  zlen bits' = zlen bits /\ bc = base + 2 * (j - cnt R j) /\ (cnt R j = j \/ bc <= zlen bits).
Lemma keptP_drop R base bits j bits' bc : 0 <= j -> R j = true -> keptP R base bits j bits' bc -> keptP R base bits (j + 1) bits' bc.
Proof. intros Hj E (A & B & C). unfold keptP. rewrite cnt_succ by lia. rewrite E. cbn [b2z]. split; [auto|]. split; lia. Qed.
Lemma keptP_keep R base bits j bits' b2 bc : 0 <= j -> R j = false -> zlen b2 = zlen bits' -> bc + 2 <= zlen bits' -> keptP R base bits j bits' bc -> keptP R base bits (j + 1) b2 (bc + 2).
Proof. intros Hj E Z1 Z2 (A & B & C). unfold keptP. rewrite cnt_succ by lia. rewrite E. cbn [b2z]. split; [lia|]. split; lia. Qed.
Lemma keptP_pos R base bits j bits' bc : 0 <= base -> 0 <= j -> keptP R base bits j bits' bc -> 0 <= bc.
Proof. intros Hb Hj (A & B & C). pose proof (cnt_diff R 0 j ltac:(lia)) as Q. change (cnt R 0) with 0 in Q. lia. Qed.

Lemma one3_or v g n cont bits base size R : holds g n cont -> (forall j, 0 <= j < n / 2 -> gp v g n j = R j) -> 0 <= base -> n <= 16 * size ->
  (exists bits' bc tab, foldM (one_step v cont) (zrange 0 (Z.to_nat (n / 2))) (bits, base, repeat 0 (Z.to_nat size)) = Ok (bits', bc, tab) /\ tabP R size (n / 2) tab /\ keptP R base bits (n / 2) bits' bc) \/
  foldM (one_step v cont) (zrange 0 (Z.to_nat (n / 2))) (bits, base, repeat 0 (Z.to_nat size)) = Ub UB_bounds.
Proof.
  intros H HR Hb Hs. pose proof (proj1 H) as Hn.
  destruct (foldM_inv_or (one_step v cont) (fun j st => let '(bits', bc, tab) := st in tabP R size j tab /\ keptP R base bits j bits' bc) UB_bounds True
    (Z.to_nat (n / 2)) 0 (bits, base, repeat 0 (Z.to_nat size))) as [([[bits' bc] tab] & E & P1 & P2)|[E _]].
  - split; [apply tabP_0; lia|]. split; [auto|]. change (cnt R 0) with 0. split; lia.
  - intros j [[bits' bc] tab] Hj (TP & PP). unfold one_step. rewrite (pair_eq_gp v g n) by (auto; lia). cbn [bind]. rewrite HR by lia. destruct (R j) eqn:E.
    + destruct (mark_ok R size j tab ltac:(lia) ltac:(lia) E TP) as (tab' & -> & TP'). cbn [bind]. left. eexists. split; [reflexivity|]. split; [exact TP'|]. apply keptP_drop; auto. lia.
    + destruct (put_pair_or g n cont bits' bc j H ltac:(lia) (keptP_pos R base bits j bits' bc Hb ltac:(lia) PP)) as [(b2 & -> & Z1 & Z2)| ->]; cbn [bind]; [left|auto].
      eexists. split; [reflexivity|]. split; [apply tabP_skip; auto|]. apply (keptP_keep R base bits j bits'); auto. lia.
  - left. exists bits', bc, tab. replace (0 + Z.of_nat (Z.to_nat (n / 2))) with (n / 2) in * by lia. auto.
  - right. exact E.
Qed.

Lemma both3_or g n cont bits base size R F : holds g n cont -> (forall j, 0 <= j < n / 2 -> gp 0 g n j || gp 255 g n j = R j) -> (forall j, 0 <= j < n / 2 -> gp 255 g n j = F j) ->
  0 <= base -> n <= 16 * size ->
  (exists bits' bc tab1 tab2, foldM (both_step cont) (zrange 0 (Z.to_nat (n / 2))) (bits, base, repeat 0 (Z.to_nat size), repeat 0 (Z.to_nat size)) = Ok (bits', bc, tab1, tab2) /\
    tabP R size (n / 2) tab1 /\ tabP F size (n / 2) tab2 /\ keptP R base bits (n / 2) bits' bc) \/
  foldM (both_step cont) (zrange 0 (Z.to_nat (n / 2))) (bits, base, repeat 0 (Z.to_nat size), repeat 0 (Z.to_nat size)) = Ub UB_bounds.
Proof.
  intros H HR HF Hb Hs. pose proof (proj1 H) as Hn.
  destruct (foldM_inv_or (both_step cont) (fun j st => let '(bits', bc, tab1, tab2) := st in tabP R size j tab1 /\ tabP F size j tab2 /\ keptP R base bits j bits' bc) UB_bounds True
    (Z.to_nat (n / 2)) 0 (bits, base, repeat 0 (Z.to_nat size), repeat 0 (Z.to_nat size))) as [([[[bits' bc] tab1] tab2] & E & P1 & P2 & P3)|[E _]].
  - split; [apply tabP_0; lia|]. split; [apply tabP_0; lia|]. split; [auto|]. change (cnt R 0) with 0. split; lia.
  - intros j [[[bits' bc] tab1] tab2] Hj (TP & TP2 & PP). unfold both_step. rewrite !(pair_eq_gp _ g n) by (auto; lia). cbn [bind].
    assert (W2 : exists t2, (if gp 255 g n j then mark tab2 j else Ok tab2) = Ok t2 /\ tabP F size (j + 1) t2).
    { rewrite HF by lia. destruct (F j) eqn:E; [apply mark_ok; auto; lia|]. exists tab2. split; [reflexivity|]. apply tabP_skip; auto. }
    destruct W2 as (t2 & -> & TP2'). cbn [bind].
    assert (G : (if gp 0 g n j then Ok true else Ok (gp 255 g n j)) = Ok (R j)) by (rewrite <- HR by lia; destruct (gp 0 g n j); reflexivity).
    rewrite G. cbn [bind]. destruct (R j) eqn:E.
    + destruct (mark_ok R size j tab1 ltac:(lia) ltac:(lia) E TP) as (tab' & -> & TP'). cbn [bind]. left. eexists. split; [reflexivity|]. split; [exact TP'|].
      split; [exact TP2'|]. apply keptP_drop; auto. lia.
    + destruct (put_pair_or g n cont bits' bc j H ltac:(lia) (keptP_pos R base bits j bits' bc Hb ltac:(lia) PP)) as [(b2 & -> & Z1 & Z2)| ->]; cbn [bind]; [left|auto].
      eexists. split; [reflexivity|]. split; [apply tabP_skip; auto|]. split; [exact TP2'|]. apply (keptP_keep R base bits j bits'); auto. lia.
  - left. exists bits', bc, tab1, tab2. replace (0 + Z.of_nat (Z.to_nat (n / 2))) with (n / 2) in * by lia. auto.
  - right. exact E.
Qed.

Lemma store_one3_bad v z o g n cont d th bits bc : holds g n cont -> (v = 0 /\ z = true /\ o = false \/ v = 255 /\ z = false /\ o = true) ->
  table_len d <= th / 8 / 2 / 8 + 1 -> n <= 16 * table_len d -> 0 <= table_len d -> 0 <= bc <= zlen bits -> zlen bits < bc + width z o g n (table_len d) ->
  store_one3 v th cont n d bits bc = Ub UB_bounds.
Proof.
  intros H HV Ht Hn T0 Hb Hl. unfold store_one3. set (tl := table_len d) in *. set (size := th / 8 / 2 / 8 + 1) in *. pose proof (proj1 H) as Hn0.
  pose proof (rn_bound z o g n ltac:(lia)) as RB. assert (HD : heads z o tl = tl) by (unfold heads; destruct HV as [(_ & -> & ->)|(_ & -> & ->)]; cbn [b2z]; lia).
  unfold width in *. rewrite HD in *. unfold zero_table. fold size. replace (tl <=? size) with true by lia. cbn [bind].
  assert (RE : forall j, 0 <= j < n / 2 -> gp v g n j = rm z o g n j).
  { intros j Hj. unfold rm. destruct HV as [(-> & -> & ->)|(-> & -> & ->)]; cbn [andb orb]; rewrite ?orb_false_r; reflexivity. }
  destruct (one3_or v g n cont bits (bc + tl) size (rm z o g n) H RE ltac:(lia) ltac:(lia)) as [(b1 & bc1 & tab & -> & TP & P1 & P2 & P3)| ->]; cbn [bind]; [|reflexivity].
  fold (rn z o g n) in P2, P3.
  destruct (put_odd_or g n cont b1 bc1 H ltac:(lia)) as [(b2 & -> & Q1 & Q2)| ->]; cbn [bind]; [|reflexivity].
  destruct (put_table_or tab bc tl b2 ltac:(lia) ltac:(destruct TP; lia)) as [(b3 & -> & S1 & S2)| ->]; cbn [bind]; [|reflexivity].
  exfalso. lia.
Qed.

Lemma store_both3_bad g n cont d th bits bc : holds g n cont ->
  table_len d <= th / 8 / 2 / 8 + 1 -> n <= 16 * table_len d -> 0 <= table_len d -> 0 <= bc <= zlen bits -> zlen bits < bc + width true true g n (table_len d) ->
  store_both3 th cont n d bits bc = Ub UB_bounds.
Proof.
  intros H Ht Hn T0 Hb Hl. unfold store_both3. set (tl := table_len d) in *. set (size := th / 8 / 2 / 8 + 1) in *. pose proof (proj1 H) as Hn0.
  pose proof (rn_bound true true g n ltac:(lia)) as RB. assert (HD : heads true true tl = 2 * tl) by (unfold heads; cbn [b2z]; lia).
  unfold width in *. rewrite HD in *. unfold zero_table. fold size. replace (tl <=? size) with true by lia. cbn [bind].
  destruct (both3_or g n cont bits (bc + 2 * tl) size (rm true true g n) (fl true g n) H ltac:(reflexivity) ltac:(reflexivity) ltac:(lia) ltac:(lia)) as [(b1 & bc1 & tab1 & tab2 & -> & TP & TP2 & P1 & P2 & P3)| ->]; cbn [bind]; [|reflexivity].
  fold (rn true true g n) in P2, P3.
  destruct (put_odd_or g n cont b1 bc1 H ltac:(lia)) as [(b2 & -> & Q1 & Q2)| ->]; cbn [bind]; [|reflexivity].
  destruct (put_table_or tab1 bc tl b2 ltac:(lia) ltac:(destruct TP; lia)) as [(b3 & -> & S1 & S2)| ->]; cbn [bind]; [|reflexivity].
  destruct (put_table_or tab2 (bc + tl) tl b3 ltac:(lia) ltac:(destruct TP2; lia)) as [(b4 & -> & U1 & U2)| ->]; cbn [bind]; [|reflexivity].
  exfalso. lia.
Qed.

Lemma store3_bad T z o g n cont d th bits bc : holds g n cont -> (T = MPE1 -> z = o) ->
  table_len d <= th / 8 / 2 / 8 + 1 -> n <= 16 * table_len d -> 0 <= table_len d -> 0 <= bc <= zlen bits -> zlen bits < bc + width z o g n (table_len d) ->
  store3 T th (code T z o) cont n d bits bc = Ub UB_bounds.
Proof.
  intros H HT Ht Hn T0 Hb Hl. pose proof (proj1 H) as Hn0.
  assert (PL : z = false -> o = false -> store_plain3 cont n bits bc = Ub UB_bounds).
  { intros -> ->. rewrite width_plain in * by lia. destruct (store_plain3_or g n cont bits bc H ltac:(lia)) as [(b' & -> & B1 & B2 & B3 & B4)|[-> X]]; [lia|reflexivity]. }
  unfold store3. destruct T.
  - specialize (HT eq_refl). subst z. cbn [code]. destruct o; cbn [b2z Z.eqb]; [apply (store_both3_bad g); auto|apply PL; reflexivity].
  - cbn [code]. destruct z, o; cbn [b2z Z.add Z.mul Z.eqb Pos.eqb Pos.add].
    + apply (store_both3_bad g); auto.
    + apply (store_one3_bad 0 true false g); auto.
    + apply (store_one3_bad 255 false true g); auto.
    + apply PL; reflexivity.
  - cbn [code]. destruct z, o; cbn [b2z Z.add Z.mul Z.eqb Pos.eqb Pos.add].
    + apply (store_both3_bad g); auto.
    + apply (store_one3_bad 0 true false g); auto.
    + apply (store_one3_bad 255 false true g); auto.
    + apply PL; reflexivity.
Qed.
