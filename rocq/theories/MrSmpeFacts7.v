(** Queries of SelectMPE64. *)
From Coq Require Import ZifyBool.
From Verif Require Import Base BaseFacts Mem MemFacts Words WordFacts BlockFacts NodeFacts Trees TreeBuild Spec BitmapFacts KernelFacts SpecPoppy PoppyFacts PoppyFacts2 SpecText MrRank MrRankFacts MrRankFacts2 MrRankFacts3 MrSelect MrSelectFacts MrSelectFacts2 MrSelectFacts3 MrSelectFacts4 MrSelectFacts5 MrSelectFacts6 MrMpe SpecSmpe MrMpeFacts MrMpeFacts2 MrMpeFacts3 MrMpeFacts5 MrSmpe MrSmpeFacts MrSmpeFacts2 MrSmpeFacts3 MrSmpeFacts4 MrSmpeFacts5 MrSmpeFacts6.
Ltac Zify.zify_post_hook ::= Z.div_mod_to_equations.

(** ** Sizes of blocks *)
Lemma limit_bound M : 1023 <= field_limit M <= 2184 /\ (M <> MPE1 -> field_limit M = 1023).
Proof. destruct M; cbn; split; intros; try lia; congruence. Qed.

Lemma cw_small M L T t c : 1 <= L < T -> zlen t < 2 ^ 58 -> fits_fields M L T = true -> 0 <= c < nbk L t - 1 -> 0 <= cw M L T t c <= field_limit M.
Proof.
  intros HL Hl F Hc. split; [apply cw_nonneg; lia|]. unfold fits_fields in F. apply andb_prop in F. destruct F as [F1 F2].
  assert (FU : fullb L t c = true) by (apply full_iff; lia). destruct (limit_bound M) as [LB _]. destruct (de L T t c) eqn:D.
  - pose proof D as D'. apply de_true in D'. destruct D' as [D1 D2]. rewrite cw_de by auto. unfold width.
    pose proof (DD_pos L t c ltac:(lia) ltac:(lia)) as DP. pose proof (tlen_bound L t c ltac:(lia) Hl ltac:(lia)) as TB.
    assert (EE : ee L t c = DD L t c - 1) by (unfold ee; rewrite FU; reflexivity).
    assert (N : nb8 L t c <= (T + 6) / 8). { unfold nb8. rewrite EE. rewrite up8_div by lia. unfold sp in D1. set (d := DD L t c) in *. clearbody d. clear - D1 DP. lia. }
    pose proof (nb8_bound L t c ltac:(lia) ltac:(lia)) as NB. pose proof (tlen_eq L t c ltac:(lia) Hl ltac:(lia)) as TE.
    set (g := gb L t c) in *. set (n := nb8 L t c) in *. rewrite rn_parts by lia.
    set (tl := tlen L t c) in *. unfold cz, co. rewrite D. replace (c + 1 <? nbk L t) with true by lia. cbn [andb]. fold g n tl. set (n0 := gn 0 g n) in *. set (n1 := gn 255 g n) in *.
    assert (N0 : 0 <= n0) by (unfold n0, gn; apply cnt_bound; lia). assert (N1 : 0 <= n1) by (unfold n1, gn; apply cnt_bound; lia).
    unfold heads. destruct M; cbn [dz3 do3] in *.
    + destruct (n0 + n1 >? tl) eqn:E; cbn [b2z]; lia.
    + destruct (2 * n0 >? tl) eqn:E, (2 * n1 >? tl) eqn:E'; cbn [b2z]; lia.
    + assert (TT : tl <= (T - 1) / 128 + 1). { rewrite TE. unfold sp in D1. set (d := DD L t c) in *. clearbody d. clear - D1 DP. lia. }
      set (q := (T - 1) / 128 + 1) in *. set (n8 := (T + 6) / 8) in *. clearbody q n8 tl n0 n1 n. clear - TT N N0 N1 F2 TB.
      destruct ((n0 >? 9) && (n1 >? 9) || (n0 >=? 18) && (n1 <=? 9)), ((n0 >? 9) && (n1 >? 9) || (n0 <=? 9) && (n1 >=? 18)); cbn [b2z]; lia.
  - destruct (not_de M L T t c D) as [N1 N2]. rewrite cw_plain by (auto; lia). destruct (sp L T t c) eqn:ES.
    + rewrite ww_sp by auto. unfold ones_in. rewrite FU. lia.
    + unfold de in D. rewrite ES in D. cbn in D. rewrite ww_mo by (destruct (mo L T t c); [reflexivity|discriminate]). lia.
Qed.

Lemma CO_near M L T t a j : 1 <= L < T -> zlen t < 2 ^ 58 -> fits_fields M L T = true -> 0 <= a -> 0 <= j -> a + j < nbk L t -> 0 <= CO M L T t (a + j) - CO M L T t a <= field_limit M * j.
Proof.
  intros HL Hl F Ha Hj. replace j with (Z.of_nat (Z.to_nat j)) by lia. set (n := Z.to_nat j). clearbody n. clear j Hj. induction n as [|n IH]; intros Hn; [rewrite Z.add_0_r; lia|].
  replace (a + Z.of_nat (S n)) with (a + Z.of_nat n + 1) by lia. rewrite CO_succ by lia. pose proof (cw_small M L T t (a + Z.of_nat n) HL Hl F ltac:(lia)). lia.
Qed.

(** ** Flags *)
Definition read_flag (M : mpe_type) (f : Z) : Z := match M with MPE1 => if f =? 0 then 0 else 1 | _ => f mod 4 end.
Lemma flagv_bound M L T t c : 0 <= flagv M L T t c <= 3 /\ (M = MPE1 -> flagv M L T t c <= 1) /\ read_flag M (flagv M L T t c) = flagv M L T t c.
Proof. unfold flagv. destruct M, (cz _ L T t c), (co _ L T t c); cbn; repeat split; try lia; discriminate. Qed.
Lemma gof_flag M L T t c : 0 <= gof M (flagv M L T t c) <= 3 /\ (M = MPE1 -> gof M (flagv M L T t c) <= 2).
Proof. unfold flagv. destruct M, (cz _ L T t c), (co _ L T t c); cbn; split; try lia; discriminate. Qed.
Lemma hof_flag M L T t c : 0 <= hof M (flagv M L T t c) <= 4 /\ (M <> MPE1 -> hof M (flagv M L T t c) <= 3).
Proof. unfold flagv. destruct M, (cz _ L T t c), (co _ L T t c); cbn; split; try lia; congruence. Qed.
Lemma gof_read M f : 0 <= f < 256 -> gof M f mod 4 = match M with MPE1 => 2 * read_flag M f | _ => read_flag M f end.
Proof. intros H. unfold gof, read_flag. destruct M; [destruct (f =? 0); reflexivity|reflexivity|reflexivity]. Qed.
Lemma hof_read M f : 0 <= f < 256 -> match M with MPE1 => (hof M f / 4) mod 2 | _ => hof M f mod 4 end = read_flag M f.
Proof. intros H. unfold hof, read_flag. destruct M; [destruct (f =? 0); reflexivity|lia|lia]. Qed.

Lemma read_far M D G : 0 <= D <= 15 * field_limit M -> 0 <= G -> (M = MPE1 -> G mod 2 = 0) ->
  ((D + 2 ^ 14 * G) mod 2 ^ 16) mod far_mask M = D /\ ((D + 2 ^ 14 * G) mod 2 ^ 16) / flag_unit M = match M with MPE1 => (G mod 4) / 2 | _ => G mod 4 end /\
  (G mod 4 = 0 -> ((D + 2 ^ 14 * G) mod 2 ^ 16) mod 2 ^ 16 = D).
Proof. intros HD HG H1. destruct M; cbn [field_limit far_mask flag_unit] in *; [specialize (H1 eq_refl)|clear H1|clear H1]; repeat split; intros; lia. Qed.
Lemma read_near M D G H : 0 <= D <= 4 * field_limit M -> 0 <= G -> (M = MPE1 -> G mod 2 = 0 /\ H mod 4 = 0) -> 0 <= H <= 4 -> (M <> MPE1 -> H <= 3) ->
  ((D + 2 ^ 14 * G + 2 ^ 12 * H) mod 2 ^ 16) mod near_mask M = D /\ ((D + 2 ^ 14 * G + 2 ^ 12 * H) mod 2 ^ 16) / flag_unit M = match M with MPE1 => (G mod 4) / 2 | _ => G mod 4 end.
Proof.
  intros HD HG H1 HH H2. destruct M; cbn [field_limit near_mask flag_unit] in *; [destruct (H1 eq_refl) as [H3 H4]; clear H1|specialize (H2 ltac:(discriminate)); clear H1|specialize (H2 ltac:(discriminate)); clear H1]; split; lia.
Qed.

(** ** The header of a superblock *)
Lemma xat_ok M L T t jf temp btc s j : 1 <= L < T -> zlen t < 2 ^ 58 -> fits_fields M L T = true -> temp3 M L T t temp -> btc3 M L T t jf btc -> 0 <= s -> 16 * s < nbk L t -> 0 <= j < 15 ->
  let D := CO M L T t (Z.min (16 * s + j + 1) (nbk L t - 1)) - CO M L T t (16 * s) in let f := btcv jf btc (16 * s + j + 1) in
  xat M jf temp btc s j = D + 2 ^ 14 * gof M f /\ 0 <= D <= field_limit M * Z.min (j + 1) (nbk L t - 1 - 16 * s) /\ 0 <= f < 256 /\
  (16 * s + j + 1 < nbk L t - 1 -> f = flagv M L T t (16 * s + j + 1)) /\ (16 * s + j + 1 = nbk L t - 1 -> f = lastflag L t jf).
Proof.
  intros HL Hl F (T1 & T2 & T3) (B1 & B2 & B3) Hs HN Hj D f. unfold xat. fold f. rewrite T3 by lia. replace (32 * s + 1) with (2 * (16 * s) + 1) by lia. rewrite T3 by lia. rewrite (Z.min_l (16 * s)) by lia. fold D.
  assert (DB : 0 <= D <= field_limit M * Z.min (j + 1) (nbk L t - 1 - 16 * s)).
  { pose proof (CO_near M L T t (16 * s) (Z.min (j + 1) (nbk L t - 1 - 16 * s)) HL Hl F ltac:(lia) ltac:(lia) ltac:(lia)) as C. replace (16 * s + Z.min (j + 1) (nbk L t - 1 - 16 * s)) with (Z.min (16 * s + j + 1) (nbk L t - 1)) in C by lia. exact C. }
  assert (F1 : 16 * s + j + 1 < nbk L t - 1 -> f = flagv M L T t (16 * s + j + 1)).
  { intros Q. unfold f, btcv. replace ((0 <=? 16 * s + j + 1) && (16 * s + j + 1 <? zlen btc)) with true by lia. apply B2. lia. }
  assert (F2 : 16 * s + j + 1 = nbk L t - 1 -> f = lastflag L t jf).
  { intros Q. unfold f, btcv. replace ((0 <=? 16 * s + j + 1) && (16 * s + j + 1 <? zlen btc)) with true by lia. rewrite Q. exact B3. }
  assert (FB : 0 <= f < 256).
  { destruct (Z_lt_le_dec (16 * s + j + 1) (nbk L t - 1)) as [Q|Q]; [rewrite F1 by lia; pose proof (flagv_bound M L T t (16 * s + j + 1)); lia|].
    destruct (Z.eq_dec (16 * s + j + 1) (nbk L t - 1)) as [E|E]; [rewrite F2 by lia; unfold lastflag; destruct (K t mod L >? 0); [lia|apply (wrap_bound 8); lia]|].
    unfold f, btcv. replace ((0 <=? 16 * s + j + 1) && (16 * s + j + 1 <? zlen btc)) with false by lia. apply (wrap_bound 8). lia. }
  pose proof (gof_bound M f FB) as GB. rewrite gof_in. destruct (limit_bound M) as [LB _]. assert (D <= 2184 * 15) by nia.
  split; [|auto]. rewrite (wrap_small 64 D) by lia. apply wrap_small. lia.
Qed.

(** The offset and the flag read for block 16 s + f, f > 0. *)
Lemma header_field M L T t jf temp btc s f w : 1 <= L < T -> zlen t < 2 ^ 58 -> fits_fields M L T = true -> temp3 M L T t temp -> btc3 M L T t jf btc -> 0 <= s -> 1 <= f <= 15 -> 16 * s + f < nbk L t ->
  w = fieldw (xat M jf temp btc s) ((f - 1) / 4) (if (f - 1) / 4 =? 0 then hof M (btcv jf btc (16 * s)) else 0) ->
  let fl := if 16 * s + f =? nbk L t - 1 then lastflag L t jf else flagv M L T t (16 * s + f) in let D := CO M L T t (16 * s + f) - CO M L T t (16 * s) in
  dense_offset M w f = (D, read_flag M fl) /\ (f <= 4 \/ read_flag M fl = 0 -> sparse_offset M w f = D).
Proof.
  intros HL Hl F TP BP Hs Hf HN -> fl D. rewrite dense_lane, sparse_lane by (auto using fieldw_bound). set (X := xat M jf temp btc s) in *. set (j := f - 1) in *.
  destruct (limit_bound M) as [LB LB2].
  assert (XX : forall i, 0 <= i <= j -> exists D G, X i = D + 2 ^ 14 * G /\ 0 <= D <= field_limit M * (i + 1) /\ (M = MPE1 -> G mod 2 = 0) /\
     (i < j -> 0 <= G <= 3 /\ (M = MPE1 -> G <= 2)) /\ (i = j -> D = CO M L T t (16 * s + f) - CO M L T t (16 * s) /\ 0 <= G /\ G mod 4 = match M with MPE1 => 2 * read_flag M fl | _ => read_flag M fl end)).
  { intros i Hi. destruct (xat_ok M L T t jf temp btc s i HL Hl F TP BP Hs ltac:(lia) ltac:(lia)) as (X1 & X2 & X3 & X4 & X5). cbv zeta in *. set (fi := btcv jf btc (16 * s + i + 1)) in *. clearbody fi.
    eexists _, (gof M fi). split; [exact X1|]. split; [rewrite (Z.min_l (i + 1)) in X2 by lia; exact X2|]. split; [intros ->; apply gof_even|]. split.
    - intros Q. rewrite X4 by lia. apply gof_flag.
    - intros ->. rewrite Z.min_l by lia. replace (16 * s + j + 1) with (16 * s + f) in * by lia. split; [reflexivity|]. pose proof (gof_bound M fi X3). split; [lia|].
      assert (E : fi = fl). { unfold fl. destruct (16 * s + f =? nbk L t - 1) eqn:E; [apply X5|apply X4]; lia. } rewrite <- E. apply gof_read. exact X3. }
  assert (HX : forall i, 0 <= X i) by (intros i; apply (wrap_bound 64); lia).
  assert (LOW : forall i, 0 <= i < j -> X i < 2 ^ 16).
  { intros i Hi. destruct (XX i ltac:(lia)) as (Di & Gi & E & DB & G2 & G3 & _). destruct (G3 ltac:(lia)) as [G4 G5]. rewrite E. assert (Di <= field_limit M * 15) by nia. destruct M; cbn [field_limit] in *; [specialize (G5 eq_refl)|..]; lia. }
  assert (HF : 0 <= hof M (btcv jf btc (16 * s)) <= 4 /\ (M <> MPE1 -> hof M (btcv jf btc (16 * s)) <= 3)).
  { destruct BP as (B1 & B2 & _). unfold btcv. replace ((0 <=? 16 * s) && (16 * s <? zlen btc)) with true by lia. rewrite B2 by lia. apply hof_flag. }
  set (h := if j / 4 =? 0 then hof M (btcv jf btc (16 * s)) else 0) in *.
  assert (HB : 0 <= h <= 4 /\ (M <> MPE1 -> h <= 3) /\ (M = MPE1 -> h mod 4 = 0)).
  { unfold h. destruct (j / 4 =? 0); [|lia]. split; [apply HF|]. split; [apply HF|]. intros ->. apply hof_four. }
  destruct HB as (HB1 & HB2 & HB3). rewrite (field_lane X (j / 4) h j) by (auto; try lia; unfold h; clear; destruct (j / 4 =? 0) eqn:E; lia).
  destruct (XX j ltac:(lia)) as (D' & G & -> & DB & G1 & _ & G2). destruct (G2 eq_refl) as (ED & G3 & G4). rewrite ED in *. fold D in DB |- *. clear ED D' XX G2 LOW.
  assert (RF : match M with MPE1 => (G mod 4) / 2 | _ => G mod 4 end = read_flag M fl) by (destruct M; [rewrite G4; clear; lia|exact G4|exact G4]).
  assert (CA : f <= 4 /\ (exists h', 0 <= h' <= 4 /\ (M <> MPE1 -> h' <= 3) /\ (M = MPE1 -> h' mod 4 = 0) /\ (if j mod 4 =? 3 then 2 ^ 12 * h else 0) = 2 ^ 12 * h') \/ 4 < f /\ (if j mod 4 =? 3 then 2 ^ 12 * h else 0) = 0).
  { destruct (Z_le_gt_dec f 4); [left; split; [auto|]|right; split; [lia|]].
    - destruct (j mod 4 =? 3); [exists h; auto|exists 0; repeat split; intros; lia].
    - unfold h. replace (j / 4 =? 0) with false by (unfold j; clear - g; lia). destruct (j mod 4 =? 3); reflexivity. }
  destruct CA as [[F4 (h' & Q1 & Q2 & Q3 & ->)]|[F4 ->]].
  - replace (f <=? 4) with true by lia. destruct (read_near M D G h') as [R1 R2]; [nia|auto|auto|auto|auto|]. rewrite R1, R2, RF. auto.
  - replace (f <=? 4) with false by lia. rewrite Z.add_0_r. destruct (read_far M D G) as (R1 & R2 & R3); [nia|auto|auto|]. rewrite R1, R2, RF. split; [reflexivity|].
    intros [Q|Q]; [lia|]. apply R3. rewrite G4, Q. destruct M; reflexivity.
Qed.

Lemma header_first M L T t jf temp btc s : 1 <= L < T -> zlen t < 2 ^ 58 -> fits_fields M L T = true -> temp3 M L T t temp -> btc3 M L T t jf btc -> 0 <= s -> 16 * s < nbk L t ->
  first_flag M (fieldw (xat M jf temp btc s) 0 (hof M (btcv jf btc (16 * s)))) = read_flag M (if 16 * s =? nbk L t - 1 then lastflag L t jf else flagv M L T t (16 * s)).
Proof.
  intros HL Hl F TP BP Hs HN. destruct (limit_bound M) as [LB LB2].
  assert (E0 : btcv jf btc (16 * s) = if 16 * s =? nbk L t - 1 then lastflag L t jf else flagv M L T t (16 * s)).
  { destruct BP as (B1 & B2 & B3). unfold btcv. replace ((0 <=? 16 * s) && (16 * s <? zlen btc)) with true by lia. destruct (16 * s =? nbk L t - 1) eqn:E; [replace (16 * s) with (nbk L t - 1) by lia; exact B3|]. apply B2. lia. }
  assert (FB : 0 <= btcv jf btc (16 * s) < 256).
  { rewrite E0. destruct (16 * s =? nbk L t - 1); [unfold lastflag; destruct (K t mod L >? 0); [lia|apply (wrap_bound 8); lia]|]. pose proof (flagv_bound M L T t (16 * s)). lia. }
  pose proof (hof_bound M (btcv jf btc (16 * s))) as HB.
  rewrite (field_first M _ (fun j => CO M L T t (Z.min (16 * s + j + 1) (nbk L t - 1)) - CO M L T t (16 * s)) (fun j => gof M (btcv jf btc (16 * s + j + 1)))).
  - rewrite <- E0. apply hof_read. exact FB.
  - intros j Hj. destruct (xat_ok M L T t jf temp btc s j HL Hl F TP BP Hs HN ltac:(lia)) as (X1 & X2 & X3 & _). cbv zeta in *. split; [exact X1|]. split; [pose proof (Z.mul_le_mono_nonneg_l (Z.min (j + 1) (nbk L t - 1 - 16 * s)) 4 (field_limit M) ltac:(lia) ltac:(lia)); lia|]. apply gof_bound. exact X3.
  - intros NM. specialize (LB2 NM). rewrite LB2 in LB. destruct (Z_lt_le_dec (16 * s + 3) (nbk L t - 1)) as [Q|Q].
    + right. destruct (xat_ok M L T t jf temp btc s 3 HL Hl F TP BP Hs HN ltac:(lia)) as (_ & X2 & _). cbv zeta in *. rewrite LB2 in X2. split; [lia|]. intros j Hj.
      destruct (xat_ok M L T t jf temp btc s j HL Hl F TP BP Hs HN ltac:(lia)) as (_ & X2' & _ & X4 & _). cbv zeta in *. rewrite LB2 in X2'. split; [lia|]. rewrite X4 by lia. apply gof_flag.
    + left. destruct (xat_ok M L T t jf temp btc s 3 HL Hl F TP BP Hs HN ltac:(lia)) as (_ & X2 & _). cbv zeta in *. rewrite LB2 in X2. lia.
  - lia.
  - intros j. apply (wrap_bound 64). lia.
  - intros ->. split; [apply hof_four|apply gof_even].
Qed.

(** ** The answer *)
Lemma found_P L t c i p : 1 <= L -> 0 <= c < nbk L t -> SS L t c <= p -> p < 8 * zlen t -> 1 <= i -> c * L + i <= K t -> tb t p = 1 -> ts t (SS L t c) p = i - 1 -> p = P t (c * L + i).
Proof.
  intros HL Hc H1 H2 Hi HK B2 B3. pose proof (SS_bound L t c HL ltac:(lia)). pose proof (ts_bound t 0 (SS L t c) ltac:(lia)). apply P_uniq; [nia|lia|auto|].
  rewrite (ts_split t 0 (SS L t c) p) by lia. rewrite ts_SS by lia. pose proof (proj1 (blk_lt L t c ltac:(lia) ltac:(lia)) ltac:(lia)). lia.
Qed.

Lemma dense_answer M L T t bits buf c i f a : 1 <= L < T -> zlen t < 2 ^ 58 -> a mod 16 = 0 -> 0 <= c < nbk L t -> 1 <= i < L -> c * L + i <= K t -> de L T t c = true -> zlen buf = 8 ->
  bits3 M L T t a bits -> (c < nbk L t - 1 -> f = flagv M L T t c) -> (c = nbk L t - 1 -> f = 0) ->
  in_dense M f T bits buf (CO M L T t c) (DD L t c) i (SS L t c) = Ok (P t (c * L + i)).
Proof.
  intros HL Hl Ha Hc Hi HK D Hb (Y1 & Y2 & Y3) F1 F2. destruct (Y3 c Hc) as [_ PK]. specialize (PK D). pose proof D as D'. apply de_true in D'. destruct D' as [ES EM].
  pose proof (CO_nonneg M L T t c ltac:(lia) Hl ltac:(lia)) as ON. pose proof (CO_room M L T t c ltac:(lia) Hl Hc) as RM. rewrite cw_de in RM by auto.
  pose proof (SS_bound L t c ltac:(lia) ltac:(lia)) as SB. pose proof (SS_bound L t (c + 1) ltac:(lia) ltac:(lia)) as SB1. pose proof (SS_step L t c ltac:(lia) Hc) as SST.
  assert (OI : i <= ones_in L t c).
  { unfold ones_in. destruct (fullb L t c) eqn:F; [lia|]. destruct (not_full_last L t c ltac:(lia) Hc F) as (_ & _ & X & _). lia. }
  pose proof (ee_bound L t c ltac:(lia) Hc) as EB. pose proof (ee_ones L t c ltac:(lia) Hc) as EO. fold (ones_in L t c) in EO. pose proof (DD_pos L t c ltac:(lia) Hc) as DP.
  assert (ED : ee L t c <= DD L t c <= ee L t c + 1) by (unfold ee; destruct (fullb L t c); lia).
  assert (DB : SS L t c + DD L t c <= 8 * zlen t) by (unfold DD; lia).
  assert (PL : cz M L T t c = false -> co M L T t c = false -> in_block T bits (CO M L T t c) (DD L t c) i (SS L t c) = Ok (P t (c * L + i))).
  { intros E1 E2. rewrite E1, E2 in PK, RM. pose proof (nb8_bound L t c ltac:(lia) Hc) as NB. rewrite width_plain in RM by lia.
    destruct (dense_select t bits (SS L t c) (ee L t c) (DD L t c) (CO M L T t c) T i) as (p & E & B1 & B2 & B3); try lia.
    - split; [lia|]. fold (nb8 L t c). split; [lia|]. intros j Hj. rewrite (packed_plain (gb L t c) (nb8 L t c) (tlen L t c)) by (auto; lia). reflexivity.
    - unfold sp in ES. lia.
    - rewrite E. f_equal. apply found_P; (lia || auto). }
  assert (CM : cz M L T t c || co M L T t c = true -> in_compressed (kind_of (cz M L T t c) (co M L T t c)) bits buf (CO M L T t c) (DD L t c) i (SS L t c) = Ok (P t (c * L + i))).
  { intros HZ. assert (NL : c < nbk L t - 1). { destruct (Z.eq_dec c (nbk L t - 1)); [|lia]. destruct (last_plain M L T t c ltac:(lia)) as [E1 E2]. rewrite E1, E2 in HZ. discriminate. }
    assert (FU : fullb L t c = true) by (apply full_iff; lia). assert (EE : DD L t c = ee L t c + 1) by (unfold ee; rewrite FU; lia).
    assert (FT : CO M L T t (nbk L t) + 15 <= zlen bits).
    { pose proof (fits3 M L T t a HL Hl Ha ltac:(lia)) as FT. destruct Y1 as [Y1|Y1]; [lia|]. exfalso.
      pose proof (tlen_bound L t c ltac:(lia) Hl Hc) as TB. pose proof (nb8_bound L t c ltac:(lia) Hc) as NB. pose proof (rn_bound (cz M L T t c) (co M L T t c) (gb L t c) (nb8 L t c) ltac:(lia)) as RB.
      unfold width, heads in RM. clear - RM RB TB NB ON Y1 HZ. destruct (cz M L T t c), (co M L T t c); cbn [b2z orb] in *; try discriminate; lia. }
    rewrite EE.
    destruct (compressed_ok (cz M L T t c) (co M L T t c) t (SS L t c) (ee L t c) bits buf (CO M L T t c) i) as (q & E & B1 & B2 & B3); [exact HZ|lia|lia|lia| |lia| |exact Hb|lia|].
    - rewrite <- EE. exact PK.
    - rewrite <- EE. fold (tlen L t c). change (gbyte t (SS L t c) (ee L t c)) with (gb L t c). fold (nb8 L t c). lia.
    - rewrite E. f_equal. apply found_P; (lia || auto). }
  unfold in_dense. destruct (Z.eq_dec c (nbk L t - 1)) as [EL|NL].
  - destruct (last_plain M L T t c ltac:(lia)) as [E1 E2]. rewrite (F2 EL). destruct M; apply PL; auto.
  - rewrite F1 by lia. unfold flagv in *. destruct M.
    + rewrite mpe1_co in *. destruct (cz MPE1 L T t c) eqn:E1; cbn [code b2z]; [apply CM; reflexivity|apply PL; reflexivity].
    + destruct (cz MPE2 L T t c) eqn:E1, (co MPE2 L T t c) eqn:E2; cbn [code b2z]; [apply CM|apply CM|apply CM|apply PL]; reflexivity.
    + destruct (cz MPE3 L T t c) eqn:E1, (co MPE3 L T t c) eqn:E2; cbn [code b2z]; [apply CM|apply CM|apply CM|apply PL]; reflexivity.
Qed.

(** The flag of the last block does not matter, or means that it is not compressed. *)
Definition last_ok (M : mpe_type) (L T : Z) (t : list Z) (jf : Z -> Z) : Prop :=
  (de L T t (nbk L t - 1) = true -> read_flag M (lastflag L t jf) = 0) /\ (sp L T t (nbk L t - 1) = true -> 4 < (nbk L t - 1) mod 16 -> read_flag M (lastflag L t jf) = 0).

Lemma select_smpe_ok M L T jf m t r buf k : 1 <= L < T -> fits_fields M L T = true -> zlen t < 2 ^ 58 -> addresses_ok m -> smpeP M L T jf m t r -> (1 < L -> last_ok M L T t jf) -> zlen buf = 8 -> 1 <= k <= K t ->
  select_smpe M L T r buf k = Ok (answer L T t k).
Proof.
  intros HL F Hl (A1 & A2 & A3 & A4) (temp & btc & TP & BP & YP & SA & Z1 & _) LO Hb Hk.
  unfold select_smpe, answer. pose proof (slack_ok _ A2) as SL. pose proof TP as (T1 & T2 & T3).
  assert (HD : forall c, 0 <= c <= nbk L t -> geti (sb_selects r) (21 * (c / 16) + c mod 16) = Ok (SS L t c)).
  { intros c Hc. rewrite geti_ok by (clear - Hc Z1 SL; lia). destruct (SA (c / 16) ltac:(clear - Hc; lia)) as (v & (_ & V1 & _) & W). rewrite W, V1 by (clear; lia). f_equal. rewrite <- T2 by lia. do 2 f_equal. clear. lia. }
  destruct (div_parts k L ltac:(lia) ltac:(lia)) as (D1 & D2 & D3). destruct (k mod L =? 0) eqn:E.
  - destruct (start_exact L t k ltac:(lia) Hk ltac:(lia)) as (C1 & C2). set (c := k / L) in *. clearbody c. rewrite HD by lia. cbn [bind]. rewrite C2, P_wrap by auto. reflexivity.
  - destruct (LO ltac:(clear - D1 D2 D3 E; lia)) as (LO1 & LO2). pose proof (start_inner L t k ltac:(lia) Hk ltac:(lia)) as C. set (c := k / L) in *. set (i := k mod L) in *. clearbody c i.
    rewrite HD by lia. cbn [bind].
    replace (if c mod 16 =? 15 then 21 * (c / 16) + 21 else 21 * (c / 16) + c mod 16 + 1) with (21 * ((c + 1) / 16) + (c + 1) mod 16) by (clear; destruct (c mod 16 =? 15) eqn:E15; lia).
    rewrite HD by lia. cbn [bind]. fold (DD L t c).
    pose proof (SS_bound L t c ltac:(lia) ltac:(lia)) as SB. pose proof (DD_pos L t c ltac:(lia) C) as DP. pose proof (DD_le L t c ltac:(lia) C) as DL.
    rewrite (wrap_small 64 (DD L t c)) by lia. unfold answer_in. rewrite mono_answer with (T := T) by auto. destruct (mo L T t c) eqn:EM.
    + f_equal. unfold wrap. rewrite Zplus_mod_idemp_l. replace (SS L t c - 1 + i) with (SS L t c + i - 1) by lia. pose proof (K_bound t). assert (0 <= c * L) by nia. rewrite Z.mod_small by lia. reflexivity.
    + destruct (SA (c / 16) ltac:(clear - C; lia)) as (v & (_ & V1 & V2 & V3) & W). set (s := c / 16) in *. set (f := c mod 16) in *. assert (CF : c = 16 * s + f) by (unfold s, f; clear; lia). assert (F16 : 0 <= f < 16) by (unfold f; clear; lia). assert (S0 : 0 <= s) by (unfold s; clear - C; lia).
      assert (SN : s <= nbk L t / 16) by (unfold s; clear - C; lia). assert (FM : c = nbk L t - 1 -> f = (nbk L t - 1) mod 16) by (unfold f; intros ->; reflexivity). clearbody s f. rewrite geti_ok by (clear - Z1 SL SN S0; lia). cbn [bind]. rewrite W, V2 by lia. replace (32 * s + 1) with (2 * (16 * s) + 1) by lia.
      rewrite T3 by (clear - SN S0; lia). rewrite Z.min_l by lia.
      set (fl := if 16 * s + f =? nbk L t - 1 then lastflag L t jf else flagv M L T t (16 * s + f)) in *.
      assert (CB : 0 <= CO M L T t (16 * s) <= CO M L T t c /\ CO M L T t c < 2 ^ 64).
      { pose proof (CO_nonneg M L T t (16 * s) ltac:(lia) Hl ltac:(lia)). pose proof (CO_mono M L T t (16 * s) c ltac:(lia) Hl ltac:(lia) ltac:(lia)). pose proof (CO_mono M L T t c (nbk L t) ltac:(lia) Hl ltac:(lia) ltac:(lia)).
        split; [lia|]. destruct (Z.eq_dec c 0) as [->|]; [rewrite CO_0; lia|]. pose proof (fits3 M L T t (m_addr_b m) HL Hl A4 ltac:(lia)). pose proof (room_16 (m_addr_b m) A4). pose proof (CO_sum M L T t (nbk L t) ltac:(lia)).
        destruct (tight L T t) eqn:TI; [destruct (tight_sizes L T t HL TI); lia|]. pose proof (fits_all L T t HL TI (nbk L t) ltac:(lia)).
        pose proof (blen_upper M L T t HL Hl (nbk L t) ltac:(lia)) as BU. pose proof (SS_bound L t (nbk L t) ltac:(lia) ltac:(lia)). lia. }
      assert (HW : forall q, 0 <= q < 4 -> geti (sb_selects r) (21 * s + 17 + q) = Ok (fieldw (xat M jf temp btc s) q (if q =? 0 then hof M (btcv jf btc (16 * s)) else 0))).
      { intros q Hq. rewrite geti_ok by (clear - Z1 SL SN S0 Hq; lia). f_equal. replace (21 * s + 17 + q) with (21 * s + (17 + q)) by lia. rewrite W by lia. apply V3. exact Hq. }
      assert (FLc : (c < nbk L t - 1 -> read_flag M fl = flagv M L T t c) /\ (c = nbk L t - 1 -> fl = lastflag L t jf)).
      { unfold fl. rewrite <- CF. split; intros Q; [replace (c =? nbk L t - 1) with false by lia; apply flagv_bound|replace (c =? nbk L t - 1) with true by lia; reflexivity]. }
      destruct FLc as [FL1 FL2].
      assert (OI : i <= ones_in L t c).
      { unfold ones_in. destruct (fullb L t c) eqn:FB; [lia|]. destruct (not_full_last L t c ltac:(lia) C FB) as (_ & _ & X & _). lia. }
      assert (SPF : sp L T t c = true -> f <= 4 \/ read_flag M fl = 0).
      { intros ES. destruct (Z_le_gt_dec f 4) as [Q|Q]; [left; exact Q|right]. destruct (Z.eq_dec c (nbk L t - 1)) as [EL|NL].
        - rewrite FL2 by auto. apply LO2; [rewrite <- EL; exact ES|]. rewrite <- FM by auto. lia.
        - rewrite FL1 by lia. destruct (not_de M L T t c (sp_de L T t c ES)) as [N1 N2]. apply plain_zero; auto; lia. }
      change (DD L t c >? T) with (sp L T t c). destruct (sp L T t c) eqn:ES.
      * match goal with |- bind ?e _ = _ => replace e with (Ok (CO M L T t c)) end.
        -- cbn [bind]. destruct YP as (Y1 & Y2 & Y3). destruct (Y3 c C) as [Y4 _]. pose proof (CO_room M L T t c ltac:(lia) Hl C) as RM. rewrite <- (all_seen_cw M L T t c ltac:(lia) C (sp_de L T t c ES)) in RM.
           unfold all_seen in RM. rewrite ES in RM. rewrite load_ok by (clear - CB RM Y2 D2 D3 OI E; lia). rewrite Y4 by (auto; lia). reflexivity.
        -- destruct (f >? 0) eqn:E0; [|f_equal; f_equal; lia].
           replace (21 * s + 16 + (f + 3) / 4) with (21 * s + 17 + (f - 1) / 4) by (clear - F16 E0; lia). rewrite HW by (clear - F16 E0; lia). cbn [bind].
           destruct (header_field M L T t jf temp btc s f _ HL Hl F TP BP S0 ltac:(lia) ltac:(lia) eq_refl) as [_ Q]. fold fl in Q. rewrite Q by (apply SPF; reflexivity). rewrite <- CF. f_equal. rewrite wrap_small by lia. lia.
      * match goal with |- bind ?e _ = _ => replace e with (Ok (CO M L T t c, read_flag M fl)) end.
        -- cbn [bind]. apply dense_answer with (a := m_addr_b m); auto; try lia.
           ++ unfold de. rewrite ES, EM. reflexivity.
           ++ intros EL. rewrite FL2 by auto. apply LO1. rewrite <- EL. unfold de. rewrite ES, EM. reflexivity.
        -- destruct (f >? 0) eqn:E0.
           ++ replace (21 * s + 16 + (f + 3) / 4) with (21 * s + 17 + (f - 1) / 4) by (clear - F16 E0; lia). rewrite HW by (clear - F16 E0; lia). cbn [bind].
              destruct (header_field M L T t jf temp btc s f _ HL Hl F TP BP S0 ltac:(lia) ltac:(lia) eq_refl) as [Q _]. fold fl in Q. rewrite Q. rewrite <- CF. f_equal. f_equal. rewrite wrap_small by lia. lia.
           ++ replace (21 * s + 17) with (21 * s + 17 + 0) by lia. rewrite HW by lia. cbn [bind]. change (0 =? 0) with true. cbv iota. rewrite (header_first M L T t jf temp btc s HL Hl F TP BP S0 ltac:(lia)).
              assert (f = 0) by lia. subst f. unfold fl. rewrite Z.add_0_r in *. rewrite CF. reflexivity.
Qed.
