(** Construction of SelectMPE64. *)
From Coq Require Import ZifyBool.
From Verif Require Import Base BaseFacts Mem MemFacts Words WordFacts BlockFacts NodeFacts Trees TreeBuild Spec BitmapFacts KernelFacts SpecPoppy PoppyFacts PoppyFacts2 SpecText MrRank MrRankFacts MrRankFacts2 MrRankFacts3 MrSelect MrSelectFacts MrSelectFacts2 MrSelectFacts3 MrSelectFacts4 MrSelectFacts5 MrSelectFacts6 MrMpe MrMpeFacts2 MrMpeFacts3 MrMpeFacts5 MrSmpe MrSmpeFacts MrSmpeFacts2 MrSmpeFacts3 MrSmpeFacts5.
Ltac Zify.zify_post_hook ::= Z.div_mod_to_equations.

(** Lines 3229-3231. *)
Lemma pad3_loop n V r : 0 < n -> zlen r = 32 * (n / 16 + 1) -> zn 0 r (2 * (n - 1) + 1) = V -> 2 * n < 2 ^ 64 ->
  exists r', foldM (fun temp k => let* x := geti temp (u64 (2 * n - 1)) in seti temp (2 * n + 1 + 2 * k) x) (zrange 0 (Z.to_nat ((32 * (n / 16 + 1) - 2 * n) / 2))) r = Ok r' /\
    zlen r' = zlen r /\ (forall k, 0 <= k -> k mod 2 = 0 \/ k < 2 * n -> zn 0 r' k = zn 0 r k) /\ (forall c, n <= c < 16 * (n / 16 + 1) -> zn 0 r' (2 * c + 1) = V).
Proof.
  intros Hn Hr HV Hb. rewrite wrap_small by lia. set (tl := 16 * (n / 16 + 1)) in *. assert (TL : n < tl) by (unfold tl; lia). replace (32 * (n / 16 + 1)) with (2 * tl) in * by (unfold tl; lia). clearbody tl.
  destruct (foldM_inv (fun temp k => let* x := geti temp (2 * n - 1) in seti temp (2 * n + 1 + 2 * k) x) (fun j r' => zlen r' = zlen r /\ (forall k, 0 <= k -> k mod 2 = 0 \/ k < 2 * n -> zn 0 r' k = zn 0 r k) /\
    (forall c, n <= c < n + j -> zn 0 r' (2 * c + 1) = V)) (Z.to_nat ((2 * tl - 2 * n) / 2)) 0 r) as (r' & E & L & Q1 & Q2).
  - split; [auto|]. split; [auto|]. intros c Hc. lia.
  - intros j r' Hj (L & Q1 & Q2). assert (n + j < tl) by (clear - Hj TL Hn; lia). rewrite geti_ok by lia. cbn [bind]. rewrite seti_ok by lia. eexists. split; [reflexivity|]. rewrite zlen_upd. split; [auto|]. split.
    + intros k Hk Hk2. rewrite zn_upd by lia. replace (k =? 2 * n + 1 + 2 * j) with false by (clear - Hk2 Hj; lia). auto.
    + intros c Hc. rewrite zn_upd by lia. destruct (2 * c + 1 =? 2 * n + 1 + 2 * j) eqn:E.
      * rewrite Q1 by lia. rewrite <- HV. f_equal. lia.
      * apply Q2. lia.
  - exists r'. split; [exact E|]. split; [auto|]. split; [auto|]. intros c Hc. apply Q2. clear - Hc TL Hn. lia.
Qed.

(** In the strict reading the last superblock reads blockToCompress past its end. *)
Lemma super3_fail M jf temp btc s : 0 <= s -> 32 * (s + 1) <= zlen temp -> zlen btc < 16 * s + 16 -> super3 M true jf temp btc s = Ub UB_bounds.
Proof.
  intros Hs Ht He. unfold super3.
  match goal with |- context [foldM ?g (zrange 0 16) ?v0] => destruct (foldM_inv g (fun _ v => zlen v = 21) 16 0 v0) as (v1 & E1 & P1) end.
  - reflexivity.
  - intros j v Hj L. change (0 + Z.of_nat 16) with 16 in Hj. rewrite geti_ok by lia. cbn [bind]. rewrite seti_ok by lia. eexists. split; [reflexivity|]. rewrite zlen_upd. exact L.
  - rewrite E1. cbn [bind]. rewrite geti_ok by lia. cbn [bind]. rewrite seti_ok by lia. cbn [bind].
    match goal with |- context [foldM ?g (zrange 0 15) ?v0] => destruct (fold_fail g (fun j v => zlen v = 21 /\ (0 < j -> 16 * s + j + 1 <= zlen btc)) (fun _ => True) 15 ltac:(auto) 0 v0) as [(v2 & E2 & L2 & B2)|(E2 & _)] end.
    + rewrite zlen_upd. split; [exact P1|lia].
    + intros j v Hj (L & B). change (0 + Z.of_nat 15) with 15 in Hj. rewrite geti_ok by lia. cbn [bind]. unfold read_btc. cbn [orb]. unfold geti at 1 3.
      destruct ((0 <=? 16 * s + j + 1) && (16 * s + j + 1 <? zlen btc)) eqn:E; cbn [bind].
      * left. rewrite geti_ok by lia. cbn [bind]. rewrite seti_ok by lia. eexists. split; [reflexivity|]. rewrite zlen_upd. split; [exact L|lia].
      * right. auto.
    + change (0 + Z.of_nat 15) with 15 in B2. lia.
    + rewrite E2. reflexivity.
Qed.

(** What blockToCompress holds. *)
Definition lastflag (L : Z) (t : list Z) (jf : Z -> Z) : Z := if K t mod L >? 0 then 0 else u8 (jf (nbk L t - 1)).
Definition btc3 (M : mpe_type) (L T : Z) (t : list Z) (jf : Z -> Z) (btc : list Z) : Prop :=
  zlen btc = nbk L t /\ (forall c, 0 <= c < nbk L t - 1 -> zn 0 btc c = flagv M L T t c) /\ zn 0 btc (nbk L t - 1) = lastflag L t jf.
Definition temp3 (M : mpe_type) (L T : Z) (t temp : list Z) : Prop :=
  zlen temp = 32 * (nbk L t / 16 + 1) /\ (forall c, 0 <= c <= nbk L t -> zn 0 temp (2 * c) = SS L t c) /\
  (forall c, 0 <= c < 16 * (nbk L t / 16 + 1) -> zn 0 temp (2 * c + 1) = CO M L T t (Z.min c (nbk L t - 1))).
Definition blen3 (M : mpe_type) (L T : Z) (t : list Z) : Z := O1 L T t (nbk L t) + AD M L T t (nbk L t) - 2 * RM M L T t (nbk L t).
Definition bits3 (M : mpe_type) (L T : Z) (t : list Z) (addr : Z) (bits : list Z) : Prop :=
  (zlen bits = blen3 M L T t + room_of addr \/ CO M L T t (nbk L t) = 0 /\ blen3 M L T t <= zlen bits) /\ CO M L T t (nbk L t) <= zlen bits /\ forall c, 0 <= c < nbk L t -> spay M L T t bits c.

Lemma blen_upper M L T t : 1 <= L < T -> zlen t < 2 ^ 58 -> forall c, 0 <= c <= nbk L t -> O1 L T t c + AD M L T t c - 2 * RM M L T t c <= 8 * SS L t c.
Proof.
  intros HL Hl c Hc. replace c with (Z.of_nat (Z.to_nat c)) in * by lia. set (n := Z.to_nat c) in *. clearbody n. induction n as [|n IH]; [rewrite SS_0; cbn; lia|].
  specialize (IH ltac:(lia)). replace (Z.of_nat (S n)) with (Z.of_nat n + 1) by lia. set (i := Z.of_nat n) in *. rewrite O1_succ by lia. unfold AD, RM in *. rewrite !sumf_succ by lia.
  pose proof (w1_bound L T t i HL ltac:(lia)) as WB. pose proof (DD_pos L t i ltac:(lia) ltac:(lia)) as DP. assert (ES : SS L t (i + 1) = SS L t i + DD L t i) by (unfold DD; lia). pose proof (rnc_bound M L T t i ltac:(lia) ltac:(lia)) as R.
  enough (w1 L T t i + hdc M L T t i <= 8 * DD L t i) by lia.
  destruct (de L T t i && (i + 1 <? nbk L t)) eqn:D.
  - apply andb_prop in D. destruct D as [D1 D2]. apply de_true in D1. destruct D1 as [D1 D3]. pose proof (hdc_bound M L T t i ltac:(lia) Hl ltac:(lia)) as HB. pose proof (tlen_bound L t i ltac:(lia) Hl ltac:(lia)) as TB.
    assert (F : fullb L t i = true) by (apply full_iff; lia). enough (w1 L T t i <= DD L t i) by lia.
    pose proof (up8_bound (DD L t i) ltac:(lia)). pose proof (up8_bound (DD L t i - 1) ltac:(lia)). unfold w1. unfold sp in D1. rewrite F, D1. destruct (DD L t i >? L); [|lia]. destruct (i =? 0); lia.
  - assert (E : hdc M L T t i = 0); [|lia]. apply plain_zero; try lia; unfold cz, co; rewrite D; reflexivity.
Qed.

Lemma overflow3 M L T t a : 1 <= L < T -> zlen t < 2 ^ 58 -> 1 <= K t ->
  (CO M L T t (nbk L t) <=? blen3 M L T t + room_of a) = negb (overflows L T (room_of a) (text_bits t)).
Proof.
  intros HL Hl HK. rewrite <- overflow_iff by auto. pose proof (nbk_pos L t ltac:(lia)). rewrite CO_sum by lia. unfold blen3. apply eq_true_iff_eq. rewrite !Z.leb_le. lia.
Qed.

Lemma fits3 M L T t a : 1 <= L < T -> zlen t < 2 ^ 58 -> a mod 16 = 0 -> 2 <= nbk L t -> CO M L T t (nbk L t) + 15 <= blen3 M L T t + room_of a.
Proof.
  intros HL Hl Ha HN. rewrite CO_sum by lia. unfold blen3. pose proof (room_16 a Ha). destruct (tight L T t) eqn:TI.
  - destruct (tight_sizes L T t HL TI) as (T1 & _). lia.
  - pose proof (fits_all L T t HL TI (nbk L t) ltac:(lia)). lia.
Qed.

(** Everything before the headers. *)
Lemma build_front M L T strict jf m t : 1 <= L < T -> T < 2 ^ 32 -> addresses_ok m -> text_ok t -> zlen t < 2 ^ 58 -> 1 <= K t ->
  if overflows L T (room_of (m_addr_b m)) (text_bits t) then build_smpe M L T strict jf m t = Ub UB_bounds
  else exists temp btc bits, temp3 M L T t temp /\ btc3 M L T t jf btc /\ bits3 M L T t (m_addr_b m) bits /\
    build_smpe M L T strict jf m t =
      (let slen := 21 * (nbk L t / 16 + 1) in
       let* arr := foldM (fun arr s => let* v := super3 M strict jf temp btc s in put_words arr (21 * s) v) (zrange 0 (Z.to_nat (nbk L t / 16 + 1))) (fresh_aligned (m_junk_r m) (m_addr_r m) slen) in
       Ok {| sb_selects := arr; sb_selects_len := slen; sb_bits := bits; sb_bits_len := blen3 M L T t; sb_text_len := zlen t |}).
Proof.
  intros HL HT (A1 & A2 & A3 & A4) H Hl HK. unfold build_smpe. rewrite number_of_ones_ok by auto. rewrite selects_len_nbk by lia.
  pose proof (nbk_1 L t ltac:(lia) HK) as N1. rewrite sel_temp_len_ok by lia.
  assert (N2 : nbk L t < 2 ^ 62). { pose proof (K_bound t). assert (BL : nbk L t - 1 < nbk L t) by lia. apply blk_lt in BL; [|lia|lia]. nia. }
  assert (ZA : zlen (fresh (m_junk_t m) (32 * (nbk L t / 16 + 1))) = 32 * (nbk L t / 16 + 1)) by (apply zlen_fresh; lia).
  set (arr0 := fresh (m_junk_t m) (32 * _)) in *. clearbody arr0.
  destruct (first_pass_ok L T t arr0 HL HT H Hl ltac:(lia)) as (arr & -> & FD). cbn [bind].
  pose proof (O1_bound L T t (nbk L t) HL ltac:(lia)) as OB. pose proof FD as [ZF FE].
  destruct (zero_rest arr (2 * nbk L t + 2) (Z.to_nat (32 * (nbk L t / 16 + 1) - (2 * nbk L t + 2))) ltac:(lia) ltac:(lia)) as (arr2 & -> & ZF2 & FE2). cbn [bind].
  replace (2 * nbk L t + 2 - 2) with (2 * nbk L t) by lia. replace ((2 * nbk L t + 2) / 2 - 1) with (nbk L t) by lia.
  assert (EV : evens L t arr2).
  { split; [lia|]. intros c Hc. destruct (FE c Hc) as [F1 F2]. rewrite FE2 by lia. replace ((2 * nbk L t + 2 <=? 2 * c) && _) with false by lia. exact F1. }
  assert (ZC : zlen (fresh (m_junk_t m) (T / 8 + 1)) = T / 8 + 1) by (apply zlen_fresh; lia).
  set (cont0 := fresh (m_junk_t m) (T / 8 + 1)) in *. clearbody cont0.
  destruct (scan_all_ok _ L T t _ _ _ cont0 (arr2, fresh_b jf (nbk L t), 0, 0) HL H Hl (choose_good M L T t arr2 (fresh_b jf (nbk L t)) HL Hl EV) HK ZC) as [(st & -> & Fin & _ & ZC2)|[_ []]].
  { split; [auto|]. split; [apply zlen_fresh_b; lia|]. split; [intros; lia|]. split; [auto|]. split; reflexivity. }
  cbn [bind]. destruct (z_out st) as [[[temp btc] removed] added] eqn:EO. destruct Fin as (-> & F1 & F2 & F3 & -> & ->).
  pose proof (RM_bound M L T t (nbk L t) ltac:(lia) ltac:(lia)) as RB. pose proof (AD_bound M L T t (nbk L t) ltac:(lia) Hl ltac:(lia)) as AB. pose proof (SS_bound L t (nbk L t) ltac:(lia) ltac:(lia)) as SB.
  pose proof (blen_nonneg M L T t HL Hl (nbk L t) ltac:(lia)) as BN. fold (blen3 M L T t) in BN.
  assert (BE : u64 (u64 (O1 L T t (nbk L t) + AD M L T t (nbk L t)) - 2 * RM M L T t (nbk L t)) = blen3 M L T t).
  { unfold blen3 in *. pose proof (blen_upper M L T t HL Hl (nbk L t) ltac:(lia)). unfold wrap. rewrite Zminus_mod_idemp_l. apply Z.mod_small. lia. }
  rewrite BE. rewrite geti_ok by lia. cbn [bind].
  pose proof (zlen_aligned_b (m_junk_b m) (m_addr_b m) (blen3 M L T t) BN) as ZB. change (slack_b (m_addr_b m)) with (room_of (m_addr_b m)) in ZB.
  set (bits0 := fresh_aligned_b _ _ _) in *. clearbody bits0.
  pose proof (overflow3 M L T t (m_addr_b m) HL Hl HK) as OI.
  assert (CAP : 2 <= nbk L t -> CO M L T t (nbk L t) <= blen3 M L T t + room_of (m_addr_b m)) by (intros N; pose proof (fits3 M L T t (m_addr_b m) HL Hl A4 N); lia).
  destruct (scan_all_ok _ L T t _ _ _ (z_cont st) (arr2, bits0, 0, zn 0 btc 0) HL H Hl (store_good M L T t arr2 btc _ HL Hl EV F1 F2 CAP) HK ZC2) as [(st2 & -> & Fin & SC & _)|[-> BAD]].
  { destruct EV as [EV1 EV2]. split; [auto|]. split; [auto|]. split; [|split; [exact ZB|split; [rewrite CO_0; reflexivity|split; [|split; [auto|split; [intros; lia|intros; lia]]]]]].
    - intros c Hc. assert (c = 0) by lia. subst c. destruct (FE 0 ltac:(lia)) as [_ Q]. rewrite FE2 by lia. replace ((2 * nbk L t + 2 <=? 2 * 0 + 1) && _) with false by lia. rewrite CO_0. exact Q.
    - pose proof (room_bound (m_addr_b m)). lia. }
  2:{ destruct (overflows L T (room_of (m_addr_b m)) (text_bits t)) eqn:EV2; [reflexivity|]. cbn [negb] in OI. lia. }
  cbn [bind]. destruct (z_out st2) as [[[temp bits] bc] f]. destruct Fin as (G1 & G2 & G3 & G4 & G5 & G6). rewrite SC.
  replace (overflows L T (room_of (m_addr_b m)) (text_bits t)) with false by (destruct (overflows L T (room_of (m_addr_b m)) (text_bits t)); [cbn [negb] in OI; lia|reflexivity]).
  assert (ZT : zlen temp = 32 * (nbk L t / 16 + 1)) by (clear - G1 ZF2 ZF ZA; lia).
  destruct (pad3_loop (nbk L t) (CO M L T t (nbk L t - 1)) temp ltac:(clear - N1; lia) ZT (G3 (nbk L t - 1) ltac:(clear - N1; lia)) ltac:(clear - N2; lia)) as (temp2 & -> & P1 & P2 & P3). cbn [bind].
  destruct (incr_ok L t (2 * nbk L t + 2) temp2 ltac:(clear - HL; lia) Hl eq_refl ltac:(clear - P1 ZT; lia)) as (temp4 & -> & I1 & I2 & I3).
  { intros c Hc. rewrite P2 by (clear - Hc; lia). apply G2. exact Hc. }
  cbn [bind]. replace (32 * (nbk L t / 16 + 1) / 2 / 16) with (nbk L t / 16 + 1) by (clear; lia). replace ((nbk L t / 16 + 1) * 21) with (21 * (nbk L t / 16 + 1)) by lia.
  exists temp4, btc, bits. split; [|split; [|split; [|reflexivity]]].
  - split; [clear - I1 P1 ZT; lia|]. split; [exact I2|]. intros c Hc. rewrite I3 by (clear - Hc; lia). destruct (Z_lt_le_dec c (nbk L t)) as [CL|CL].
    + rewrite P2 by (clear - Hc CL; lia). rewrite Z.min_l by (clear - CL; lia). apply G3. clear - Hc CL; lia.
    + rewrite P3 by (clear - Hc CL; lia). rewrite Z.min_r by (clear - CL; lia). reflexivity.
  - split; [exact F1|]. split; [exact F2|]. rewrite F3. unfold lastflag. destruct (K t mod L >? 0); [reflexivity|]. unfold fresh_b. rewrite zn_map_zrange by (clear - N1; lia). reflexivity.
  - split; [left; exact G4|]. split; [clear - G4 G5; lia|]. exact G6.
Qed.

Definition smpeP (M : mpe_type) (L T : Z) (jf : Z -> Z) (m : memory) (t : list Z) (r : select_basic) : Prop :=
  exists temp btc, temp3 M L T t temp /\ btc3 M L T t jf btc /\ bits3 M L T t (m_addr_b m) (sb_bits r) /\
  super3arr M jf temp btc (sb_selects r) (nbk L t / 16 + 1) /\ zlen (sb_selects r) = 21 * (nbk L t / 16 + 1) + slack (m_addr_r m) /\
  sb_selects_len r = 21 * (nbk L t / 16 + 1) /\ sb_bits_len r = blen3 M L T t /\ sb_text_len r = zlen t.

Lemma build_smpe_ok M L T jf m t : 1 <= L < T -> T < 2 ^ 32 -> addresses_ok m -> text_ok t -> zlen t < 2 ^ 58 -> 1 <= K t ->
  if overflows L T (room_of (m_addr_b m)) (text_bits t) then build_smpe M L T false jf m t = Ub UB_bounds
  else exists r, build_smpe M L T false jf m t = Ok r /\ smpeP M L T jf m t r.
Proof.
  intros HL HT A H Hl HK. pose proof (build_front M L T false jf m t HL HT A H Hl HK) as B. destruct (overflows L T (room_of (m_addr_b m)) (text_bits t)); [exact B|].
  destruct B as (temp & btc & bits & T3 & B3 & Y3 & ->). cbv zeta. destruct A as (A1 & A2 & A3 & A4). pose proof (nbk_1 L t ltac:(lia) HK) as N1. pose proof (slack_ok _ A2) as SL. pose proof T3 as [ZT _].
  destruct (supers3_ok M false jf temp btc (fresh_aligned (m_junk_r m) (m_addr_r m) (21 * (nbk L t / 16 + 1))) (nbk L t / 16 + 1) ltac:(discriminate) ltac:(lia) ltac:(lia)) as (sa & -> & ZS & QS).
  { rewrite zlen_aligned by (auto; lia). lia. }
  rewrite zlen_aligned in ZS by (auto; lia). cbn [bind]. eexists. split; [reflexivity|]. exists temp, btc. cbn [sb_selects sb_selects_len sb_bits sb_bits_len sb_text_len].
  split; [exact T3|]. split; [exact B3|]. split; [exact Y3|]. auto.
Qed.

Lemma build_smpe_strict M L T jf m t : 1 <= L < T -> T < 2 ^ 32 -> addresses_ok m -> text_ok t -> zlen t < 2 ^ 58 -> 1 <= K t ->
  build_smpe M L T true jf m t = Ub UB_bounds.
Proof.
  intros HL HT A H Hl HK. pose proof (build_front M L T true jf m t HL HT A H Hl HK) as B. destruct (overflows L T (room_of (m_addr_b m)) (text_bits t)); [exact B|].
  destruct B as (temp & btc & bits & T3 & B3 & Y3 & ->). cbv zeta. destruct A as (A1 & A2 & A3 & A4). pose proof (nbk_1 L t ltac:(lia) HK) as N1. pose proof (slack_ok _ A2) as SL. pose proof T3 as [ZT _]. pose proof B3 as [ZB _].
  replace (Z.to_nat (nbk L t / 16 + 1)) with (S (Z.to_nat (nbk L t / 16))) by lia. rewrite zrange_last. rewrite foldM_app.
  destruct (supers3_ok M true jf temp btc (fresh_aligned (m_junk_r m) (m_addr_r m) (21 * (nbk L t / 16 + 1))) (nbk L t / 16) ltac:(intros; lia) ltac:(lia) ltac:(lia)) as (sa & -> & ZS & QS).
  { rewrite zlen_aligned by (auto; lia). lia. }
  cbn [bind]. replace (0 + Z.of_nat (Z.to_nat (nbk L t / 16))) with (nbk L t / 16) by lia. cbn [foldM]. rewrite super3_fail by lia. reflexivity.
Qed.

(** Without ones blockToCompress has no entries at all. *)
Lemma build_smpe_none M L T strict jf m t : 1 <= L < T -> T < 2 ^ 32 -> text_ok t -> zlen t < 2 ^ 58 -> K t = 0 -> build_smpe M L T strict jf m t = Ub UB_bounds.
Proof.
  intros HL HT H Hl HK. unfold build_smpe. rewrite number_of_ones_ok by auto. rewrite selects_len_nbk by lia.
  assert (N0 : nbk L t = 0) by (unfold nbk; rewrite HK; apply Z.div_small; lia). rewrite sel_temp_len_ok by lia.
  assert (ZA : zlen (fresh (m_junk_t m) (32 * (nbk L t / 16 + 1))) = 32 * (nbk L t / 16 + 1)) by (apply zlen_fresh; lia).
  set (arr0 := fresh (m_junk_t m) (32 * _)) in *. clearbody arr0.
  destruct (first_pass_ok L T t arr0 HL HT H Hl ltac:(lia)) as (arr & -> & FD). cbn [bind]. pose proof FD as [ZF FE]. rewrite N0 in *. change (32 * (0 / 16 + 1)) with 32 in *. change (2 * 0 + 2) with 2 in *.
  destruct (zero_rest arr 2 (Z.to_nat (32 - 2)) ltac:(lia) ltac:(lia)) as (arr2 & -> & ZF2 & FE2). cbn [bind]. change (2 / 2 - 1) with 0. change (2 - 2) with 0.
  unfold scan_all. cbn [choose_pass p_sel]. rewrite !geti_ok by lia. cbn [bind]. rewrite (FE2 2) by lia. replace ((2 <=? 2) && (2 <? 2 + Z.of_nat (Z.to_nat (32 - 2)))) with true by lia.
  change (fresh_b jf 0) with (@nil Z). destruct t as [|b t'].
  - reflexivity.
  - replace (Z.to_nat (8 * zlen (b :: t'))) with (S (Z.to_nat (8 * zlen (b :: t') - 1))) by (rewrite zlen_cons; pose proof (zlen_nonneg t'); lia). cbn [zrange foldM].
    unfold step3 at 1, enter3 at 1 2 3. cbn [z_done z_upto z_sc enter3]. change (0 =? 0) with true. change (0 + 2 =? 0) with false. cbv iota. unfold next3, flush3. cbn [z_out z_cont z_n z_sc z_len z_pos enter3]. rewrite andb_false_r. reflexivity.
Qed.
