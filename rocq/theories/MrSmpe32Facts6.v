(** Construction of SelectMPE32. *)
From Coq Require Import ZifyBool.
From Verif Require Import Base BaseFacts Mem MemFacts Words WordFacts BlockFacts NodeFacts Trees TreeBuild Spec BitmapFacts KernelFacts SpecPoppy PoppyFacts PoppyFacts2 SpecText SpecSel32 MrRank MrRankFacts MrRankFacts2 MrRankFacts3 MrSelect MrSelectFacts MrSelectFacts2 MrSelectFacts3 MrSelectFacts4 MrSelectFacts5 MrSelectFacts6 MrMpe MrMpeFacts2 MrMpeFacts3 MrMpeFacts5 MrRank32 MrRank32Facts2 MrMpe32 MrSelect32 MrSelect32Facts MrSelect32Facts2 MrSelect32Facts3 MrSelect32Facts4 MrSelect32Facts5 MrSelect32Facts6 MrSmpe MrSmpeFacts MrSmpeFacts2 MrSmpeFacts3 MrSmpeFacts5 MrSmpeFacts6 MrSmpe32 MrSmpe32Facts MrSmpe32Facts2 MrSmpe32Facts3 MrSmpe32Facts5.
Ltac Zify.zify_post_hook ::= Z.div_mod_to_equations.

(** Lines 1729-1731 and 2177-2179. *)
Lemma pad3_loop32 n V r : 0 < n -> zlen r = 32 * (n / 16 + 1) -> zn 0 r (2 * (n - 1) + 1) = V -> 2 * n < 2 ^ 32 ->
  exists r', foldM (fun temp k => let* x := geti temp (u32 (2 * n - 1)) in seti temp (2 * n + 1 + 2 * k) x) (zrange 0 (Z.to_nat ((32 * (n / 16 + 1) - 2 * n) / 2))) r = Ok r' /\
    zlen r' = zlen r /\ (forall k, 0 <= k -> k mod 2 = 0 \/ k < 2 * n -> zn 0 r' k = zn 0 r k) /\ (forall c, n <= c < 16 * (n / 16 + 1) -> zn 0 r' (2 * c + 1) = V).
Proof.
  intros Hn Hr HV Hb. rewrite wrap_small by lia. set (tl := 16 * (n / 16 + 1)) in *. assert (TL : n < tl) by (unfold tl; lia). replace (32 * (n / 16 + 1)) with (2 * tl) in * by (unfold tl; lia). clearbody tl.
  destruct (foldM_inv (fun temp k => let* x := geti temp (2 * n - 1) in seti temp (2 * n + 1 + 2 * k) x) (fun j r' => zlen r' = zlen r /\ (forall k, 0 <= k -> k mod 2 = 0 \/ k < 2 * n -> zn 0 r' k = zn 0 r k) /\
    (forall c, n <= c < n + j -> zn 0 r' (2 * c + 1) = V)) (Z.to_nat ((2 * tl - 2 * n) / 2)) 0 r) as (r' & E & L & Q1 & Q2).
  - split; [auto|]. split; [auto|]. intros c Hc. lia.
  - intros j r' Hj (L & Q1 & Q2). assert (n + j < tl) by (clear - Hj TL Hn; lia). rewrite geti_ok by lia. cbn [bind]. rewrite seti_ok by lia. eexists. split; [reflexivity|]. rewrite zlen_upd. split; [auto|]. split.
    + intros k Hk Hk2. rewrite zn_upd by lia. replace (k =? 2 * n + 1 + 2 * j) with false by (clear - Hk2 Hj; lia). auto.
    + intros c Hc. rewrite zn_upd by lia. destruct (2 * c + 1 =? 2 * n + 1 + 2 * j) eqn:E.
      * rewrite Q1 by lia. rewrite <- HV. f_equal. lia.
      * apply Q2. lia.
  - exists r'. split; [exact E|]. split; [auto|]. split; [auto|]. intros c Hc. apply Q2. clear - Hc TL Hn. lia.
Qed.

(** In the strict reading the last superblock reads blockToCompress past its end. *)
Lemma super3_32_fail M jf temp btc s : 0 <= s -> 32 * (s + 1) <= zlen temp -> zlen btc < 16 * s + 16 -> super3_32 M true jf temp btc s = Ub UB_bounds.
Proof.
  intros Hs Ht He. unfold super3_32.
  match goal with |- context [foldM ?g (zrange 0 16) ?v0] => destruct (foldM_inv g (fun _ v => zlen v = 25) 16 0 v0) as (v1 & E1 & P1) end.
  - reflexivity.
  - intros j v Hj L. change (0 + Z.of_nat 16) with 16 in Hj. rewrite geti_ok by lia. cbn [bind]. rewrite seti_ok by lia. eexists. split; [reflexivity|]. rewrite zlen_upd. exact L.
  - rewrite E1. cbn [bind]. rewrite geti_ok by lia. cbn [bind]. rewrite seti_ok by lia. cbn [bind].
    match goal with |- context [foldM ?g (zrange 0 15) ?v0] => destruct (fold_fail g (fun j v => zlen v = 25 /\ (0 < j -> 16 * s + j + 1 <= zlen btc)) (fun _ => True) 15 ltac:(auto) 0 v0) as [(v2 & E2 & L2 & B2)|(E2 & _)] end.
    + rewrite zlen_upd. split; [exact P1|lia].
    + intros j v Hj (L & B). change (0 + Z.of_nat 15) with 15 in Hj. rewrite geti_ok by lia. cbn [bind]. unfold read_btc. cbn [orb]. unfold geti at 1 3.
      destruct ((0 <=? 16 * s + j + 1) && (16 * s + j + 1 <? zlen btc)) eqn:E; cbn [bind].
      * left. rewrite geti_ok by lia. cbn [bind]. rewrite seti_ok by lia. eexists. split; [reflexivity|]. rewrite zlen_upd. split; [exact L|lia].
      * right. auto.
    + change (0 + Z.of_nat 15) with 15 in B2. lia.
    + rewrite E2. reflexivity.
Qed.

Definition temp3_32 (M : mpe_type) (L T : Z) (t temp : list Z) : Prop :=
  zlen temp = 32 * (nbk L t / 16 + 1) /\ (forall c, 0 <= c <= nbk L t -> zn 0 temp (2 * c) = SS L t c) /\
  (forall c, 0 <= c < 16 * (nbk L t / 16 + 1) -> zn 0 temp (2 * c + 1) = CO32 M L T t (Z.min c (nbk L t - 1))).
Definition blen3_32 (M : mpe_type) (L T : Z) (t : list Z) : Z := O132 L T t (nbk L t) + AD M L T t (nbk L t) - 2 * RM M L T t (nbk L t).
Definition bits3_32 (M : mpe_type) (L T : Z) (t : list Z) (addr : Z) (bits : list Z) : Prop :=
  (zlen bits = blen3_32 M L T t + room_of addr \/ CO32 M L T t (nbk L t) = 0 /\ blen3_32 M L T t <= zlen bits) /\ CO32 M L T t (nbk L t) <= zlen bits < 2 ^ 32 /\ forall c, 0 <= c < nbk L t -> spay32 M L T t bits c.

(** The bytes allocated for the payload. *)
Definition builds3_32 (M : mpe_type) (L T : Z) (m : memory) (t : list Z) : bool :=
  (blen3_32 M L T t + 128 <? 2 ^ 32) && negb (overflows32 L T (room_of (m_addr_b m)) (text_bits t)).
Lemma alloc3_32 M L T t j a : 1 <= L < T -> T < 2 ^ 32 -> zlen t < 2 ^ 29 -> 1 <= K t ->
  let cap := zlen (fresh_aligned_b32 j a (u32 (blen3_32 M L T t))) in
  0 <= cap < 2 ^ 32 /\ (CO32 M L T t (nbk L t) <=? cap) = (blen3_32 M L T t + 128 <? 2 ^ 32) && negb (overflows32 L T (room_of a) (text_bits t)) /\
  (blen3_32 M L T t + 128 < 2 ^ 32 -> cap = blen3_32 M L T t + room_of a).
Proof.
  intros HL HT Hl HK. cbv zeta. rewrite zlen_bytes32, wrap32_l. pose proof (nbk_1 L t ltac:(lia) HK) as N1.
  pose proof (blen_nonneg32 M L T t HL Hl (nbk L t) ltac:(lia)) as OB. fold (blen3_32 M L T t) in OB. pose proof (most32_all L T t HL HT Hl HK) as MA.
  pose proof (wrap_bound 32 (blen3_32 M L T t + 128) ltac:(lia)) as WB. split; [lia|].
  rewrite <- overflow32_iff by auto. pose proof (CO32_sum M L T t (nbk L t) ltac:(lia)) as CS. assert (BE : blen3_32 M L T t = O132 L T t (nbk L t) + AD M L T t (nbk L t) - 2 * RM M L T t (nbk L t)) by reflexivity.
  set (B := blen3_32 M L T t) in *. set (ad := AD M L T t (nbk L t)) in *. set (r := RM M L T t (nbk L t)) in *. set (C := CO32 M L T t (nbk L t)) in *. clearbody B ad r C. pose proof (room_bound a) as RB. unfold room_of in *. destruct (B + 128 <? 2 ^ 32) eqn:E; cbn [andb].
  - rewrite wrap_small by lia. split; [|intros; lia]. apply eq_true_iff_eq. rewrite !Z.leb_le. lia.
  - assert (u32 (B + 128) <= B + 128 - 2 ^ 32).
    { unfold wrap. pose proof (Z.div_mod (B + 128) (2 ^ 32) ltac:(lia)) as DM.
      assert (1 <= (B + 128) / 2 ^ 32) by (apply Z.div_le_lower_bound; lia). lia. }
    split; [|intros; lia]. lia.
Qed.

Lemma fits3_32 M L T t a : 1 <= L < T -> zlen t < 2 ^ 29 -> a mod 16 = 0 -> 2 <= nbk L t -> CO32 M L T t (nbk L t) + 15 <= blen3_32 M L T t + room_of a.
Proof.
  intros HL Hl Ha HN. rewrite CO32_sum by lia. unfold blen3_32. pose proof (room_16 a Ha). destruct (tight L T t) eqn:TI.
  - destruct (tight_sizes32 L T t HL TI) as (T1 & _). lia.
  - pose proof (fits_all32 L T t HL TI (nbk L t) ltac:(lia)). lia.
Qed.

(** Everything before the headers. *)
Lemma build_front32 M L T strict jf m t : 1 <= L < T -> T < 2 ^ 32 -> addresses_ok m -> text_ok t -> zlen t < 2 ^ 29 -> nbk L t < 2 ^ 31 - 17 -> 1 <= K t ->
  if negb (builds3_32 M L T m t) then build_smpe32 M L T strict jf m t = Ub UB_bounds
  else exists temp btc bits, temp3_32 M L T t temp /\ btc3 M L T t jf btc /\ bits3_32 M L T t (m_addr_b m) bits /\
    build_smpe32 M L T strict jf m t =
      (let slen := 25 * (nbk L t / 16 + 1) in
       let* arr := foldM (fun arr s => let* v := super3_32 M strict jf temp btc s in put_words arr (25 * s) v) (zrange 0 (Z.to_nat (nbk L t / 16 + 1))) (fresh_aligned32 (m_junk_r m) (m_addr_r m) slen) in
       Ok {| sb_selects := arr; sb_selects_len := slen; sb_bits := bits; sb_bits_len := u32 (blen3_32 M L T t); sb_text_len := zlen t |}).
Proof.
  intros HL HT (A1 & A2 & A3 & A4) H Hl HN HK. unfold build_smpe32. rewrite number_of_ones32_ok by auto. rewrite selects_len32_nbk by lia.
  pose proof (nbk_1 L t ltac:(lia) HK) as N1. rewrite sel_temp_len32_ok by lia.
  assert (ZA : zlen (fresh32 (m_junk_t m) (32 * (nbk L t / 16 + 1))) = 32 * (nbk L t / 16 + 1)) by (apply zlen_fresh32; lia).
  set (arr0 := fresh32 (m_junk_t m) (32 * _)) in *. clearbody arr0.
  destruct (first_pass32_ok L T t arr0 HL HT H Hl ltac:(lia)) as (arr & -> & FD). cbn [bind].
  pose proof (O132_bound L T t (nbk L t) HL ltac:(lia)) as OB. pose proof FD as [ZF FE].
  destruct (zero_rest arr (2 * nbk L t + 2) (Z.to_nat (32 * (nbk L t / 16 + 1) - (2 * nbk L t + 2))) ltac:(lia) ltac:(lia)) as (arr2 & -> & ZF2 & FE2). cbn [bind].
  replace (2 * nbk L t + 2 - 2) with (2 * nbk L t) by lia. rewrite (wrap_small 32 (2 * nbk L t)) by lia. replace ((2 * nbk L t + 2) / 2 - 1) with (nbk L t) by lia.
  assert (EV : evens L t arr2).
  { split; [lia|]. intros c Hc. destruct (FE c Hc) as [F1 F2]. rewrite FE2 by lia. replace ((2 * nbk L t + 2 <=? 2 * c) && _) with false by lia. exact F1. }
  assert (ZC : zlen (fresh32 (m_junk_t m) (T / 8 + 1)) = T / 8 + 1) by (apply zlen_fresh32; lia).
  set (cont0 := fresh32 (m_junk_t m) (T / 8 + 1)) in *. clearbody cont0.
  destruct (scan_all_ok32 _ L T t _ _ _ cont0 (arr2, fresh_b jf (nbk L t), 0, 0) HL H Hl (choose_good32 M L T t arr2 (fresh_b jf (nbk L t)) HL Hl EV) HK ZC) as [(st & -> & Fin & _ & ZC2)|[_ []]].
  { split; [auto|]. split; [apply zlen_fresh_b; lia|]. split; [intros; lia|]. split; [auto|]. split; reflexivity. }
  cbn [bind]. destruct (z_out st) as [[[temp btc] removed] added] eqn:EO. destruct Fin as (-> & F1 & F2 & F3 & -> & ->).
  assert (BE : u32 (u32 (u32 (O132 L T t (nbk L t)) + u32 (AD M L T t (nbk L t))) - 2 * u32 (RM M L T t (nbk L t))) = u32 (blen3_32 M L T t)).
  { unfold blen3_32, wrap. rewrite <- Zplus_mod. rewrite Zminus_mod_idemp_l. rewrite Zminus_mod, Zmult_mod_idemp_r, <- Zminus_mod. reflexivity. }
  rewrite BE. rewrite geti_ok by lia. cbn [bind].
  destruct (alloc3_32 M L T t (m_junk_b m) (m_addr_b m) HL HT Hl HK) as (CB & CE & CV). fold (builds3_32 M L T m t) in CE.
  set (bits0 := fresh_aligned_b32 _ _ _) in *. clearbody bits0.
  destruct (scan_all_ok32 _ L T t _ _ _ (z_cont st) (arr2, bits0, 0, zn 0 btc 0) HL H Hl (store_good32 M L T t arr2 btc (zlen bits0) HL Hl EV F1 F2) HK ZC2) as [(st2 & -> & Fin & SC & _)|[-> BAD]].
  { destruct EV as [EV1 EV2]. split; [auto|]. split; [auto|]. split; [|split; [reflexivity|split; [rewrite CO32_0; reflexivity|split; [|split; [auto|split; [intros; lia|intros; lia]]]]]].
    - intros c Hc. assert (c = 0) by lia. subst c. destruct (FE 0 ltac:(lia)) as [_ Q]. rewrite FE2 by lia. replace ((2 * nbk L t + 2 <=? 2 * 0 + 1) && _) with false by lia. rewrite CO32_0. exact Q.
    - lia. }
  2:{ destruct (builds3_32 M L T m t) eqn:EV2; [exfalso; lia|reflexivity]. }
  cbn [bind]. destruct (z_out st2) as [[[temp bits] bc] f]. destruct Fin as (G1 & G2 & G3 & G4 & G5 & G6). rewrite SC.
  replace (builds3_32 M L T m t) with true by (rewrite <- CE; symmetry; apply Z.leb_le; lia). cbn [negb].
  assert (ZT : zlen temp = 32 * (nbk L t / 16 + 1)) by (clear - G1 ZF2 ZF ZA; lia).
  destruct (pad3_loop32 (nbk L t) (CO32 M L T t (nbk L t - 1)) temp ltac:(clear - N1; lia) ZT (G3 (nbk L t - 1) ltac:(clear - N1; lia)) ltac:(clear - HN; lia)) as (temp2 & -> & P1 & P2 & P3). cbn [bind].
  destruct (incr_ok32 L t (2 * nbk L t + 2) temp2 ltac:(clear - HL; lia) Hl eq_refl ltac:(clear - P1 ZT; lia)) as (temp4 & -> & I1 & I2 & I3).
  { intros c Hc. rewrite P2 by (clear - Hc; lia). apply G2. exact Hc. }
  cbn [bind]. replace (32 * (nbk L t / 16 + 1) / 2 / 16) with (nbk L t / 16 + 1) by (clear; lia). replace ((nbk L t / 16 + 1) * 25) with (25 * (nbk L t / 16 + 1)) by lia. rewrite (wrap_small 32 (25 * (nbk L t / 16 + 1))) by (clear - HN N1; lia).
  exists temp4, btc, bits. split; [|split; [|split; [|reflexivity]]].
  - split; [clear - I1 P1 ZT; lia|]. split; [exact I2|]. intros c Hc. rewrite I3 by (clear - Hc; lia). destruct (Z_lt_le_dec c (nbk L t)) as [CL|CL].
    + rewrite P2 by (clear - Hc CL; lia). rewrite Z.min_l by (clear - CL; lia). apply G3. clear - Hc CL; lia.
    + rewrite P3 by (clear - Hc CL; lia). rewrite Z.min_r by (clear - CL; lia). reflexivity.
  - split; [exact F1|]. split; [exact F2|]. rewrite F3. unfold lastflag. destruct (K t mod L >? 0); [reflexivity|]. unfold fresh_b. rewrite zn_map_zrange by (clear - N1; lia). reflexivity.
  - assert (BT : builds3_32 M L T m t = true) by (rewrite <- CE; apply Z.leb_le; lia). unfold builds3_32 in BT. apply andb_prop in BT. destruct BT as [BT _]. rewrite CV in G4 by lia.
    split; [left; exact G4|]. split; [clear - G4 G5 CB CV BT; specialize (CV ltac:(lia)); lia|]. exact G6.
Qed.

Definition smpeP32 (M : mpe_type) (L T : Z) (jf : Z -> Z) (m : memory) (t : list Z) (r : select_basic) : Prop :=
  exists temp btc, temp3_32 M L T t temp /\ btc3 M L T t jf btc /\ bits3_32 M L T t (m_addr_b m) (sb_bits r) /\
  super3arr32 M jf temp btc (sb_selects r) (nbk L t / 16 + 1) /\ zlen (sb_selects r) = 25 * (nbk L t / 16 + 1) + slack32 (m_addr_r m) /\
  sb_selects_len r = 25 * (nbk L t / 16 + 1) /\ sb_bits_len r = blen3_32 M L T t /\ sb_text_len r = zlen t.

Lemma build_smpe32_ok M L T jf m t : 1 <= L < T -> T < 2 ^ 32 -> addresses_ok m -> text_ok t -> zlen t < 2 ^ 29 -> nbk L t < 2 ^ 31 - 17 -> 1 <= K t ->
  if negb (builds3_32 M L T m t) then build_smpe32 M L T false jf m t = Ub UB_bounds
  else exists r, build_smpe32 M L T false jf m t = Ok r /\ smpeP32 M L T jf m t r.
Proof.
  intros HL HT A H Hl HN HK. pose proof (build_front32 M L T false jf m t HL HT A H Hl HN HK) as B. destruct (builds3_32 M L T m t) eqn:BT; cbn [negb] in *; [|exact B].
  destruct B as (temp & btc & bits & T3 & B3 & Y3 & ->). cbv zeta. destruct A as (A1 & A2 & A3 & A4). pose proof (nbk_1 L t ltac:(lia) HK) as N1. pose proof (slack32_ok _ A2) as SL. pose proof T3 as [ZT _].
  destruct (supers3_32_ok M false jf temp btc (fresh_aligned32 (m_junk_r m) (m_addr_r m) (25 * (nbk L t / 16 + 1))) (nbk L t / 16 + 1) ltac:(discriminate) ltac:(lia) ltac:(lia)) as (sa & -> & ZS & QS).
  { rewrite zlen_ints32 by (auto; lia). lia. }
  rewrite zlen_ints32 in ZS by (auto; lia). cbn [bind]. eexists. split; [reflexivity|]. exists temp, btc. cbn [sb_selects sb_selects_len sb_bits sb_bits_len sb_text_len].
  split; [exact T3|]. split; [exact B3|]. split; [exact Y3|]. split; [exact QS|]. split; [exact ZS|]. split; [reflexivity|]. split; [|reflexivity].
  apply andb_prop in BT. destruct BT as [BT _]. apply wrap_small. pose proof (blen_nonneg32 M L T t HL Hl (nbk L t) ltac:(lia)) as OB. fold (blen3_32 M L T t) in OB. lia.
Qed.

Lemma build_smpe32_strict M L T jf m t : 1 <= L < T -> T < 2 ^ 32 -> addresses_ok m -> text_ok t -> zlen t < 2 ^ 29 -> nbk L t < 2 ^ 31 - 17 -> 1 <= K t ->
  build_smpe32 M L T true jf m t = Ub UB_bounds.
Proof.
  intros HL HT A H Hl HN HK. pose proof (build_front32 M L T true jf m t HL HT A H Hl HN HK) as B. destruct (negb (builds3_32 M L T m t)); [exact B|].
  destruct B as (temp & btc & bits & T3 & B3 & Y3 & ->). cbv zeta. destruct A as (A1 & A2 & A3 & A4). pose proof (nbk_1 L t ltac:(lia) HK) as N1. pose proof (slack32_ok _ A2) as SL. pose proof T3 as [ZT _]. pose proof B3 as [ZB _].
  replace (Z.to_nat (nbk L t / 16 + 1)) with (S (Z.to_nat (nbk L t / 16))) by lia. rewrite zrange_last. rewrite foldM_app.
  destruct (supers3_32_ok M true jf temp btc (fresh_aligned32 (m_junk_r m) (m_addr_r m) (25 * (nbk L t / 16 + 1))) (nbk L t / 16) ltac:(intros; lia) ltac:(lia) ltac:(lia)) as (sa & -> & ZS & QS).
  { rewrite zlen_ints32 by (auto; lia). lia. }
  cbn [bind]. replace (0 + Z.of_nat (Z.to_nat (nbk L t / 16))) with (nbk L t / 16) by lia. cbn [foldM]. rewrite super3_32_fail by lia. reflexivity.
Qed.

(** Without ones blockToCompress has no entries at all. *)
Lemma build_smpe32_none M L T strict jf m t : 1 <= L < T -> T < 2 ^ 32 -> text_ok t -> zlen t < 2 ^ 29 -> K t = 0 -> build_smpe32 M L T strict jf m t = Ub UB_bounds.
Proof.
  intros HL HT H Hl HK. unfold build_smpe32. rewrite number_of_ones32_ok by auto.
  assert (N0 : nbk L t = 0) by (unfold nbk; rewrite HK; apply Z.div_small; lia). rewrite selects_len32_nbk by lia. rewrite sel_temp_len32_ok by lia.
  assert (ZA : zlen (fresh32 (m_junk_t m) (32 * (nbk L t / 16 + 1))) = 32 * (nbk L t / 16 + 1)) by (apply zlen_fresh32; lia).
  set (arr0 := fresh32 (m_junk_t m) (32 * _)) in *. clearbody arr0.
  destruct (first_pass32_ok L T t arr0 HL HT H Hl ltac:(lia)) as (arr & -> & FD). cbn [bind]. pose proof FD as [ZF FE]. rewrite N0 in *. change (32 * (0 / 16 + 1)) with 32 in *. change (2 * 0 + 2) with 2 in *.
  destruct (zero_rest arr 2 (Z.to_nat (32 - 2)) ltac:(lia) ltac:(lia)) as (arr2 & -> & ZF2 & FE2). cbn [bind]. change (2 / 2 - 1) with 0. change (u32 (2 - 2)) with 0.
  unfold scan_all32. cbn [choose_pass32 p_sel]. rewrite !geti_ok by lia. cbn [bind]. rewrite (FE2 2) by lia. replace ((2 <=? 2) && (2 <? 2 + Z.of_nat (Z.to_nat (32 - 2)))) with true by lia.
  change (fresh_b jf 0) with (@nil Z). destruct t as [|b t'].
  - reflexivity.
  - replace (Z.to_nat (8 * zlen (b :: t'))) with (S (Z.to_nat (8 * zlen (b :: t') - 1))) by (rewrite zlen_cons; pose proof (zlen_nonneg t'); lia). cbn [zrange foldM].
    unfold step3_32 at 1, enter3 at 1 2 3. cbn [z_done z_upto z_sc enter3]. change (0 =? 0) with true. change (0 + 2 =? 0) with false. cbv iota. unfold next3_32, flush3. cbn [z_out z_cont z_n z_sc z_len z_pos enter3]. rewrite andb_false_r. reflexivity.
Qed.
