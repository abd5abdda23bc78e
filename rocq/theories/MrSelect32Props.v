(** SelectBasic32: the statements of Properties27. *)
From Coq Require Import ZifyBool.
From Verif Require Import Base BaseFacts Mem MemFacts Words WordFacts BlockFacts NodeFacts Trees TreeBuild Spec BitmapFacts ProgramFacts KernelFacts SpecPoppy PoppyFacts PoppyFacts2 SpecText SpecSel32 MrRank MrRankFacts MrRankFacts2 MrRankFacts3 MrRankProps MrMpe MrRank32 MrRank32Facts2 MrMpe32 MrSelect MrSelectFacts MrSelectFacts2 MrSelectFacts3 MrSelectFacts4 MrSelectFacts5 MrSelectFacts6 MrSelectProps MrSelect32 MrSelect32Facts MrSelect32Facts2 MrSelect32Facts3 MrSelect32Facts4 MrSelect32Facts5 MrSelect32Facts6.
Ltac Zify.zify_post_hook ::= Z.div_mod_to_equations.

(** ** The payload *)
Lemma payload_O132 L T t : 1 <= L < T -> sel_payload32 L T (text_bits t) = O132 L T t (nbk L t).
Proof.
  intros HL. unfold sel_payload32, O132. rewrite groups_nbk. apply sumf_ext. intros c Hc. unfold group_bytes32, w132, group_span. rewrite <- K_ones.
  pose proof (proj1 (blk_lt L t c ltac:(lia) ltac:(lia)) ltac:(lia)) as CK. rewrite group_SS by lia. fold (P t (Z.min ((c + 1) * L) (K t))). rewrite <- SS_pos by lia. fold (DD L t c).
  fold (fullb L t c). pose proof (DD_pos L t c ltac:(lia) ltac:(lia)). destruct (fullb L t c) eqn:F.
  - pose proof (DD_ge L t c ltac:(lia) ltac:(lia) F). destruct (DD L t c >? T); [reflexivity|]. replace (DD L t c >? L) with (negb (DD L t c =? L)) by lia.
    destruct (DD L t c =? L); [reflexivity|]. cbn [negb]. rewrite !up8_div by lia. destruct (c =? 0); [reflexivity|]. f_equal. lia.
  - cbv zeta. rewrite up8_div by (destruct (c =? 0); lia). reflexivity.
Qed.
Lemma builds32_spec L T m t : 1 <= L < T -> builds32 L T m t = negb (payload_too_large32 L T (text_bits t)) && negb (overflows32 L T (room_of (m_addr_b m)) (text_bits t)).
Proof. intros HL. unfold builds32, payload_too_large32. rewrite payload_O132 by auto. f_equal. lia. Qed.

(** ** Plain headers *)
Lemma args_std32 L T : arguments_ok32 false L T = true -> L < T.
Proof. unfold arguments_ok32. cbn [andb negb]. lia. Qed.
Lemma arguments32_iff bch L T : arguments_ok32 bch L T = true <-> L < T /\ (bch = true -> 4 * (L - 1) <= 4369 /\ T <= 8 * 4369 + 1).
Proof. unfold arguments_ok32. change (65535 / 15) with 4369. destruct bch; cbn [andb negb]; split; [| | |]; intros; lia. Qed.

Lemma std_select32 L T m t : 1 <= L -> T <= 2 ^ 32 - 64 -> arguments_ok32 false L T = true -> addresses_ok m -> text_ok t -> zlen t < 2 ^ 29 -> 1 <= count_true (text_bits t) ->
  groups L (text_bits t) < 2 ^ 31 - 17 -> payload_too_large32 L T (text_bits t) = false -> overflows32 L T (room_of (m_addr_b m)) (text_bits t) = false ->
  exists r, build_sel32 L T m t = Ok r /\ select_std32 L T r 0 = Ok (2 ^ 32 - 1) /\
    forall k, 1 <= k <= count_true (text_bits t) -> select_std32 L T r k = Ok (sel_answer L (text_bits t) k).
Proof.
  intros HL HT AR A H Hl HK HG HP HO. apply args_std32 in AR. rewrite <- K_ones in *. rewrite groups_nbk in HG. pose proof (build_sel32_ok L T m t ltac:(lia) ltac:(lia) A H Hl HG HK) as B.
  rewrite builds32_spec, HP, HO in B by lia. cbn [negb andb] in B.
  destruct B as (r & E & R). exists r. split; [exact E|]. split; [eapply select_std32_0; eauto; lia|]. intros k Hk. rewrite <- answer_spec with (T := T) by lia.
  eapply select_std32_ok; eauto.
Qed.
Lemma std_overflow32 L T m t : 1 <= L -> T < 2 ^ 32 -> arguments_ok32 false L T = true -> addresses_ok m -> text_ok t -> zlen t < 2 ^ 29 -> 1 <= count_true (text_bits t) ->
  groups L (text_bits t) < 2 ^ 31 - 17 -> payload_too_large32 L T (text_bits t) = true \/ overflows32 L T (room_of (m_addr_b m)) (text_bits t) = true -> build_sel32 L T m t = Ub UB_bounds.
Proof.
  intros HL HT AR A H Hl HK HG HO. apply args_std32 in AR. rewrite <- K_ones in *. rewrite groups_nbk in HG. pose proof (build_sel32_ok L T m t ltac:(lia) HT A H Hl HG HK) as B.
  rewrite builds32_spec in B by lia. destruct HO as [HO|HO]; rewrite HO in B; cbn [negb] in B; rewrite ?andb_false_r in B; exact B.
Qed.

(** ** Compressed headers *)
Lemma select_bch32_0 L T m t r : 1 <= L < T -> addresses_ok m -> selbP32 L T m t r -> select_bch32 L T r 0 = Ok (2 ^ 32 - 1).
Proof.
  intros HL (A1 & A2 & A3 & A4) (temp & B2 & B3 & B4 & B5 & SA & Z1 & _). unfold select_bch32. pose proof (slack32_ok _ A2) as SL. pose proof (nbk_pos L t ltac:(lia)).
  rewrite !Z.div_0_l, !Z.mod_0_l by lia. change (u32 (25 * 0) + 0) with 0. rewrite geti_ok by lia. cbn [bind]. rewrite Z.eqb_refl.
  destruct (SA 0 ltac:(lia)) as (v & (_ & V1 & _) & W). specialize (W 0 ltac:(lia)). change (25 * 0 + 0) with 0 in W. rewrite W, V1 by lia. replace (2 * (16 * 0 + 0)) with (2 * 0) by lia. rewrite B2 by lia. reflexivity.
Qed.

Lemma bch_select32 L T m t : 1 <= L -> arguments_ok32 true L T = true -> addresses_ok m -> text_ok t -> zlen t < 2 ^ 29 -> 1 <= count_true (text_bits t) ->
  groups L (text_bits t) < 2 ^ 31 - 17 -> payload_too_large32 L T (text_bits t) = false -> overflows32 L T (room_of (m_addr_b m)) (text_bits t) = false ->
  exists r, build_sel_bch32 L T m t = Ok r /\ select_bch32 L T r 0 = Ok (2 ^ 32 - 1) /\
    forall k, 1 <= k <= count_true (text_bits t) -> select_bch32 L T r k = Ok (sel_answer L (text_bits t) k).
Proof.
  intros HL AR A H Hl HK HG HP HO. destruct (args_bounds32 L T HL AR) as (A1 & A2 & A3). rewrite <- K_ones in *. rewrite groups_nbk in HG.
  pose proof (build_sel_bch32_ok L T m t ltac:(lia) ltac:(lia) A H Hl HG HK) as B. rewrite builds32_spec, HP, HO in B by lia. cbn [negb andb] in B.
  destruct B as (r & E & R). exists r. split; [exact E|]. split; [eapply select_bch32_0; eauto; lia|]. intros k Hk. rewrite <- answer_spec with (T := T) by lia.
  eapply select_bch32_ok; eauto.
Qed.
Lemma bch_overflow32 L T m t : 1 <= L -> arguments_ok32 true L T = true -> addresses_ok m -> text_ok t -> zlen t < 2 ^ 29 -> 1 <= count_true (text_bits t) ->
  groups L (text_bits t) < 2 ^ 31 - 17 -> payload_too_large32 L T (text_bits t) = true \/ overflows32 L T (room_of (m_addr_b m)) (text_bits t) = true -> build_sel_bch32 L T m t = Ub UB_bounds.
Proof.
  intros HL AR A H Hl HK HG HO. destruct (args_bounds32 L T HL AR) as (A1 & A2 & A3). rewrite <- K_ones in *. rewrite groups_nbk in HG.
  pose proof (build_sel_bch32_ok L T m t ltac:(lia) ltac:(lia) A H Hl HG HK) as B.
  rewrite builds32_spec in B by lia. destruct HO as [HO|HO]; rewrite HO in B; cbn [negb] in B; rewrite ?andb_false_r in B; exact B.
Qed.

(** ** No ones *)
Lemma idle32_step L T t A cap q st : 1 <= L < T -> zlen t < 2 ^ 29 -> K t = 0 -> 0 <= q < 8 * zlen t -> zlen A = 32 -> (forall k, 0 <= k < 32 -> zn 0 A k = 0) -> 0 <= cap ->
  idle A cap q st -> (exists st', second_step32 L T t 0 0 st q = Ok st' /\ idle A cap (q + 1) st') \/ (second_step32 L T t 0 0 st q = Ub UB_bounds /\ cap < zlen t - 1).
Proof.
  intros HL Hl EK Hq ZA AZ HC (I1 & I2 & I3 & I4 & I5 & I6 & I). unfold second_step32. rewrite I1, I2. rewrite (wrap_small 32 q) by lia. destruct (q =? 0) eqn:E0.
  - destruct I as (J1 & J2 & J3 & J4). left. rewrite J2. change (0 + 2 =? 0) with false. cbv iota. unfold next_block32, flush.
    rewrite J1, J2, J3, J4. rewrite Z.eqb_refl. cbn [negb]. rewrite andb_false_r. cbn [bind]. change (0 + 2) with 2.
    rewrite seti_ok by lia. cbn [bind]. rewrite !geti_ok by (rewrite zlen_upd; lia). cbn [bind]. rewrite !zn_upd by lia. change (2 + 2 =? 2 + 1) with false. change (2 =? 2 + 1) with false. cbv iota.
    rewrite !AZ by lia. eexists. split; [reflexivity|]. unfold idle. replace (q + 1 =? 0) with false by lia. unfold enter. cbn [s_arr s_bits s_sc s_bc s_byte s_pos s_upto s_sparse s_mono s_done].
    rewrite zlen_upd, zn_upd by lia. replace q with 0 by lia. change (u32 (0 - 0)) with 0. replace (0 >? T) with false by lia. replace (0 =? L) with false by lia.
    repeat split; auto; try lia. cbn [Z.eqb]. apply AZ. lia.
  - destruct I as (J1 & J2 & J3 & J4 & J5 & J6). unfold inner_bit32. rewrite J6, J5. rewrite text_bit_ok by lia. cbn [bind].
    rewrite no_ones by (auto; lia). change (0 =? 1) with false. cbv iota. rewrite I3, J3, J4. destruct (7 - (q - 1) mod 8 =? 0) eqn:EP.
    + destruct (seti_or (s_bits st) ((q - 1) / 8) 0 ltac:(lia)) as [[B ->]|[B ->]]; cbn [bind].
      * left. eexists. split; [reflexivity|]. unfold idle. replace (q + 1 =? 0) with false by lia. cbn [s_arr s_bits s_sc s_bc s_byte s_pos s_upto s_sparse s_mono s_done]. rewrite zlen_upd.
        repeat split; auto; lia.
      * right. split; [reflexivity|]. lia.
    + left. eexists. split; [reflexivity|]. unfold idle. replace (q + 1 =? 0) with false by lia. cbn [s_arr s_bits s_sc s_bc s_byte s_pos s_upto s_sparse s_mono s_done].
      repeat split; auto; lia.
Qed.

Lemma build_bch_zero32 L T m t : 1 <= L < T -> T < 2 ^ 32 -> addresses_ok m -> text_ok t -> zlen t < 2 ^ 29 -> K t = 0 ->
  if zlen t - 1 <=? room_of (m_addr_b m) then exists r, build_sel_bch32 L T m t = Ok r /\ selbP32 L T m t r else build_sel_bch32 L T m t = Ub UB_bounds.
Proof.
  intros HL HT (A1 & A2 & A3 & A4) H Hl EK. unfold build_sel_bch32. rewrite number_of_ones32_ok by auto. pose proof (slack32_ok _ A2) as SL.
  pose proof (nbk_0 L t ltac:(lia) EK) as N0. rewrite selects_len32_nbk by lia. rewrite N0. change (2 * 0 + 2) with 2. change (sel_temp_len32 2) with 32.
  assert (ZA : zlen (fresh32 (m_junk_t m) 32) = 32) by (apply zlen_fresh32; lia). set (arr0 := fresh32 (m_junk_t m) _) in *. clearbody arr0.
  destruct (first_pass32_ok L T t arr0 HL HT H Hl ltac:(lia)) as (arr & -> & FD). cbn [bind]. rewrite N0. change (2 * 0 + 2) with 2. pose proof FD as [ZF FE]. rewrite N0 in FE.
  destruct (FE 0 ltac:(lia)) as [F0 F1]. change (2 * 0) with 0 in F0, F1. change (0 + 1) with 1 in F1. rewrite raw_0 in F0.
  destruct (zero_rest arr 2 (Z.to_nat (32 - 2)) ltac:(lia) ltac:(lia)) as (arr2 & -> & ZF2 & FE2). cbn [bind].
  assert (AZ : forall k, 0 <= k < 32 -> zn 0 arr2 k = 0).
  { intros k Hk. rewrite FE2 by lia. destruct ((2 <=? k) && (k <? 2 + Z.of_nat (Z.to_nat (32 - 2)))) eqn:E; [reflexivity|]. assert (C : k = 0 \/ k = 1) by lia. destruct C; subst k; auto. }
  change (u32 (2 - 2)) with 0. change (O132 L T t 0) with 0. change (u32 0) with 0. unfold second_pass32. rewrite !geti_ok by lia. cbn [bind]. rewrite !AZ by lia.
  set (bits := fresh_aligned_b32 _ _ 0). assert (ZB : zlen bits = room_of (m_addr_b m)) by (unfold bits; rewrite zlen_bytes32; change (u32 (0 + 128)) with 128; unfold room_of; lia). clearbody bits. pose proof (room_bound (m_addr_b m)) as RB.
  rewrite EK. destruct (foldM_inv_or (second_step32 L T t 0 0) (idle arr2 (zlen bits)) UB_bounds (zlen bits < zlen t - 1) (Z.to_nat (8 * zlen t)) 0 (enter L T arr2 bits 0 0 0 (u32 (u32 (0 - 0) + 1)))) as [(st & E & I)|[E B]].
  - unfold idle. cbn [Z.eqb]. unfold enter. cbn [s_arr s_bits s_sc s_bc s_byte s_pos s_upto s_sparse s_mono s_done]. rewrite AZ by lia. repeat split; auto.
  - intros q st Hq I. pose proof (zlen_nonneg t). apply idle32_step with (A := arr2); auto; lia.
  - rewrite E. cbn [bind]. pose proof (zlen_nonneg t) as ZN.
    assert (IP : zlen (s_arr st) = 32 /\ zn 0 (s_arr st) 0 = 0 /\ zlen (s_bits st) = zlen bits /\ zlen t - 1 <= zlen bits).
    { destruct I as (I1 & I2 & I3 & I4 & I5 & I6 & I). destruct (0 + Z.of_nat (Z.to_nat (8 * zlen t)) =? 0) eqn:E0; [lia|]. destruct I as (J1 & _). lia. }
    destruct IP as (IP1 & IP2 & IP3 & IP4). replace (zlen t - 1 <=? room_of (m_addr_b m)) with true by lia.
    change (Z.to_nat ((2 + 1) / 2 - 1)) with 0%nat. cbn [zrange foldM bind]. change (32 / 2 / 16) with 1. change (u32 (1 * 25)) with 25.
    destruct (supers32_ok (s_arr st) (fresh_aligned32 (m_junk_r m) (m_addr_r m) 25) 1 ltac:(lia) ltac:(lia)) as (sa & -> & ZS & QS).
    { rewrite zlen_ints32 by (auto; lia). lia. }
    rewrite zlen_ints32 in ZS by (auto; lia). cbn [bind]. eexists. split; [reflexivity|]. exists (s_arr st). cbn [sb_selects sb_selects_len sb_bits sb_bits_len sb_text_len].
    rewrite N0. change (0 / 16 + 1) with 1. change (25 * 1) with 25. change (OO32 L T t 0) with 0. change (O132 L T t 0) with 0.
    split; [intros c Hc; replace c with 0 by lia; exact IP2|]. split; [intros; lia|]. split; [intros; lia|]. split; [pose proof (zlen_nonneg (s_bits st)); lia|]. split; [exact QS|]. split; [exact ZS|]. auto.
  - rewrite E. cbn [bind]. replace (zlen t - 1 <=? room_of (m_addr_b m)) with false by lia. reflexivity.
Qed.

Lemma bch_zero32 L T m t : 1 <= L -> arguments_ok32 true L T = true -> addresses_ok m -> text_ok t -> zlen t < 2 ^ 29 -> count_true (text_bits t) = 0 ->
  if zlen t - 1 <=? room_of (m_addr_b m) then exists r, build_sel_bch32 L T m t = Ok r /\ select_bch32 L T r 0 = Ok (2 ^ 32 - 1) else build_sel_bch32 L T m t = Ub UB_bounds.
Proof.
  intros HL AR A H Hl HK. destruct (args_bounds32 L T HL AR) as (A1 & A2 & A3). rewrite <- K_ones in *.
  pose proof (build_bch_zero32 L T m t ltac:(lia) ltac:(lia) A H Hl HK) as B. destruct (zlen t - 1 <=? room_of (m_addr_b m)); [|exact B].
  destruct B as (r & E & R). exists r. split; [exact E|]. eapply select_bch32_0; eauto.
Qed.

(** Plain headers: fine if the word after the two that were written happens to be large. *)
Lemma first_pass_zero32 L T t arr0 : 1 <= L < T -> text_ok t -> zlen t < 2 ^ 29 -> K t = 0 -> 3 <= zlen arr0 ->
  exists arr, first_pass32 L T t (K t) arr0 = Ok (arr, 2, 0) /\ zlen arr = zlen arr0 /\ zn 0 arr 0 = 0 /\ zn 0 arr 2 = zn 0 arr0 2.
Proof.
  intros HL H Hl EK Ha. unfold first_pass32. rewrite seti_ok by lia. cbn [bind]. rewrite seti_ok by (rewrite zlen_upd; lia). cbn [bind].
  rewrite foldM_const.
  - cbn [bind]. rewrite EK. rewrite Z.mod_0_l by lia. change (0 >? 0) with false. cbv iota. eexists. split; [reflexivity|].
    rewrite !zlen_upd. split; [reflexivity|]. rewrite !zn_upd by (rewrite ?zlen_upd; lia). auto.
  - intros q Hq. unfold first_step32. pose proof (zlen_nonneg t). rewrite text_bit_ok by lia. cbn [bind]. rewrite no_ones by (auto; lia). reflexivity.
Qed.

Lemma std_zero32 L T m t : 1 <= L -> T < 2 ^ 32 -> arguments_ok32 false L T = true -> addresses_ok m -> text_ok t -> zlen t < 2 ^ 29 -> count_true (text_bits t) = 0 ->
  T <= u32 (m_junk_r m 2) < 2 ^ 32 - 1 -> 8 * zlen t <= u32 (m_junk_r m 2) -> exists r, build_sel32 L T m t = Ok r /\ select_std32 L T r 0 = Ok (2 ^ 32 - 1).
Proof.
  intros HL0 HT AR (A1 & A2 & A3 & A4) H Hl HK J1 J2. apply args_std32 in AR. assert (HL : 1 <= L < T) by lia. rewrite <- K_ones in *. unfold build_sel32. rewrite number_of_ones32_ok by auto. pose proof (slack32_ok _ A2) as SL.
  pose proof (nbk_0 L t ltac:(lia) HK) as N0. rewrite selects_len32_nbk by lia. rewrite N0. change (2 * 0 + 2) with 2.
  assert (ZA : zlen (fresh_aligned32 (m_junk_r m) (m_addr_r m) 2) = 2 + slack32 (m_addr_r m)) by (apply zlen_ints32; auto; lia).
  assert (J : zn 0 (fresh_aligned32 (m_junk_r m) (m_addr_r m) 2) 2 = u32 (m_junk_r m 2)) by (apply zn_aligned32; lia).
  set (arr0 := fresh_aligned32 (m_junk_r m) _ _) in *. clearbody arr0.
  destruct (first_pass_zero32 L T t arr0) as (arr & -> & ZF & F0 & F2); auto; try lia.
  cbn [bind]. unfold second_pass32. rewrite !geti_ok by lia. cbn [bind]. rewrite F0, F2, J. rewrite Z.sub_0_r. rewrite (wrap_small 32 (u32 (m_junk_r m 2))) by lia. rewrite (wrap_small 32 (u32 (m_junk_r m 2) + 1)) by lia.
  rewrite foldM_const.
  - cbn [bind]. change (Z.to_nat ((2 + 1) / 2 - 1)) with 0%nat. cbn [zrange foldM bind]. eexists. split; [reflexivity|]. unfold select_std32. cbn [sb_selects].
    rewrite Z.div_0_l, Z.mod_0_l by lia. unfold enter. cbn [s_arr]. change (u32 (2 * 0)) with 0. rewrite geti_ok by lia. cbn [bind]. rewrite F0. reflexivity.
  - intros q Hq. unfold second_step32, enter, inner_bit32. cbn [s_done s_upto s_mono s_sparse]. pose proof (zlen_nonneg t). rewrite (wrap_small 32 q) by lia. replace (q =? u32 (m_junk_r m 2)) with false by lia.
    replace (u32 (m_junk_r m 2) + 1 >? T) with true by lia. cbn [negb andb]. rewrite text_bit_ok by lia. cbn [bind]. rewrite no_ones by (auto; lia). reflexivity.
Qed.

(** ** Sizes *)
Lemma payload32_bound L T t : 1 <= L < T -> 0 <= sel_payload32 L T (text_bits t).
Proof. intros HL. rewrite payload_O132 by auto. pose proof (nbk_pos L t ltac:(lia)). pose proof (O132_bound L T t (nbk L t) HL ltac:(lia)). lia. Qed.
Lemma payload32_0 L T t : 1 <= L < T -> K t = 0 -> sel_payload32 L T (text_bits t) = 0.
Proof. intros HL EK. rewrite payload_O132, nbk_0 by lia. reflexivity. Qed.
Lemma size_form32 n p : 0 <= n < 2 ^ 32 - 32 -> 0 <= p < 2 ^ 32 - 128 -> 0 < n ->
  sel_size32 {| sb_selects := []; sb_selects_len := n; sb_bits := []; sb_bits_len := p; sb_text_len := 0 |} = 28 + 4 * (n + 32) + (if p =? 0 then 0 else p + 128).
Proof.
  intros Hn Hp N0. unfold sel_size32. cbn [sb_selects_len sb_bits_len]. replace (n >? 0) with true by lia. rewrite (wrap_small 32 (n + 32)) by lia.
  replace (p >? 0) with (negb (p =? 0)) by lia. rewrite (wrap_small 32 (p + 128)) by lia. destruct (p =? 0); cbn [negb]; rewrite wrap_small by lia; lia.
Qed.

Lemma std_sizes32 L T m t r : 1 <= L -> T < 2 ^ 32 -> arguments_ok32 false L T = true -> addresses_ok m -> text_ok t -> zlen t < 2 ^ 29 -> groups L (text_bits t) < 2 ^ 31 - 17 -> build_sel32 L T m t = Ok r ->
  sel_text_size32 r = zlen t /\ sel_size32 r = 164 + 8 * groups L (text_bits t) + (if sel_payload32 L T (text_bits t) =? 0 then 0 else sel_payload32 L T (text_bits t) + 128).
Proof.
  intros HL0 HT AR A H Hl HG E. apply args_std32 in AR. assert (HL : 1 <= L < T) by lia. rewrite groups_nbk in *.
  pose proof (nbk_pos L t ltac:(lia)) as N0. pose proof (payload32_bound L T t HL) as PB. pose proof (zlen_nonneg t).
  assert (PS : sel_payload32 L T (text_bits t) < 2 ^ 32 - 128).
  { pose proof (K_bound t). destruct (Z.eq_dec (K t) 0) as [E0|E0]; [rewrite payload32_0 by auto; lia|].
    pose proof (build_sel32_ok L T m t HL HT A H Hl HG ltac:(lia)) as B. rewrite builds32_spec in B by lia. unfold payload_too_large32 in B.
    destruct (2 ^ 32 <=? sel_payload32 L T (text_bits t) + 128) eqn:EP; [cbn [negb andb] in B; congruence|lia]. }
  destruct A as (A1 & A2 & A3 & A4). pose proof (slack32_ok _ A2) as SL. unfold build_sel32 in E. rewrite number_of_ones32_ok in E by auto. rewrite selects_len32_nbk in E by lia.
  destruct (first_pass32_ok L T t (fresh_aligned32 (m_junk_r m) (m_addr_r m) (2 * nbk L t + 2)) HL HT H Hl) as (arr & F & _); [rewrite zlen_ints32 by (auto; lia); lia|].
  rewrite F in E. cbn [bind] in E. match type of E with bind ?x _ = _ => destruct x as [[a b]| |] end; cbn [bind] in E; try discriminate.
  rewrite <- payload_O132 in E by auto. rewrite wrap_small in E by lia. remember (2 * nbk L t + 2) as len eqn:EL. remember (sel_payload32 L T (text_bits t)) as bl eqn:EB. injection E as <-.
  unfold sel_text_size32. cbn [sb_text_len]. split; [apply wrap_small; lia|]. transitivity (28 + 4 * (len + 32) + (if bl =? 0 then 0 else bl + 128)); [|lia].
  apply (size_form32 len bl); lia.
Qed.
Lemma bch_sizes32 L T m t r : 1 <= L -> arguments_ok32 true L T = true -> addresses_ok m -> text_ok t -> zlen t < 2 ^ 29 -> groups L (text_bits t) < 2 ^ 31 - 17 -> build_sel_bch32 L T m t = Ok r ->
  sel_text_size32 r = zlen t /\ sel_size32 r = 156 + 100 * (groups L (text_bits t) / 16 + 1) + (if sel_payload32 L T (text_bits t) =? 0 then 0 else sel_payload32 L T (text_bits t) + 128).
Proof.
  intros HL0 AR A H Hl HG E. destruct (args_bounds32 L T HL0 AR) as (B1 & B2 & B3). assert (HL : 1 <= L < T) by lia. rewrite groups_nbk in *.
  pose proof (nbk_pos L t ltac:(lia)) as N0. pose proof (payload32_bound L T t HL) as PB. pose proof (zlen_nonneg t).
  assert (PS : sel_payload32 L T (text_bits t) < 2 ^ 32 - 128).
  { pose proof (K_bound t). destruct (Z.eq_dec (K t) 0) as [E0|E0]; [rewrite payload32_0 by auto; lia|].
    pose proof (build_sel_bch32_ok L T m t HL ltac:(lia) A H Hl HG ltac:(lia)) as B. rewrite builds32_spec in B by lia. unfold payload_too_large32 in B.
    destruct (2 ^ 32 <=? sel_payload32 L T (text_bits t) + 128) eqn:EP; [cbn [negb andb] in B; congruence|lia]. }
  destruct A as (A1 & A2 & A3 & A4). pose proof (slack32_ok _ A2) as SL. unfold build_sel_bch32 in E. rewrite number_of_ones32_ok in E by auto. rewrite selects_len32_nbk in E by lia. rewrite sel_temp_len32_ok in E by lia.
  destruct (first_pass32_ok L T t (fresh32 (m_junk_t m) (32 * (nbk L t / 16 + 1))) HL ltac:(lia) H Hl) as (arr & F & _); [rewrite zlen_fresh32 by lia; lia|].
  rewrite F in E. cbn [bind] in E. match type of E with bind ?x _ = _ => destruct x as [a| |] end; cbn [bind] in E; try discriminate.
  match type of E with bind ?x _ = _ => destruct x as [[b c]| |] end; cbn [bind] in E; try discriminate.
  match type of E with bind ?x _ = _ => destruct x as [d| |] end; cbn [bind] in E; try discriminate.
  rewrite <- payload_O132 in E by auto. replace (32 * (nbk L t / 16 + 1) / 2 / 16 * 25) with (25 * (nbk L t / 16 + 1)) in E by lia.
  rewrite (wrap_small 32 (25 * (nbk L t / 16 + 1))) in E by lia. rewrite wrap_small in E by lia. remember (25 * (nbk L t / 16 + 1)) as len eqn:EL. remember (sel_payload32 L T (text_bits t)) as bl eqn:EB. injection E as <-.
  unfold sel_text_size32. cbn [sb_text_len]. split; [apply wrap_small; lia|]. transitivity (28 + 4 * (len + 32) + (if bl =? 0 then 0 else bl + 128)); [|lia].
  apply (size_form32 len bl); lia.
Qed.

(** ** Right answers *)
Lemma std_right32 L T m t : 1 <= L -> T <= 2 ^ 32 - 64 -> arguments_ok32 false L T = true -> addresses_ok m -> text_ok t -> zlen t < 2 ^ 29 -> 1 <= count_true (text_bits t) ->
  groups L (text_bits t) < 2 ^ 31 - 17 -> payload_too_large32 L T (text_bits t) = false -> overflows32 L T (room_of (m_addr_b m)) (text_bits t) = false -> misread L (text_bits t) = false ->
  exists r, build_sel32 L T m t = Ok r /\ forall k, 1 <= k <= count_true (text_bits t) -> exists p, select_std32 L T r k = Ok p /\ is_select (text_bits t) (k - 1) p.
Proof.
  intros HL HT AR A H Hl HK HG HP HO HM. destruct (std_select32 L T m t HL HT AR A H Hl HK HG HP HO) as (r & E & _ & S). exists r. split; [exact E|]. intros k Hk.
  exists (nth_one (text_bits t) k). rewrite (S k Hk), answer_right by auto. split; [reflexivity|]. apply nth_one_is_select. exact Hk.
Qed.
Lemma bch_right32 L T m t : 1 <= L -> arguments_ok32 true L T = true -> addresses_ok m -> text_ok t -> zlen t < 2 ^ 29 -> 1 <= count_true (text_bits t) ->
  groups L (text_bits t) < 2 ^ 31 - 17 -> payload_too_large32 L T (text_bits t) = false -> overflows32 L T (room_of (m_addr_b m)) (text_bits t) = false -> misread L (text_bits t) = false ->
  exists r, build_sel_bch32 L T m t = Ok r /\ forall k, 1 <= k <= count_true (text_bits t) -> exists p, select_bch32 L T r k = Ok p /\ is_select (text_bits t) (k - 1) p.
Proof.
  intros HL AR A H Hl HK HG HP HO HM. destruct (bch_select32 L T m t HL AR A H Hl HK HG HP HO) as (r & E & _ & S). exists r. split; [exact E|]. intros k Hk.
  exists (nth_one (text_bits t) k). rewrite (S k Hk), answer_right by auto. split; [reflexivity|]. apply nth_one_is_select. exact Hk.
Qed.

(** ** Witnesses *)
Lemma bad_answer32 : exists m t r, addresses_ok m /\ text_ok t /\ build_sel32 128 4096 m t = Ok r /\ select_std32 128 4096 r 1 = Ok 0 /\ bit (text_bits t) 0 = false /\
  is_select (text_bits t) 0 127.
Proof.
  set (t := repeat 0 15 ++ [1]). set (m := mem_of 0 0). assert (A : addresses_ok m) by (apply mem_of_ok; [lia|reflexivity]).
  assert (H : text_ok t) by (repeat constructor; lia).
  destruct (std_select32 128 4096 m t ltac:(lia) ltac:(lia) eq_refl A H ltac:(reflexivity) ltac:(vm_compute; discriminate) ltac:(reflexivity) ltac:(reflexivity) ltac:(reflexivity)) as (r & E & _ & S).
  exists m, t, r. split; [exact A|]. split; [exact H|]. split; [exact E|]. split; [rewrite S by (vm_compute; split; discriminate); vm_compute; reflexivity|]. split; [reflexivity|].
  pose proof (nth_one_is_select t 1 ltac:(vm_compute; split; discriminate)) as I. replace (nth_one (text_bits t) 1) with 127 in I by (vm_compute; reflexivity). exact I.
Qed.

Lemma bad_build32 : exists m t, addresses_ok m /\ text_ok t /\ count_true (text_bits t) = 6 /\ build_sel32 12 20 m t = Ub UB_bounds /\ build_sel_bch32 12 20 m t = Ub UB_bounds.
Proof.
  exists (mem_of 3 16), [248; 0; 8]. split; [apply mem_of_ok; [lia|reflexivity]|]. split; [repeat constructor; lia|]. split; [reflexivity|]. split; vm_compute; reflexivity.
Qed.
Lemma bad_zero32 : exists m t, addresses_ok m /\ text_ok t /\ build_sel32 128 4096 m t = Ub UB_bounds /\ build_sel_bch32 128 4096 m t = Ub UB_bounds.
Proof.
  exists (mem_of 0 16), (repeat 0 20). split; [apply mem_of_ok; [lia|reflexivity]|]. split; [apply zeros_ok|]. split; vm_compute; reflexivity.
Qed.

(** Ones at 0, 3, 4, 7, 8, 11, ...: with groups of two ones and threshold 3 each group needs
    four bytes. *)
Lemma nines_tb t q : (forall k, 0 <= k < zlen t -> zn 0 t k = 153) -> 0 <= q < 8 * zlen t -> tb t q = if (q mod 4 =? 0) || (q mod 4 =? 3) then 1 else 0.
Proof.
  intros H Hq. unfold tb. rewrite H by lia. assert (C : q mod 8 = 0 \/ q mod 8 = 1 \/ q mod 8 = 2 \/ q mod 8 = 3 \/ q mod 8 = 4 \/ q mod 8 = 5 \/ q mod 8 = 6 \/ q mod 8 = 7) by lia.
  destruct C as [C|[C|[C|[C|[C|[C|[C|C]]]]]]]; rewrite C; destruct ((q mod 4 =? 0) || (q mod 4 =? 3)) eqn:E; try reflexivity; exfalso; lia.
Qed.
Lemma nines_ts t i : (forall k, 0 <= k < zlen t -> zn 0 t k = 153) -> 0 <= i <= 2 * zlen t -> ts t 0 (4 * i) = 2 * i.
Proof.
  intros H Hi. assert (G : forall n, Z.of_nat n <= 2 * zlen t -> ts t 0 (4 * Z.of_nat n) = 2 * Z.of_nat n); [|rewrite <- (Z2Nat.id i) by lia; apply G; lia].
  clear i Hi. intros n Hi. induction n as [|n IH]; [apply ts_empty|].
  replace (4 * Z.of_nat (S n)) with (4 * Z.of_nat n + 1 + 1 + 1 + 1) by lia. rewrite !ts_succ by lia. rewrite IH by lia. rewrite !nines_tb by (auto; lia).
  replace ((4 * Z.of_nat n) mod 4) with 0 by lia. replace ((4 * Z.of_nat n + 1) mod 4) with 1 by lia. replace ((4 * Z.of_nat n + 1 + 1) mod 4) with 2 by lia. replace ((4 * Z.of_nat n + 1 + 1 + 1) mod 4) with 3 by lia.
  cbn [Z.eqb Pos.eqb orb]. lia.
Qed.
Lemma nines_payload t : (forall k, 0 <= k < zlen t -> zn 0 t k = 153) -> groups 2 (text_bits t) = 2 * zlen t /\ sel_payload32 2 3 (text_bits t) = 8 * zlen t.
Proof.
  intros H. pose proof (zlen_nonneg t) as Z0. assert (HK : K t = 4 * zlen t) by (unfold K; replace (8 * zlen t) with (4 * (2 * zlen t)) by lia; rewrite nines_ts by (auto; lia); lia).
  assert (HN : nbk 2 t = 2 * zlen t) by (unfold nbk; rewrite HK; lia). rewrite groups_nbk. split; [exact HN|]. rewrite payload_O132 by lia. rewrite HN. unfold O132.
  assert (HS : forall c, 0 <= c <= 2 * zlen t -> SS 2 t c = 4 * c).
  { intros c Hc. destruct (Z.eq_dec c 0) as [->|C]; [reflexivity|]. rewrite SS_pos by lia. rewrite <- (P_uniq t (Z.min (c * 2) (K t)) (4 * c - 1)); try lia.
    - rewrite nines_tb by (auto; lia). replace ((4 * c - 1) mod 4 =? 3) with true by lia. rewrite orb_true_r. reflexivity.
    - pose proof (nines_ts t c H ltac:(lia)) as E. replace (4 * c) with (4 * c - 1 + 1) in E by lia. rewrite ts_succ in E by lia. rewrite nines_tb in E by (auto; lia).
      replace ((4 * c - 1) mod 4 =? 3) with true in E by lia. rewrite orb_true_r in E. lia. }
  transitivity (sumf (fun _ => 4) 0 (2 * zlen t)).
  - apply sumf_ext. intros c Hc. unfold w132, DD, fullb. rewrite !HS by lia. rewrite HK. replace ((c + 1) * 2 <=? 4 * zlen t) with true by lia. replace (4 * (c + 1) - 4 * c >? 3) with true by lia. reflexivity.
  - replace (8 * zlen t) with (4 * (2 * zlen t)) by lia. assert (G : forall n, 0 <= n -> sumf (fun _ => 4) 0 n = 4 * n).
    { intros n Hn. replace n with (Z.of_nat (Z.to_nat n)) by lia. induction (Z.to_nat n) as [|k IH]; [reflexivity|]. replace (Z.of_nat (S k)) with (Z.of_nat k + 1) by lia. rewrite sumf_succ by lia. rewrite IH. lia. }
    apply G. lia.
Qed.
Lemma nines_ok t : (forall k, 0 <= k < zlen t -> zn 0 t k = 153) -> text_ok t.
Proof.
  intros H. apply Forall_forall. intros x Hx. apply (In_nth _ _ 0) in Hx. destruct Hx as (n & Hn & <-). specialize (H (Z.of_nat n) ltac:(unfold zlen; lia)). unfold zn in H. rewrite Nat2Z.id in H. lia.
Qed.
Lemma bad_payload32 : exists m t, addresses_ok m /\ text_ok t /\ zlen t = 2 ^ 29 - 1 /\ payload_too_large32 2 3 (text_bits t) = true /\
  build_sel32 2 3 m t = Ub UB_bounds /\ build_sel_bch32 2 3 m t = Ub UB_bounds.
Proof.
  assert (G : exists t, zlen t = 2 ^ 29 - 1 /\ forall k, 0 <= k < zlen t -> zn 0 t k = 153).
  { exists (repeat 153 (Z.to_nat (2 ^ 29 - 1))). assert (E : zlen (repeat 153 (Z.to_nat (2 ^ 29 - 1))) = 2 ^ 29 - 1) by (unfold zlen; rewrite repeat_length; lia).
    split; [exact E|]. intros k Hk. rewrite E in Hk. unfold zn. apply (repeat_spec (Z.to_nat (2 ^ 29 - 1)) 153). apply nth_In. rewrite repeat_length. lia. }
  destruct G as (t & Hl & H). pose proof (nines_ok t H) as HT. destruct (nines_payload t H) as [HG HP].
  assert (A : addresses_ok (mem_of 0 0)) by (apply mem_of_ok; [lia|reflexivity]).
  assert (P32 : payload_too_large32 2 3 (text_bits t) = true) by (unfold payload_too_large32; lia).
  assert (HK : 1 <= count_true (text_bits t)).
  { rewrite <- K_ones. unfold K. replace (8 * zlen t) with (4 * (2 * zlen t)) by lia. rewrite nines_ts by (auto; lia). lia. }
  exists (mem_of 0 0), t. split; [exact A|]. split; [exact HT|]. split; [exact Hl|]. split; [exact P32|].
  split; [apply std_overflow32|apply bch_overflow32]; auto; try lia; reflexivity.
Qed.
