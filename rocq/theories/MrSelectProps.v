(** SelectBasic64: the statements of Properties15. *)
From Coq Require Import ZifyBool.
From Verif Require Import Base BaseFacts Mem MemFacts Words WordFacts BlockFacts NodeFacts Trees TreeBuild Spec BitmapFacts ProgramFacts KernelFacts SpecPoppy PoppyFacts PoppyFacts2 SpecText MrRank MrRankFacts MrRankFacts2 MrRankFacts3 MrRankProps MrSelect MrSelectFacts MrSelectFacts2 MrSelectFacts3 MrSelectFacts4 MrSelectFacts5 MrSelectFacts6.
Ltac Zify.zify_post_hook ::= Z.div_mod_to_equations.

(** ** Plain headers *)
Lemma args_std L T : arguments_ok false L T = true -> L < T.
Proof. unfold arguments_ok. cbn [andb negb]. lia. Qed.

Lemma arguments_iff bch L T : arguments_ok bch L T = true <-> L < T /\ (bch = true -> 8 * (L - 1) <= 4369 /\ T <= 8 * 4369 + 1).
Proof. unfold arguments_ok. change (65535 / 15) with 4369. destruct bch; cbn [andb negb]; split; [| | |]; intros; lia. Qed.

Lemma std_select L T m t : 1 <= L -> T < 2 ^ 32 -> arguments_ok false L T = true -> addresses_ok m -> text_ok t -> zlen t < 2 ^ 58 -> 1 <= count_true (text_bits t) ->
  overflows L T (room_of (m_addr_b m)) (text_bits t) = false ->
  exists r, build_sel L T m t = Ok r /\ select_std L T r 0 = Ok (2 ^ 64 - 1) /\
    forall k, 1 <= k <= count_true (text_bits t) -> select_std L T r k = Ok (sel_answer L (text_bits t) k).
Proof.
  intros HL HT AR A H Hl HK HO. apply args_std in AR. rewrite <- K_ones in *. pose proof (build_sel_ok L T m t ltac:(lia) HT A H Hl HK) as B. rewrite HO in B.
  destruct B as (r & E & R). exists r. split; [exact E|]. split; [eapply select_std_0; eauto; lia|]. intros k Hk. rewrite <- answer_spec with (T := T) by lia.
  eapply select_std_ok; eauto.
Qed.
Lemma std_overflow L T m t : 1 <= L -> T < 2 ^ 32 -> arguments_ok false L T = true -> addresses_ok m -> text_ok t -> zlen t < 2 ^ 58 -> 1 <= count_true (text_bits t) ->
  overflows L T (room_of (m_addr_b m)) (text_bits t) = true -> build_sel L T m t = Ub UB_bounds.
Proof.
  intros HL HT AR A H Hl HK HO. apply args_std in AR. rewrite <- K_ones in *. pose proof (build_sel_ok L T m t ltac:(lia) HT A H Hl HK) as B. rewrite HO in B. exact B.
Qed.

(** ** Compressed headers *)
Lemma select_bch_0 L T m t r : 1 <= L < T -> addresses_ok m -> selbP L T m t r -> select_bch L T r 0 = Ok (2 ^ 64 - 1).
Proof.
  intros HL (A1 & A2 & A3 & A4) (temp & B2 & B3 & B4 & B5 & SA & Z1 & _). unfold select_bch. pose proof (slack_ok _ A2) as SL. pose proof (nbk_pos L t ltac:(lia)).
  rewrite !Z.div_0_l, !Z.mod_0_l by lia. change (21 * 0 + 0) with 0. rewrite geti_ok by lia. cbn [bind]. rewrite Z.eqb_refl.
  destruct (SA 0 ltac:(lia)) as (v & (_ & V1 & _) & W). specialize (W 0 ltac:(lia)). change (21 * 0 + 0) with 0 in W. rewrite W, V1 by lia. replace (2 * (16 * 0 + 0)) with (2 * 0) by lia. rewrite B2 by lia. reflexivity.
Qed.

Lemma groups_nbk L t : groups L (text_bits t) = nbk L t.
Proof. unfold groups, nbk. rewrite <- K_ones. reflexivity. Qed.

Lemma bch_select L T m t : 1 <= L -> arguments_ok true L T = true -> addresses_ok m -> text_ok t -> zlen t < 2 ^ 58 -> 1 <= count_true (text_bits t) ->
  groups L (text_bits t) < 2 ^ 31 - 1 -> overflows L T (room_of (m_addr_b m)) (text_bits t) = false ->
  exists r, build_sel_bch L T m t = Ok r /\ select_bch L T r 0 = Ok (2 ^ 64 - 1) /\
    forall k, 1 <= k <= count_true (text_bits t) -> select_bch L T r k = Ok (sel_answer L (text_bits t) k).
Proof.
  intros HL AR A H Hl HK HG HO. destruct (args_bounds L T HL AR) as (A1 & A2 & A3). rewrite <- K_ones in *. rewrite groups_nbk in HG.
  pose proof (build_sel_bch_ok L T m t ltac:(lia) ltac:(lia) A H Hl HK ltac:(lia)) as B. rewrite HO in B.
  destruct B as (r & E & R). exists r. split; [exact E|]. split; [eapply select_bch_0; eauto; lia|]. intros k Hk. rewrite <- answer_spec with (T := T) by lia.
  eapply select_bch_ok; eauto.
Qed.
Lemma bch_overflow L T m t : 1 <= L -> arguments_ok true L T = true -> addresses_ok m -> text_ok t -> zlen t < 2 ^ 58 -> 1 <= count_true (text_bits t) ->
  groups L (text_bits t) < 2 ^ 31 - 1 -> overflows L T (room_of (m_addr_b m)) (text_bits t) = true -> build_sel_bch L T m t = Ub UB_bounds.
Proof.
  intros HL AR A H Hl HK HG HO. destruct (args_bounds L T HL AR) as (A1 & A2 & A3). rewrite <- K_ones in *. rewrite groups_nbk in HG.
  pose proof (build_sel_bch_ok L T m t ltac:(lia) ltac:(lia) A H Hl HK ltac:(lia)) as B. rewrite HO in B. exact B.
Qed.

(** ** The answer *)
Lemma answer_right L t k : 1 <= L -> misread L (text_bits t) = false -> sel_answer L (text_bits t) k = nth_one (text_bits t) k.
Proof. intros HL M. unfold sel_answer. rewrite M. reflexivity. Qed.
Lemma answer_wrong L t : 1 <= L -> misread L (text_bits t) = true ->
  sel_answer L (text_bits t) (count_true (text_bits t)) < nth_one (text_bits t) (count_true (text_bits t)).
Proof.
  intros HL M. unfold sel_answer. rewrite M. cbn [andb]. unfold misread in M. rewrite <- K_ones in *.
  pose proof (Z.div_mod (K t) L ltac:(lia)) as E. pose proof (Z.mod_pos_bound (K t) L ltac:(lia)).
  set (g := K t / L) in *. set (f := K t mod L) in *. clearbody g f. replace (g * L <? K t) with true by nia. nia.
Qed.

(** ** No ones *)
Lemma no_ones t q : K t = 0 -> 0 <= q < 8 * zlen t -> tb t q = 0.
Proof. intros E Hq. apply (ts_zero t 0 (8 * zlen t)); [pose proof (zlen_nonneg t); lia|exact E|lia]. Qed.
Lemma nbk_0 L t : 1 <= L -> K t = 0 -> nbk L t = 0.
Proof. intros HL E. unfold nbk. rewrite E. apply Z.div_small. lia. Qed.

Definition idle (A : list Z) (cap q : Z) (st : scan2) : Prop :=
  s_upto st = 0 /\ s_done st = false /\ s_byte st = 0 /\ zlen (s_arr st) = zlen A /\ zn 0 (s_arr st) 0 = 0 /\ zlen (s_bits st) = cap /\
  if q =? 0 then s_arr st = A /\ s_sc st = 0 /\ s_bc st = 0 /\ s_pos st = 7
  else (q - 1) / 8 <= cap /\ s_sc st = 2 /\ s_bc st = (q - 1) / 8 /\ s_pos st = 7 - (q - 1) mod 8 /\ s_sparse st = false /\ s_mono st = false.

Lemma idle_step L T t A cap q st : 1 <= L < T -> K t = 0 -> 0 <= q < 8 * zlen t -> zlen A = 32 -> (forall k, 0 <= k < 32 -> zn 0 A k = 0) -> 0 <= cap ->
  idle A cap q st -> (exists st', second_step L T t 0 0 st q = Ok st' /\ idle A cap (q + 1) st') \/ (second_step L T t 0 0 st q = Ub UB_bounds /\ cap < zlen t - 1).
Proof.
  intros HL EK Hq ZA AZ HC (I1 & I2 & I3 & I4 & I5 & I6 & I). unfold second_step. rewrite I1, I2. destruct (q =? 0) eqn:E0.
  - destruct I as (J1 & J2 & J3 & J4). left. rewrite J2. change (0 + 2 =? 0) with false. cbv iota. unfold next_block, flush.
    rewrite J1, J2, J3, J4. rewrite Z.eqb_refl. cbn [negb]. rewrite andb_false_r. cbn [bind]. change (0 + 2) with 2.
    rewrite seti_ok by lia. cbn [bind]. rewrite !geti_ok by (rewrite zlen_upd; lia). cbn [bind]. rewrite !zn_upd by lia. change (2 + 2 =? 2 + 1) with false. change (2 =? 2 + 1) with false. cbv iota.
    rewrite !AZ by lia. eexists. split; [reflexivity|]. unfold idle. replace (q + 1 =? 0) with false by lia. unfold enter. cbn [s_arr s_bits s_sc s_bc s_byte s_pos s_upto s_sparse s_mono s_done].
    rewrite zlen_upd, zn_upd by lia. replace q with 0 by lia. change (u64 (0 - 0)) with 0. replace (0 >? T) with false by lia. replace (0 =? L) with false by lia.
    repeat split; auto; try lia. cbn [Z.eqb]. apply AZ. lia.
  - destruct I as (J1 & J2 & J3 & J4 & J5 & J6). unfold inner_bit. rewrite J6, J5. rewrite text_bit_ok by lia. cbn [bind].
    rewrite no_ones by (auto; lia). change (0 =? 1) with false. cbv iota. rewrite I3, J3, J4. destruct (7 - (q - 1) mod 8 =? 0) eqn:EP.
    + destruct (seti_or (s_bits st) ((q - 1) / 8) 0 ltac:(lia)) as [[B ->]|[B ->]]; cbn [bind].
      * left. eexists. split; [reflexivity|]. unfold idle. replace (q + 1 =? 0) with false by lia. cbn [s_arr s_bits s_sc s_bc s_byte s_pos s_upto s_sparse s_mono s_done]. rewrite zlen_upd.
        repeat split; auto; lia.
      * right. split; [reflexivity|]. lia.
    + left. eexists. split; [reflexivity|]. unfold idle. replace (q + 1 =? 0) with false by lia. cbn [s_arr s_bits s_sc s_bc s_byte s_pos s_upto s_sparse s_mono s_done].
      repeat split; auto; lia.
Qed.

Lemma build_bch_zero L T m t : 1 <= L < T -> T < 2 ^ 32 -> addresses_ok m -> text_ok t -> zlen t < 2 ^ 58 -> K t = 0 ->
  if zlen t - 1 <=? room_of (m_addr_b m) then exists r, build_sel_bch L T m t = Ok r /\ selbP L T m t r else build_sel_bch L T m t = Ub UB_bounds.
Proof.
  intros HL HT (A1 & A2 & A3 & A4) H Hl EK. unfold build_sel_bch. rewrite number_of_ones_ok by auto. rewrite selects_len_nbk by lia. pose proof (slack_ok _ A2) as SL.
  pose proof (nbk_0 L t ltac:(lia) EK) as N0. rewrite N0. change (2 * 0 + 2) with 2. change (sel_temp_len 2) with 32.
  assert (ZA : zlen (fresh (m_junk_t m) 32) = 32) by (apply zlen_fresh; lia). set (arr0 := fresh (m_junk_t m) _) in *. clearbody arr0.
  destruct (first_pass_ok L T t arr0 HL HT H Hl ltac:(lia)) as (arr & -> & FD). cbn [bind]. rewrite N0. change (2 * 0 + 2) with 2. pose proof FD as [ZF FE]. rewrite N0 in FE.
  destruct (FE 0 ltac:(lia)) as [F0 F1]. change (2 * 0) with 0 in F0, F1. change (0 + 1) with 1 in F1. rewrite raw_0 in F0.
  destruct (zero_rest arr 2 (Z.to_nat (32 - 2)) ltac:(lia) ltac:(lia)) as (arr2 & -> & ZF2 & FE2). cbn [bind].
  assert (AZ : forall k, 0 <= k < 32 -> zn 0 arr2 k = 0).
  { intros k Hk. rewrite FE2 by lia. destruct ((2 <=? k) && (k <? 2 + Z.of_nat (Z.to_nat (32 - 2)))) eqn:E; [reflexivity|]. assert (C : k = 0 \/ k = 1) by lia. destruct C; subst k; auto. }
  change (u32 2) with 2. change (u32 (2 - 2)) with 0. change (O1 L T t 0) with 0. unfold second_pass. rewrite !geti_ok by lia. cbn [bind]. rewrite !AZ by lia.
  set (bits := fresh_bytes _ _ 0). assert (ZB : zlen bits = room_of (m_addr_b m)) by (unfold bits; rewrite zlen_fresh_bytes by lia; lia). clearbody bits. pose proof (room_bound (m_addr_b m)) as RB.
  rewrite EK. destruct (foldM_inv_or (second_step L T t 0 0) (idle arr2 (zlen bits)) UB_bounds (zlen bits < zlen t - 1) (Z.to_nat (8 * zlen t)) 0 (enter L T arr2 bits 0 0 0 (u64 (u64 (0 - 0) + 1)))) as [(st & E & I)|[E B]].
  - unfold idle. cbn [Z.eqb]. unfold enter. cbn [s_arr s_bits s_sc s_bc s_byte s_pos s_upto s_sparse s_mono s_done]. rewrite AZ by lia. repeat split; auto.
  - intros q st Hq I. pose proof (zlen_nonneg t). apply idle_step with (A := arr2); auto; lia.
  - rewrite E. cbn [bind]. pose proof (zlen_nonneg t) as ZN.
    assert (IP : zlen (s_arr st) = 32 /\ zn 0 (s_arr st) 0 = 0 /\ zlen (s_bits st) = zlen bits /\ zlen t - 1 <= zlen bits).
    { destruct I as (I1 & I2 & I3 & I4 & I5 & I6 & I). destruct (0 + Z.of_nat (Z.to_nat (8 * zlen t)) =? 0) eqn:E0; [lia|]. destruct I as (J1 & _). lia. }
    destruct IP as (IP1 & IP2 & IP3 & IP4). replace (zlen t - 1 <=? room_of (m_addr_b m)) with true by lia.
    change (Z.to_nat ((2 + 1) / 2 - 1)) with 0%nat. cbn [zrange foldM bind]. change (32 / 2 / 16) with 1. change (1 * 21) with 21.
    destruct (supers_ok (s_arr st) (fresh_aligned (m_junk_r m) (m_addr_r m) 21) 1 ltac:(lia) ltac:(lia)) as (sa & -> & ZS & QS).
    { rewrite zlen_aligned by (auto; lia). lia. }
    rewrite zlen_aligned in ZS by (auto; lia). cbn [bind]. eexists. split; [reflexivity|]. exists (s_arr st). cbn [sb_selects sb_selects_len sb_bits sb_bits_len sb_text_len].
    rewrite N0. change (0 / 16 + 1) with 1. change (21 * 1) with 21. change (OO L T t 0) with 0. change (O1 L T t 0) with 0.
    split; [intros c Hc; replace c with 0 by lia; exact IP2|]. split; [intros; lia|]. split; [intros; lia|]. split; [apply zlen_nonneg|]. split; [exact QS|]. split; [exact ZS|]. auto.
  - rewrite E. cbn [bind]. replace (zlen t - 1 <=? room_of (m_addr_b m)) with false by lia. reflexivity.
Qed.

Lemma bch_zero L T m t : 1 <= L -> arguments_ok true L T = true -> addresses_ok m -> text_ok t -> zlen t < 2 ^ 58 -> count_true (text_bits t) = 0 ->
  if zlen t - 1 <=? room_of (m_addr_b m) then exists r, build_sel_bch L T m t = Ok r /\ select_bch L T r 0 = Ok (2 ^ 64 - 1) else build_sel_bch L T m t = Ub UB_bounds.
Proof.
  intros HL AR A H Hl HK. destruct (args_bounds L T HL AR) as (A1 & A2 & A3). rewrite <- K_ones in *.
  pose proof (build_bch_zero L T m t ltac:(lia) ltac:(lia) A H Hl HK) as B. destruct (zlen t - 1 <=? room_of (m_addr_b m)); [|exact B].
  destruct B as (r & E & R). exists r. split; [exact E|]. eapply select_bch_0; eauto.
Qed.

(** Plain headers: fine if the word after the two that were written happens to be large. *)
Lemma foldM_const {S} (f : S -> Z -> res S) s n : forall lo, (forall k, lo <= k < lo + Z.of_nat n -> f s k = Ok s) -> foldM f (zrange lo n) s = Ok s.
Proof. induction n; intros lo Hf; [reflexivity|]. cbn [zrange foldM]. rewrite Hf by lia. cbn [bind]. apply IHn. intros. apply Hf. lia. Qed.

Lemma first_pass_zero L T t arr0 : 1 <= L < T -> text_ok t -> zlen t < 2 ^ 58 -> K t = 0 -> 3 <= zlen arr0 ->
  exists arr, first_pass L T t (K t) arr0 = Ok (arr, 2, 0) /\ zlen arr = zlen arr0 /\ zn 0 arr 0 = 0 /\ zn 0 arr 2 = zn 0 arr0 2.
Proof.
  intros HL H Hl EK Ha. unfold first_pass. rewrite seti_ok by lia. cbn [bind]. rewrite seti_ok by (rewrite zlen_upd; lia). cbn [bind].
  rewrite foldM_const.
  - cbn [bind]. rewrite EK. rewrite Z.mod_0_l by lia. change (0 >? 0) with false. cbv iota. eexists. split; [reflexivity|].
    rewrite !zlen_upd. split; [reflexivity|]. rewrite !zn_upd by (rewrite ?zlen_upd; lia). auto.
  - intros q Hq. unfold first_step. pose proof (zlen_nonneg t). rewrite text_bit_ok by lia. cbn [bind]. rewrite no_ones by (auto; lia). reflexivity.
Qed.

Lemma std_zero L T m t : 1 <= L -> T < 2 ^ 32 -> arguments_ok false L T = true -> addresses_ok m -> text_ok t -> zlen t < 2 ^ 58 -> count_true (text_bits t) = 0 ->
  T <= m_junk_r m 2 < 2 ^ 64 - 1 -> 8 * zlen t <= m_junk_r m 2 -> exists r, build_sel L T m t = Ok r /\ select_std L T r 0 = Ok (2 ^ 64 - 1).
Proof.
  intros HL0 HT AR (A1 & A2 & A3 & A4) H Hl HK J1 J2. apply args_std in AR. assert (HL : 1 <= L < T) by lia. rewrite <- K_ones in *. unfold build_sel. rewrite number_of_ones_ok by auto. rewrite selects_len_nbk by lia. pose proof (slack_ok _ A2) as SL.
  pose proof (nbk_0 L t ltac:(lia) HK) as N0. rewrite N0. change (2 * 0 + 2) with 2.
  assert (ZA : zlen (fresh_aligned (m_junk_r m) (m_addr_r m) 2) = 2 + slack (m_addr_r m)) by (apply zlen_aligned; auto; lia).
  assert (J : zn 0 (fresh_aligned (m_junk_r m) (m_addr_r m) 2) 2 = m_junk_r m 2) by (apply zn_aligned; lia).
  set (arr0 := fresh_aligned (m_junk_r m) _ _) in *. clearbody arr0.
  destruct (first_pass_zero L T t arr0) as (arr & -> & ZF & F0 & F2); auto; try lia.
  cbn [bind]. unfold second_pass. rewrite !geti_ok by lia. cbn [bind]. rewrite F0, F2, J. rewrite Z.sub_0_r. rewrite (wrap_small 64 (m_junk_r m 2)) by lia. rewrite wrap_small by lia.
  rewrite foldM_const.
  - cbn [bind]. change (Z.to_nat ((2 + 1) / 2 - 1)) with 0%nat. cbn [zrange foldM bind]. eexists. split; [reflexivity|]. unfold select_std. cbn [sb_selects].
    rewrite Z.div_0_l, Z.mod_0_l by lia. unfold enter. cbn [s_arr]. rewrite geti_ok by lia. cbn [bind]. change (2 * 0) with 0. rewrite F0. reflexivity.
  - intros q Hq. unfold second_step, enter, inner_bit. cbn [s_done s_upto s_mono s_sparse]. replace (q =? m_junk_r m 2) with false by lia.
    replace (m_junk_r m 2 + 1 >? T) with true by lia. cbn [negb andb]. pose proof (zlen_nonneg t). rewrite text_bit_ok by lia. cbn [bind]. rewrite no_ones by (auto; lia). reflexivity.
Qed.

(** ** Sizes *)
Lemma payload_O1 L T t : 1 <= L < T -> sel_payload L T (text_bits t) = O1 L T t (nbk L t).
Proof.
  intros HL. unfold sel_payload, O1. rewrite groups_nbk. apply sumf_ext. intros c Hc. unfold group_bytes, w1, group_span. rewrite <- K_ones.
  pose proof (proj1 (blk_lt L t c ltac:(lia) ltac:(lia)) ltac:(lia)) as CK. rewrite group_SS by lia. fold (P t (Z.min ((c + 1) * L) (K t))). rewrite <- SS_pos by lia. fold (DD L t c).
  fold (fullb L t c). pose proof (DD_pos L t c ltac:(lia) ltac:(lia)). destruct (fullb L t c) eqn:F.
  - pose proof (DD_ge L t c ltac:(lia) ltac:(lia) F). destruct (DD L t c >? T); [reflexivity|]. replace (DD L t c >? L) with (negb (DD L t c =? L)) by lia.
    destruct (DD L t c =? L); [reflexivity|]. cbn [negb]. rewrite !up8_div by lia. destruct (c =? 0); [reflexivity|]. f_equal. lia.
  - cbv zeta. rewrite up8_div by (destruct (c =? 0); lia). reflexivity.
Qed.
Lemma payload_bound L T t : 1 <= L < T -> 0 <= sel_payload L T (text_bits t) <= 64 * zlen t.
Proof.
  intros HL. rewrite payload_O1 by auto. pose proof (nbk_pos L t ltac:(lia)). pose proof (O1_bound L T t (nbk L t) HL ltac:(lia)). pose proof (SS_bound L t (nbk L t) ltac:(lia) ltac:(lia)). lia.
Qed.
Lemma nbk_le L t : 1 <= L -> nbk L t <= K t.
Proof. intros HL. pose proof (K_bound t). destruct (Z.eq_dec (K t) 0) as [E|]; [rewrite (nbk_0 L t HL E); lia|]. unfold nbk. apply Z.div_le_upper_bound; nia. Qed.

Lemma std_sizes L T m t r : 1 <= L -> T < 2 ^ 32 -> arguments_ok false L T = true -> addresses_ok m -> text_ok t -> zlen t < 2 ^ 56 -> build_sel L T m t = Ok r ->
  sel_text_size r = zlen t /\ sel_size r = 184 + 16 * groups L (text_bits t) + (if sel_payload L T (text_bits t) =? 0 then 0 else sel_payload L T (text_bits t) + 128).
Proof.
  intros HL0 HT AR (A1 & A2 & A3 & A4) H Hl E. apply args_std in AR. assert (HL : 1 <= L < T) by lia. unfold build_sel in E. rewrite number_of_ones_ok in E by (auto; lia). rewrite selects_len_nbk in E by lia.
  pose proof (nbk_pos L t ltac:(lia)) as N0. pose proof (nbk_le L t ltac:(lia)). pose proof (K_bound t). pose proof (payload_bound L T t HL) as PB. pose proof (slack_ok _ A2) as SL.
  destruct (first_pass_ok L T t (fresh_aligned (m_junk_r m) (m_addr_r m) (2 * nbk L t + 2)) HL HT H ltac:(lia)) as (arr & F & _); [rewrite zlen_aligned by (auto; lia); lia|].
  rewrite F in E. cbn [bind] in E. match type of E with bind ?x _ = _ => destruct x as [[a b]| |] end; cbn [bind] in E; try discriminate.
  remember (2 * nbk L t + 2) as len eqn:EL. remember (O1 L T t (nbk L t)) as bl eqn:EB. injection E as <-.
  unfold sel_text_size, sel_size. cbn [sb_selects_len sb_bits_len sb_text_len]. split; [reflexivity|]. rewrite groups_nbk. subst len bl. rewrite <- payload_O1 by auto.
  replace (2 * nbk L t + 2 >? 0) with true by lia. replace (sel_payload L T (text_bits t) >? 0) with (negb (sel_payload L T (text_bits t) =? 0)) by lia.
  destruct (sel_payload L T (text_bits t) =? 0); cbn [negb]; cbv iota; rewrite wrap_small; lia.
Qed.
Lemma bch_sel_sizes L T m t r : 1 <= L -> arguments_ok true L T = true -> addresses_ok m -> text_ok t -> zlen t < 2 ^ 56 -> build_sel_bch L T m t = Ok r ->
  sel_text_size r = zlen t /\ sel_size r = 168 + 168 * (groups L (text_bits t) / 16 + 1) + (if sel_payload L T (text_bits t) =? 0 then 0 else sel_payload L T (text_bits t) + 128).
Proof.
  intros HL0 AR (A1 & A2 & A3 & A4) H Hl E. destruct (args_bounds L T HL0 AR) as (B1 & B2 & B3). assert (HL : 1 <= L < T) by lia. unfold build_sel_bch in E. rewrite number_of_ones_ok in E by (auto; lia). rewrite selects_len_nbk in E by lia.
  pose proof (nbk_pos L t ltac:(lia)) as N0. pose proof (nbk_le L t ltac:(lia)). pose proof (K_bound t). pose proof (payload_bound L T t HL) as PB. rewrite sel_temp_len_ok in E by lia.
  destruct (first_pass_ok L T t (fresh (m_junk_t m) (32 * (nbk L t / 16 + 1))) HL ltac:(lia) H ltac:(lia)) as (arr & F & _); [rewrite zlen_fresh by lia; lia|].
  rewrite F in E. cbn [bind] in E. match type of E with bind ?x _ = _ => destruct x as [a| |] end; cbn [bind] in E; try discriminate.
  match type of E with bind ?x _ = _ => destruct x as [[b c]| |] end; cbn [bind] in E; try discriminate.
  match type of E with bind ?x _ = _ => destruct x as [d| |] end; cbn [bind] in E; try discriminate.
  remember (32 * (nbk L t / 16 + 1) / 2 / 16 * 21) as len eqn:EL. remember (O1 L T t (nbk L t)) as bl eqn:EB. injection E as <-.
  unfold sel_text_size, sel_size. cbn [sb_selects_len sb_bits_len sb_text_len]. split; [reflexivity|]. rewrite groups_nbk. subst len bl. rewrite <- payload_O1 by auto.
  replace (32 * (nbk L t / 16 + 1) / 2 / 16 * 21) with (21 * (nbk L t / 16 + 1)) by lia.
  replace (21 * (nbk L t / 16 + 1) >? 0) with true by lia. replace (sel_payload L T (text_bits t) >? 0) with (negb (sel_payload L T (text_bits t) =? 0)) by lia.
  destruct (sel_payload L T (text_bits t) =? 0); cbn [negb]; cbv iota; rewrite wrap_small; lia.
Qed.

(** ** Right answers *)
Lemma nth_one_is_select t k : 1 <= k <= count_true (text_bits t) -> is_select (text_bits t) (k - 1) (nth_one (text_bits t) k).
Proof. intros Hk. apply P_is_select. rewrite K_ones. exact Hk. Qed.

Lemma std_right L T m t : 1 <= L -> T < 2 ^ 32 -> arguments_ok false L T = true -> addresses_ok m -> text_ok t -> zlen t < 2 ^ 58 -> 1 <= count_true (text_bits t) ->
  overflows L T (room_of (m_addr_b m)) (text_bits t) = false -> misread L (text_bits t) = false ->
  exists r, build_sel L T m t = Ok r /\ forall k, 1 <= k <= count_true (text_bits t) -> exists p, select_std L T r k = Ok p /\ is_select (text_bits t) (k - 1) p.
Proof.
  intros HL HT AR A H Hl HK HO HM. destruct (std_select L T m t HL HT AR A H Hl HK HO) as (r & E & _ & S). exists r. split; [exact E|]. intros k Hk.
  exists (nth_one (text_bits t) k). rewrite (S k Hk), answer_right by auto. split; [reflexivity|]. apply nth_one_is_select. exact Hk.
Qed.
Lemma bch_right L T m t : 1 <= L -> arguments_ok true L T = true -> addresses_ok m -> text_ok t -> zlen t < 2 ^ 58 -> 1 <= count_true (text_bits t) ->
  groups L (text_bits t) < 2 ^ 31 - 1 -> overflows L T (room_of (m_addr_b m)) (text_bits t) = false -> misread L (text_bits t) = false ->
  exists r, build_sel_bch L T m t = Ok r /\ forall k, 1 <= k <= count_true (text_bits t) -> exists p, select_bch L T r k = Ok p /\ is_select (text_bits t) (k - 1) p.
Proof.
  intros HL AR A H Hl HK HG HO HM. destruct (bch_select L T m t HL AR A H Hl HK HG HO) as (r & E & _ & S). exists r. split; [exact E|]. intros k Hk.
  exists (nth_one (text_bits t) k). rewrite (S k Hk), answer_right by auto. split; [reflexivity|]. apply nth_one_is_select. exact Hk.
Qed.

(** ** Witnesses *)
Lemma bad_answer : exists m t r, addresses_ok m /\ text_ok t /\ build_sel 128 4096 m t = Ok r /\ select_std 128 4096 r 1 = Ok 0 /\ bit (text_bits t) 0 = false /\
  is_select (text_bits t) 0 127.
Proof.
  set (t := repeat 0 15 ++ [1]). set (m := mem_of 0 0). assert (A : addresses_ok m) by (apply mem_of_ok; [lia|reflexivity]).
  assert (H : text_ok t) by (repeat constructor; lia).
  destruct (std_select 128 4096 m t ltac:(lia) ltac:(lia) eq_refl A H ltac:(cbn; lia) ltac:(vm_compute; discriminate) eq_refl) as (r & E & _ & S).
  exists m, t, r. split; [exact A|]. split; [exact H|]. split; [exact E|]. split; [rewrite S by (vm_compute; split; discriminate); vm_compute; reflexivity|]. split; [reflexivity|].
  pose proof (nth_one_is_select t 1 ltac:(vm_compute; split; discriminate)) as I. replace (nth_one (text_bits t) 1) with 127 in I by (vm_compute; reflexivity). exact I.
Qed.
(** 90 ones, the last at position 4096. *)
Definition crowded : list Z := repeat 255 11 ++ [128] ++ repeat 0 500 ++ [128].
Lemma crowded_facts : exists t, text_ok t /\ zlen t = 513 /\ K t = 90 /\ P t 90 = 4096.
Proof.
  exists crowded.
  assert (H : text_ok crowded).
  { apply Forall_forall. intros x Hx. unfold crowded in Hx. rewrite !in_app_iff in Hx. destruct Hx as [Hx|[Hx|[Hx|Hx]]]; try (apply repeat_spec in Hx; lia); cbn in Hx; lia. }
  assert (L : zlen crowded = 513) by (vm_compute; reflexivity). assert (N : number_of_ones crowded = 90) by (vm_compute; reflexivity).
  assert (B : tb crowded 4096 = 1) by (vm_compute; reflexivity). assert (E2 : ts crowded 4096 4104 = 1) by (vm_compute; reflexivity).
  rewrite number_of_ones_ok in N by (auto; rewrite L; reflexivity). generalize dependent crowded. intros t H L N B E2.
  split; [exact H|]. split; [exact L|]. split; [exact N|]. symmetry. apply P_uniq; [lia|lia|exact B|].
  unfold K in N. rewrite L in N. change (8 * 513) with 4104 in N. rewrite (ts_split t 0 4096 4104) in N by lia. lia.
Qed.
Lemma bad_build : exists m t, addresses_ok m /\ text_ok t /\ count_true (text_bits t) = 90 /\ build_sel 128 4096 m t = Ub UB_bounds /\ build_sel_bch 128 4096 m t = Ub UB_bounds.
Proof.
  destruct crowded_facts as (t & H & L & C & N). set (m := mem_of 0 0). assert (A : addresses_ok m) by (apply mem_of_ok; [lia|reflexivity]).
  rewrite K_ones in C. unfold P in N.
  assert (O : overflows 128 4096 (room_of (m_addr_b m)) (text_bits t) = true) by (unfold overflows; rewrite C, N; vm_compute; reflexivity).
  exists m, t. split; [exact A|]. split; [exact H|]. split; [exact C|]. split.
  - apply std_overflow; auto; try lia; reflexivity.
  - apply bch_overflow; auto; try lia; try reflexivity. unfold groups. rewrite C. reflexivity.
Qed.
Lemma bad_zero : exists m t, addresses_ok m /\ text_ok t /\ build_sel 128 4096 m t = Ub UB_bounds /\ build_sel_bch 128 4096 m t = Ub UB_bounds.
Proof.
  exists (mem_of 0 16), (repeat 0 20). split; [apply mem_of_ok; [lia|reflexivity]|]. split; [apply zeros_ok|]. split; vm_compute; reflexivity.
Qed.

Lemma answer_is_right L t k : 1 <= L -> misread L (text_bits t) = false -> 1 <= k <= count_true (text_bits t) -> is_select (text_bits t) (k - 1) (sel_answer L (text_bits t) k).
Proof. intros HL M Hk. rewrite answer_right by auto. apply nth_one_is_select. exact Hk. Qed.
Lemma answer_is_wrong L t : 1 <= L -> misread L (text_bits t) = true -> ~ is_select (text_bits t) (count_true (text_bits t) - 1) (sel_answer L (text_bits t) (count_true (text_bits t))).
Proof.
  intros HL M I. pose proof (answer_wrong L t HL M) as W. assert (C : 1 <= count_true (text_bits t)).
  { unfold misread in M. pose proof (K_bound t). rewrite <- K_ones in *. destruct (Z.eq_dec (K t) 0) as [E|]; [rewrite E, Z.mod_0_l in M by lia; discriminate|lia]. }
  pose proof (nth_one_is_select t (count_true (text_bits t)) ltac:(lia)) as J.
  pose proof (is_select_unique _ _ _ _ I J). lia.
Qed.
