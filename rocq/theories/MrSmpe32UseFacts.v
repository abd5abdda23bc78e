(** SelectMPE32 in use: save(), load() and testSelect() are those of SelectBasic32. *)
From Coq Require Import ZifyBool.
From Verif Require Import Base BaseFacts Mem MemFacts Words WordFacts BlockFacts NodeFacts Trees TreeBuild Spec BitmapFacts KernelFacts SpecPoppy PoppyFacts PoppyFacts2 SpecText SpecSel32 SpecFile SpecFile32 SpecSelFile32 MrRank MrRankFacts MrRankFacts2 MrRankFacts3 MrRankProps MrSelect MrSelectFacts MrSelectFacts2 MrSelectFacts3 MrSelectFacts4 MrSelectFacts5 MrSelectFacts6 MrSelectProps
  MrFile MrFileFacts MrFileFacts2 MrFile32Facts MrFileFacts4 MrFileFacts5 MrFileProps MrMpe SpecSmpe SpecSmpe32 MrMpeFacts2 MrMpeFacts3 MrMpeFacts5 MrRank32 MrRank32Facts2 MrMpe32 MrMpe32Facts MrMpe32Facts4 MrSelect32 MrSelect32Facts MrSelect32Facts2 MrSelect32Facts3 MrSelect32Facts4 MrSelect32Facts5 MrSelect32Facts6 MrSelect32Props MrSelFile32 MrSelFile32Facts MrSelFile32Facts2 MrSelFile32Props
  MrSmpe MrSmpeFacts MrSmpeFacts2 MrSmpeFacts3 MrSmpeFacts4 MrSmpeFacts5 MrSmpeFacts6 MrSmpeFacts7 MrSmpeProps MrSmpeUseFacts MrSmpe32 MrSmpe32Facts MrSmpe32Facts2 MrSmpe32Facts3 MrSmpe32Facts4 MrSmpe32Facts5 MrSmpe32Facts6 MrSmpe32Facts7 MrSmpe32Props.
Ltac Zify.zify_post_hook ::= Z.div_mod_to_equations.

(** ** The payload consists of bytes *)
Lemma both_keep32 n th cont k d bits bc bits' bc' : bytesI n bits -> store_both_32 th cont k d bits bc = Ok (bits', bc') -> bytesI n bits'.
Proof.
  intros H E. unfold store_both_32 in E. step E zt Q0. step E r1 Q1. destruct r1 as [[[b1 c1] t1] t2]. step E r2 Q2. destruct r2 as [b2 c2]. step E b3 Q3. step E b4 Q4. injection E as <- _. apply zero_keep in Q0.
  assert (I : bytesI n b1 /\ bytesI (zlen zt) t1 /\ bytesI (zlen zt) t2).
  { refine (foldM_keep (fun '(b, _, x, y) => bytesI n b /\ bytesI (zlen zt) x /\ bytesI (zlen zt) y) _ _ _ _ _ _ Q1); [|auto].
    intros [[[b c] x] y] j [[[b' c'] x'] y'] (I1 & I2 & I3) Ea. unfold both_step in Ea. step Ea f P1. step Ea y1 P2. step Ea z P3. step Ea q P4.
    assert (I3' : bytesI (zlen zt) y1) by (destruct f; [eapply mark_keep; [|eassumption]; eassumption|injection P2 as <-; auto]).
    destruct q.
    - step Ea x1 P5. injection Ea as <- _ <- <-. split; [auto|]. split; [eapply mark_keep; [|eassumption]; eassumption|auto].
    - step Ea pr P5. destruct pr as [b1' c1']. injection Ea as <- _ <- <-. split; [eapply put_pair_keep; [|eassumption]; eassumption|auto]. }
  destruct I as (I1 & I2 & I3). eapply put_table_keep; [|exact I3|exact Q4]. eapply put_table_keep; [|exact I2|exact Q3]. eapply put_odd_keep; [|eassumption]; eassumption.
Qed.
Lemma one_keep32 v n th cont k d bits bc bits' bc' : bytesI n bits -> store_one_32 v th cont k d bits bc = Ok (bits', bc') -> bytesI n bits'.
Proof.
  intros H E. unfold store_one_32 in E. step E zt Q0. step E r1 Q1. destruct r1 as [[b1 c1] t1]. step E r2 Q2. destruct r2 as [b2 c2]. step E b3 Q3. injection E as <- _. apply zero_keep in Q0.
  assert (I : bytesI n b1 /\ bytesI (zlen zt) t1).
  { refine (foldM_keep (fun '(b, _, x) => bytesI n b /\ bytesI (zlen zt) x) _ _ _ _ _ _ Q1); [|auto].
    intros [[b c] x] j [[b' c'] x'] (I1 & I2) Ea. unfold one_step in Ea. step Ea f P1. destruct f.
    - step Ea x1 P5. injection Ea as <- _ <-. split; [auto|eapply mark_keep; [|eassumption]; eassumption].
    - step Ea pr P5. destruct pr as [b1' c1']. injection Ea as <- _ <-. split; [eapply put_pair_keep; [|eassumption]; eassumption|auto]. }
  destruct I as (I1 & I2). eapply put_table_keep; [|exact I2|exact Q3]. eapply put_odd_keep; [|eassumption]; eassumption.
Qed.
Lemma store3_keep32 n M th f cont k d bits bc bits' bc' : bytesI n bits -> store3_32 M th f cont k d bits bc = Ok (bits', bc') -> bytesI n bits'.
Proof.
  intros H E. unfold store3_32 in E. destruct M; repeat match type of E with context [if ?b then _ else _] => destruct b end;
    (eapply both_keep32; eassumption) || (eapply one_keep32; eassumption) || (eapply plain_keep; eassumption).
Qed.

Lemma pass_keep32 n M L T t ones last btc st q st' : outI n (z_out st) -> step3_32 (store_pass32 M T btc) L T t ones last st q = Ok st' -> outI n (z_out st').
Proof.
  intros H E.
  assert (ONE : forall o q o', outI n o -> store_pos32 o q = Ok o' -> outI n o').
  { intros [[[a b] c] d] q' o' I Eo. unfold store_pos32 in Eo. step Eo b1 Q. injection Eo as <-. cbn in *. eapply store_keep; [|eassumption]; eassumption. }
  unfold step3_32 in E. destruct (z_done st); [injection E as <-; exact H|]. destruct (u32 q =? z_upto st).
  - destruct (z_sc st + 2 =? last).
    + unfold last3 in E. step E r Q. destruct r as [[out cont] k]. step E out' Q'. injection E as <-. cbn [z_out].
      assert (I : outI n out).
      { destruct (ones mod L >? 0).
        - step Q b P1. step Q o P2. assert (Io : outI n o) by (destruct (z_sparse st && b); [eapply ONE; eauto|injection P2 as <-; auto]).
          destruct (is_dense st); [step Q c P3; injection Q as <- _ _; auto|injection Q as <- _ _; auto].
        - step Q pf P1. destruct pf. injection Q as <- _ _. auto. }
      destruct out as [[[a b] c] d]. cbn [store_pass32 p_last] in Q'. unfold store_last in Q'. step Q' rr PP. destruct rr as [b1 c1]. injection Q' as <-. cbn in *.
      destruct (is_dense st); [eapply plain_keep; [|eassumption]; eassumption|injection PP as <- _; auto].
    + unfold next3_32 in E. step E pf P1. destruct pf as [cont k]. step E out P2. step E up P3. step E lo P4. injection E as <-. cbn [z_out enter3].
      cbn [store_pass32 p_end] in P2. destruct (z_out st) as [[[a b] c] d]. unfold store_end32 in P2. step P2 rr PP. destruct rr as [b1 c1]. step P2 a1 P5. step P2 f1 P6. injection P2 as <-. cbn in *.
      destruct (is_dense st); [eapply store3_keep32; [|eassumption]; eassumption|injection PP as <- _; auto].
  - unfold inner3 in E. destruct (z_mono st); [injection E as <-; auto|]. step E b P1. destruct (z_sparse st).
    + destruct b; [|injection E as <-; auto]. step E out P2. injection E as <-. cbn [z_out]. eapply ONE; eauto.
    + destruct (z_pos st =? 0); [step E c P2|]; injection E as <-; auto.
Qed.
Lemma build_smpe_bytes32 M L T strict jf m t r : build_smpe32 M L T strict jf m t = Ok r -> text_ok (sb_bits r).
Proof.
  intros E. unfold build_smpe32 in E. step E r1 Q1. destruct r1 as [[temp sc] blen]. step E temp2 Q2. step E st Q3. destruct (z_out st) as [[[temp3_32 btc] removed] added]. step E f Q4. step E st2 Q5.
  destruct (z_out st2) as [[[temp4 bits] bc] f2] eqn:EO. step E temp5 Q6. step E temp6 Q7. step E arr Q8. injection E as <-. cbn [sb_bits].
  set (b0 := fresh_aligned_b32 _ _ _) in Q5. assert (I0 : bytesI (zlen b0) b0) by (split; [apply fresh_b_ok|reflexivity]). clearbody b0.
  unfold scan_all32 in Q5. step Q5 up P1. step Q5 lo P2.
  assert (I : outI (zlen b0) (z_out st2)).
  { refine (foldM_keep (fun s => outI (zlen b0) (z_out s)) _ _ _ _ _ _ Q5); [|exact I0]. intros a x a' Ha Ea. eapply pass_keep32; [|eassumption]; eassumption. }
  rewrite EO in I. apply I.
Qed.

(** ** What the file keeps *)
Definition headsP32 (M : mpe_type) (L T : Z) (jf : Z -> Z) (m : memory) (t : list Z) (r : select_basic) : Prop :=
  exists temp btc, temp3_32 M L T t temp /\ btc3 M L T t jf btc /\ super3arr32 M jf temp btc (sb_selects r) (nbk L t / 16 + 1) /\ zlen (sb_selects r) = 25 * (nbk L t / 16 + 1) + slack32 (m_addr_r m) /\
  sb_selects_len r = 25 * (nbk L t / 16 + 1) /\ sb_bits_len r = blen3_32 M L T t /\ sb_text_len r = zlen t.

Lemma xat_modw32 M jf temp btc s j : xat32 M jf (modw32 temp) btc s j = xat32 M jf temp btc s j.
Proof. unfold xat32. rewrite !zn_modw32. unfold wrap. rewrite <- Zminus_mod. reflexivity. Qed.
Lemma fieldw32_ext X Y k H : (forall j, X j = Y j) -> fieldw32 X k H = fieldw32 Y k H.
Proof. intros E. unfold fieldw32, lw32. do 3 f_equal. apply sumf_ext. intros j _. rewrite E. reflexivity. Qed.
Lemma super3P_modw32 M jf temp btc s v : super3P32 M jf temp btc s v -> super3P32 M jf (modw32 temp) btc s (modw32 v).
Proof.
  intros (V0 & V1 & V2 & V3). split; [unfold modw32; rewrite zlen_map; exact V0|]. split; [|split].
  - intros k Hk. rewrite !zn_modw32, V1 by lia. reflexivity.
  - rewrite !zn_modw32, V2. reflexivity.
  - intros w Hw. rewrite zn_modw32, V3 by lia. rewrite (fieldw32_ext (xat32 M jf (modw32 temp) btc s) (xat32 M jf temp btc s)) by (intros; apply xat_modw32). apply Z.mod_small. apply fieldw32_bound.
Qed.

Lemma CO32_bits M L T t a bits c : 1 <= L -> zlen t < 2 ^ 29 -> bits3_32 M L T t a bits -> 0 <= c <= nbk L t -> 0 <= CO32 M L T t c < 2 ^ 32.
Proof.
  intros HL Hl (_ & Y2 & _) Hc. split; [apply CO32_nonneg; lia|]. pose proof (CO32_mono M L T t c (nbk L t) HL Hl ltac:(lia) ltac:(lia)). lia.
Qed.
Lemma heads_same32 M L T jf m m' t r r' : 1 <= L < T -> 1 <= K t -> zlen t < 2 ^ 29 -> smpeP32 M L T jf m t r -> sameS32 m' r r' -> headsP32 M L T jf m' t r'.
Proof.
  intros HL HK Hl (temp & btc & (T1 & T2 & T3) & BP & YP & SA & Z1 & E1 & E2 & E3) (S1 & S2 & S3 & (W1 & W2 & W3) & V). rewrite E1 in *. pose proof (nbk_1 L t ltac:(lia) HK) as N1.
  replace (25 * (nbk L t / 16 + 1) =? 0) with false in W1 by lia. exists (modw32 temp), btc. split; [|split; [exact BP|split; [|split; [exact W1|split; [exact S2|split; congruence]]]]].
  - split; [unfold modw32; rewrite zlen_map; exact T1|]. split.
    + intros c Hc. rewrite zn_modw32, T2 by lia. apply Z.mod_small. apply SS_small32; auto; lia.
    + intros c Hc. rewrite zn_modw32, T3 by lia. apply Z.mod_small. apply (CO32_bits M L T t (m_addr_b m) (sb_bits r)); auto; lia.
  - intros s Hs. destruct (SA s Hs) as (v & PV & EV). exists (modw32 v). split; [apply super3P_modw32; exact PV|]. intros k Hk. rewrite W2 by lia. rewrite EV by lia. symmetry. apply zn_modw32.
Qed.

Lemma lost3_32 M L T t : 1 <= L < T -> zlen t < 2 ^ 29 -> 1 <= K t -> lost32 L T (text_bits t) = (CO32 M L T t (nbk L t) >? blen3_32 M L T t).
Proof. intros HL Hl HK. rewrite lost_iff32 by auto. pose proof (nbk_1 L t ltac:(lia) HK). rewrite CO32_sum by lia. unfold blen3_32. lia. Qed.

Lemma smpe_same32 M L T jf m m' t r r' : 1 <= L < T -> 1 <= K t -> zlen t < 2 ^ 29 -> lost32 L T (text_bits t) = false -> blen3_32 M L T t + 128 < 2 ^ 32 -> smpeP32 M L T jf m t r -> sameS32 m' r r' -> smpeP32 M L T jf m' t r'.
Proof.
  intros HL HK Hl LO HP SP SA. destruct (heads_same32 M L T jf m m' t r r' HL HK Hl SP SA) as (temp & btc & H1 & H2 & H3 & H4 & H5 & H6 & H7). exists temp, btc. split; [exact H1|]. split; [exact H2|]. split; [|auto].
  destruct SP as (_ & _ & _ & _ & (Y1 & Y2 & Y3) & _ & _ & _ & E2 & _). destruct SA as (_ & _ & _ & _ & (V1 & V2 & _)). rewrite E2 in *. rewrite (lost3_32 M) in LO by auto.
  pose proof (CO32_nonneg M L T t (nbk L t) ltac:(lia) Hl ltac:(pose proof (nbk_1 L t ltac:(lia) HK); lia)) as CN. pose proof (room_bound (m_addr_b m')). split; [|split].
  - destruct (blen3_32 M L T t =? 0) eqn:E0; [right; rewrite V1; lia|left; exact V1].
  - rewrite V1. destruct (blen3_32 M L T t =? 0) eqn:E0; lia.
  - intros c Hc. apply (keep_spay32 M L T t (sb_bits r) (sb_bits r') (nbk L t)); auto; try lia. intros k Hk. apply V2. lia.
Qed.

Lemma smpe_round_trip32 M L T jf m m' t r : 1 <= L < T -> addresses_ok m -> addresses_ok m' -> zlen t < 2 ^ 29 -> nbk L t < 2 ^ 31 - 17 -> 1 <= K t ->
  blen3_32 M L T t + 128 < 2 ^ 32 -> build_smpe32 M L T false jf m t = Ok r -> smpeP32 M L T jf m t r ->
  exists f, save_sel32 r = Ok f /\ zlen f = 12 + 100 * (nbk L t / 16 + 1) + blen3_32 M L T t /\ text_ok f /\
    (forall rest, text_ok rest -> exists r', load_sel32 m' (f ++ rest) = Ok (Loaded r' rest) /\ sameS32 m' r r') /\
    (forall k, 0 <= k < zlen f -> load_sel32 m' (cut f k) = Ok Exits).
Proof.
  intros HL A A' Hl HN HK HP E SP. pose proof (build_smpe_bytes32 M L T false jf m t r E) as OB.
  pose proof SP as (temp & btc & TP & BP & (Y1 & Y2 & Y3) & SA & Z1 & E1 & E2 & E3). destruct A as (A1 & A2 & A3 & A4). pose proof (slack32_ok _ A2) as SL. pose proof (room_bound (m_addr_b m)) as RB.
  pose proof (nbk_1 L t ltac:(lia) HK) as NP. pose proof (zlen_nonneg t) as Z0.
  pose proof (blen_nonneg32 M L T t HL ltac:(lia) (nbk L t) ltac:(lia)) as BN. fold (blen3_32 M L T t) in BN.
  destruct (sel_round32 m' r A' ltac:(rewrite E3; lia) ltac:(rewrite E1; clear - NP HN; lia) ltac:(rewrite E1, Z1; clear - SL; lia) ltac:(rewrite E2; clear - HP BN; lia) ltac:(rewrite E2; clear - Y1 RB; lia) OB) as (f & F1 & F2 & F3 & F4 & F5).
  exists f. split; [exact F1|]. split; [rewrite F2, E1, E2; clear; lia|]. split; [exact F3|]. split; [exact F4|exact F5].
Qed.

(** ** Files *)
Lemma smpe_file32 M L T jf m m' t : 1 <= L < T -> fits_fields32 M L T = true -> addresses_ok m -> addresses_ok m' -> text_ok t -> zlen t < 2 ^ 29 ->
  1 <= count_true (text_bits t) -> SpecText.groups L (text_bits t) < 2 ^ 31 - 17 -> smpe_too_large32 M L T (text_bits t) = false -> overflows32 L T (room_of (m_addr_b m)) (text_bits t) = false -> lost32 L T (text_bits t) = false ->
  (reads_last_flag32 L T (text_bits t) = true -> flag_clear M (jf (SpecText.groups L (text_bits t) - 1)) = true) ->
  exists r f, build_smpe32 M L T false jf m t = Ok r /\ save_sel32 r = Ok f /\ zlen f = 112 + 100 * (SpecText.groups L (text_bits t) / 16) + smpe_payload32 M L T (text_bits t) /\
    (forall rest, text_ok rest -> exists r', load_sel32 m' (f ++ rest) = Ok (Loaded r' rest) /\ smpe_text_size32 r' = zlen t /\
       forall buf k, zlen buf = 8 -> 1 <= k <= count_true (text_bits t) -> select_smpe32 M L T r' buf k = Ok (sel_answer L (text_bits t) k)) /\
    (forall k, 0 <= k < zlen f -> load_sel32 m' (firstn (Z.to_nat k) f) = Ok Exits).
Proof.
  intros HL F A A' H Hl HK HG HP HO LO HC. destruct (fits_args32 M L T HL F) as [_ HT]. rewrite <- K_ones in *. rewrite groups_nbk in HG. pose proof (build_smpe32_ok M L T jf m t HL HT A H Hl HG HK) as B. rewrite builds3_spec32, HP, HO in B by auto. cbn [negb andb] in B. unfold smpe_too_large32 in HP. rewrite payload_blen3_32 in HP by auto. destruct B as (r & E & R).
  destruct (smpe_round_trip32 M L T jf m m' t r HL A A' Hl HG HK ltac:(lia) E R) as (f & F1 & F2 & F3 & F4 & F5). exists r, f. split; [exact E|]. split; [exact F1|].
  split; [rewrite F2, payload_blen3_32, groups_nbk by lia; lia|]. split; [|exact F5].
  intros rest Hr. destruct (F4 rest Hr) as (r' & R1 & R2). exists r'. split; [exact R1|]. pose proof (smpe_same32 M L T jf m m' t r r' HL HK Hl LO ltac:(lia) R R2) as R'.
  split; [destruct R' as (te & bt & _ & _ & _ & _ & _ & _ & _ & R'); unfold smpe_text_size32; rewrite R'; pose proof (zlen_nonneg t); apply wrap_small; lia|]. intros buf k Hb Hk. rewrite <- answer_spec with (T := T) by lia. apply (select_smpe32_ok M L T jf m'); auto; try lia. apply last_fine32; auto.
Qed.

Lemma plain_payload32 M L T t bits : 1 <= L -> nbk L t = 1 -> spay32 M L T t bits 0 -> payload32 L T t bits 0.
Proof.
  intros HL N [S1 S2]. destruct (last_plain M L T t 0 ltac:(lia)) as [E1 E2]. split.
  - intros E k Hk. specialize (S1 E k Hk). rewrite CO32_0 in S1. rewrite OO32_0. exact S1.
  - intros E3 E4 j Hj. specialize (S2 ltac:(unfold de; rewrite E3, E4; reflexivity)). rewrite E1, E2 in S2. rewrite CO32_0 in S2. pose proof (nb8_bound L t 0 HL ltac:(lia)). unfold nb8 in *.
    rewrite OO32_0. rewrite (packed_plain (gb L t 0) (up8 (ee L t 0)) (tlen L t 0)) by (auto; lia). reflexivity.
Qed.

Lemma smpe_lost32 M L T jf m t : 1 <= L < T -> fits_fields32 M L T = true -> addresses_ok m -> text_ok t -> zlen t < 2 ^ 29 ->
  overflows32 L T (room_of (m_addr_b m)) (text_bits t) = false -> lost32 L T (text_bits t) = true ->
  let n := count_true (text_bits t) in
  exists m' r f r', addresses_ok m' /\ bytes_ok m' /\ build_smpe32 M L T false jf m t = Ok r /\ (forall buf, zlen buf = 8 -> select_smpe32 M L T r buf n = Ok (nth_one (text_bits t) n)) /\
    save_sel32 r = Ok f /\ load_sel32 m' f = Ok (Loaded r' []) /\ forall buf, select_smpe32 M L T r' buf n <> Ok (nth_one (text_bits t) n).
Proof.
  intros HL F A H Hl HO LO n. destruct (fits_args32 M L T HL F) as [_ HT]. assert (HK : 1 <= K t) by (rewrite K_ones; unfold lost32 in LO; lia).
  assert (KL : K t < L) by (rewrite K_ones; unfold lost32 in LO; lia). assert (N1 : nbk L t = 1) by (unfold nbk; symmetry; apply (Z.div_unique _ _ _ (K t - 1)); lia).
  assert (BL : blen3_32 M L T t = O132 L T t (nbk L t)).
  { destruct (last_plain M L T t 0 ltac:(lia)) as [C1 C2]. destruct (plain_zero M L T t 0 ltac:(lia) ltac:(lia) C1 C2) as (_ & C3 & C4). unfold blen3_32, AD, RM. rewrite N1. replace 1 with (0 + 1) at 2 3 by lia. rewrite !sumf_succ by lia. rewrite !sumf_empty by lia. lia. }
  destruct (lost_small32 L T t HL HK LO) as (_ & _ & OB). assert (T30 : T < 2 ^ 30) by (unfold fits_fields32 in F; destruct M; cbn [field_limit32] in F; lia).
  pose proof (build_smpe32_ok M L T jf m t HL HT A H Hl ltac:(lia) HK) as B. unfold builds3_32 in B. rewrite HO in B. replace (blen3_32 M L T t + 128 <? 2 ^ 32) with true in B by lia. cbn [negb andb] in B. destruct B as (r & E & R).
  destruct (smpe_round_trip32 M L T jf m m127 t r HL A m127_ok Hl ltac:(lia) HK ltac:(lia) E R) as (f & F1 & F2 & F3 & F4 & F5). destruct (F4 [] (Forall_nil _)) as (r' & R1 & R2). rewrite app_nil_r in R1.
  exists m127, r, f, r'. split; [exact m127_ok|]. split; [exact m127_bytes|]. split; [exact E|]. unfold n. rewrite <- K_ones, P_nth. split; [|split; [exact F1|]; split; [exact R1|]].
  - intros buf Hb. assert (RF : forall x, reads_last_flag32 L T (text_bits t) = true -> flag_clear M x = true).
    { intros x. unfold reads_last_flag32. cbv zeta. rewrite <- K_ones, Z.mod_small by lia. replace (K t =? 0) with false by lia. rewrite andb_false_r. discriminate. }
    rewrite (select_smpe32_ok M L T jf m t r buf (K t) HL F Hl ltac:(lia) A R (last_fine32 M L T t jf HL HK (RF _)) Hb ltac:(lia)).
    rewrite answer_spec by lia. unfold sel_answer, misread, lost32 in *. rewrite <- K_ones in *. rewrite Z.div_small, Z.mod_small in * by lia.
    change (group_start L (text_bits t) 0) with 0. rewrite Z.sub_0_r. replace (nth_one (text_bits t) (K t) + 1 =? L) with false by lia. rewrite andb_false_r. reflexivity.
  - intros buf. destruct (heads_same32 M L T jf m m127 t r r' HL HK ltac:(lia) R R2) as (temp & btc & TP & BP & SA & Z1 & E1 & E2 & E3).
    destruct R as (_ & _ & _ & _ & (_ & _ & Y3) & _ & _ & _ & EB & _). pose proof (plain_payload32 M L T t (sb_bits r) ltac:(lia) N1 (Y3 0 ltac:(lia))) as PL.
    destruct R2 as (_ & _ & _ & _ & V). rewrite EB in V. rewrite BL in V. destruct (in_block_lost32 L T t (sb_bits r) (sb_bits r') HL T30 H Hl HK LO (build_smpe_bytes32 M L T false jf m t r E) PL V) as (_ & DL & IB).
    pose proof (slack32_ok _ (proj1 (proj2 m127_ok))) as SL. pose proof TP as (T1 & T2 & T3). destruct (SA 0 ltac:(lia)) as (v & (_ & V1 & V2 & V3) & EV). pose proof (SS_bound L t 1 ltac:(lia) ltac:(lia)) as S1.
    assert (X0 : zn 0 (sb_selects r') 0 = 0). { pose proof (EV 0 ltac:(lia)) as EE. change (25 * 0 + 0) with 0 in EE. rewrite EE, V1 by lia. change (2 * (16 * 0 + 0)) with (2 * 0). rewrite T2, SS_0 by lia. reflexivity. }
    assert (X1 : zn 0 (sb_selects r') 1 = SS L t 1). { pose proof (EV 1 ltac:(lia)) as EE. change (25 * 0 + 1) with 1 in EE. rewrite EE, V1 by lia. change (2 * (16 * 0 + 1)) with (2 * 1). apply T2. lia. }
    assert (X16 : zn 0 (sb_selects r') 16 = 0). { pose proof (EV 16 ltac:(lia)) as EE. change (25 * 0 + 16) with 16 in EE. rewrite EE, V2 by lia. change (32 * 0 + 1) with (2 * 0 + 1). rewrite T3 by lia. rewrite Z.min_l by lia. apply CO32_0. }
    assert (X17 : first_flag32 M (zn 0 (sb_selects r') 17) = 0).
    { pose proof (EV 17 ltac:(lia)) as EE. change (25 * 0 + 17) with 17 in EE. rewrite EE. change 17 with (17 + 0). rewrite V3 by lia. change (0 =? 0) with true. cbv iota.
      rewrite (header_first32 M L T t jf temp btc 0 HL ltac:(lia) F TP BP ltac:(lia) ltac:(lia)). change (16 * 0) with 0. replace (0 =? nbk L t - 1) with true by lia. unfold lastflag. rewrite Z.mod_small by lia. replace (K t >? 0) with true by lia. destruct M; reflexivity. }
    assert (DE : DD L t 0 = SS L t 1) by (unfold DD; rewrite SS_0; change (0 + 1) with 1; lia).
    unfold select_smpe32. cbv zeta. rewrite (Z.div_small (K t) L), (Z.mod_small (K t) L) by (clear - HK KL; lia). replace (K t =? 0) with false by lia. change (0 / 16) with 0. change (0 mod 16) with 0. change (0 =? 15) with false. change (0 >? 0) with false. cbv iota.
    change (u32 (25 * 0)) with 0. change (0 + 0) with 0. change (0 + 1) with 1. change (0 + 16) with 16. change (0 + 17) with 17. rewrite N1 in Z1. change (1 / 16 + 1) with 1 in Z1. rewrite geti_ok by lia. cbn [bind]. rewrite X0. rewrite geti_ok by lia. cbn [bind]. rewrite X1. rewrite geti_ok by lia. cbn [bind]. rewrite X16.
    rewrite wrap_small by lia. replace (SS L t 1 - 0) with (DD L t 0) by lia. replace (DD L t 0 =? L) with false by lia.
    destruct (DD L t 0 >? T) eqn:ED.
    + cbn [bind]. unfold in_block32 in IB. rewrite ED in IB. exact IB.
    + rewrite geti_ok by lia. cbn [bind]. rewrite X17. unfold in_dense32. destruct M; exact IB.
Qed.

(** ** The self test *)
Lemma smpe_self_test32 M L T jf m t buf : 1 <= L < T -> fits_fields32 M L T = true -> addresses_ok m -> text_ok t -> zlen t < 2 ^ 29 -> 1 <= count_true (text_bits t) ->
  SpecText.groups L (text_bits t) < 2 ^ 31 - 17 -> smpe_too_large32 M L T (text_bits t) = false -> overflows32 L T (room_of (m_addr_b m)) (text_bits t) = false -> (reads_last_flag32 L T (text_bits t) = true -> flag_clear M (jf (SpecText.groups L (text_bits t) - 1)) = true) ->
  (forall i, zlen (buf i) = 8) ->
  exists r, build_smpe32 M L T false jf m t = Ok r /\ (test_select32 (fun i => select_smpe32 M L T r (buf i) i) t = Ok [] <-> misread L (text_bits t) = false).
Proof.
  intros HL F A H Hl HK HG HP HO HC HB. destruct (smpe_select32 M L T jf m t HL F A H Hl HK HG HP HO HC) as (r & E & R). exists r. split; [exact E|].
  apply (test_of_answers32 L (fun i => select_smpe32 M L T r (buf i) i)); auto; [lia|]. intros k Hk. exact (proj2 (R _ (HB k)) k Hk).
Qed.

(** ** A file of zeros *)
Lemma smpe_zero_bad32 : exists f, text_ok f /\ forall m, exists r, load_sel32 m f = Ok (Loaded r []) /\ forall M L T buf k, select_smpe32 M L T r buf k = Ub UB_bounds.
Proof.
  exists (repeat 0 12). split; [repeat constructor; lia|]. intros m. eexists. split; [reflexivity|]. intros. unfold select_smpe32. cbv zeta. cbn [sb_selects]. unfold geti at 1. replace (zlen (@nil Z)) with 0 by reflexivity.
  match goal with |- context [if ?b then _ else _] => replace b with false by lia end. reflexivity.
Qed.
