(** Facts about MrSmpeUse. *)
From Coq Require Import ZifyBool.
From Verif Require Import Base BaseFacts Mem MemFacts Words WordFacts BlockFacts NodeFacts Trees TreeBuild Spec BitmapFacts KernelFacts SpecPoppy PoppyFacts PoppyFacts2 SpecText SpecFile SpecPerf SpecOrder MrRank MrRankFacts MrRankFacts2 MrRankFacts3 MrRankProps MrSelect MrSelectFacts MrSelectFacts2 MrSelectFacts3 MrSelectFacts4 MrSelectFacts5 MrSelectFacts6 MrSelectProps
  MrFile MrFileFacts MrFileFacts2 MrFileFacts4 MrFileFacts5 MrFileProps MrMpe SpecSmpe MrMpeFacts2 MrMpeFacts3 MrMpeFacts5 MrSmpe MrSmpeFacts MrSmpeFacts2 MrSmpeFacts3 MrSmpeFacts4 MrSmpeFacts5 MrSmpeFacts6 MrSmpeFacts7 MrSmpeProps Perf PerfBase OrderFacts PerfBaseFacts MrSmpeUse.
Ltac Zify.zify_post_hook ::= Z.div_mod_to_equations.

(** ** The payload consists of bytes *)
Lemma bind_ok {A B} (x : res A) (f : A -> res B) v : bind x f = Ok v -> exists r, x = Ok r /\ f r = Ok v.
Proof. destruct x as [r| |]; cbn; intros E; [eauto|discriminate|discriminate]. Qed.
Tactic Notation "step" hyp(E) ident(r) ident(Q) := apply bind_ok in E; destruct E as (r & Q & E).

Lemma mark_keep n tab j tab' : bytesI n tab -> mark tab j = Ok tab' -> bytesI n tab'.
Proof. intros H E. unfold mark in E. step E x Q. eapply seti_keep; [exact H|apply u8_byte|exact E]. Qed.
Lemma put_pair_keep n cont bits bc j bits' bc' : bytesI n bits -> put_pair cont bits bc j = Ok (bits', bc') -> bytesI n bits'.
Proof.
  intros H E. unfold put_pair in E. step E x Q. step E b1 Q1. step E y Q2. step E b2 Q3. injection E as <- _.
  eapply seti_keep; [|apply u8_byte|exact Q3]. eapply seti_keep; [exact H|apply u8_byte|exact Q1].
Qed.
Lemma put_odd_keep n cont bits bc k bits' bc' : bytesI n bits -> put_odd cont bits bc k = Ok (bits', bc') -> bytesI n bits'.
Proof.
  intros H E. unfold put_odd in E. destruct (k mod 2 =? 1); [|injection E as <- _; exact H]. step E x Q. step E b1 Q1. injection E as <- _. eapply seti_keep; [exact H|apply u8_byte|exact Q1].
Qed.
Lemma geti_byte n tab k x : bytesI n tab -> geti tab k = Ok x -> 0 <= x < 256.
Proof. intros [H _] E. unfold geti in E. destruct (_ && _); [|discriminate]. injection E as <-. apply tbyte. exact H. Qed.
Lemma put_table_keep n m bits off tl tab bits' : bytesI n bits -> bytesI m tab -> put_table bits off tl tab = Ok bits' -> bytesI n bits'.
Proof.
  intros H HT E. unfold put_table in E. refine (foldM_keep (bytesI n) _ _ _ _ _ H E). intros a x a' Ha Ea. step Ea y Q. eapply seti_keep; [exact Ha|exact (geti_byte m tab x y HT Q)|exact Ea].
Qed.
Lemma zero_keep th tl tab : zero_table th tl = Ok tab -> bytesI (zlen tab) tab.
Proof.
  intros E. split; [|reflexivity]. unfold zero_table in E. destruct (tl <=? _); [|discriminate]. injection E as <-. apply Forall_forall. intros x Hx. apply repeat_spec in Hx. subst x. lia.
Qed.
Lemma both_keep n th cont k d bits bc bits' bc' : bytesI n bits -> store_both3 th cont k d bits bc = Ok (bits', bc') -> bytesI n bits'.
Proof.
  intros H E. unfold store_both3 in E. step E zt Q0. step E r1 Q1. destruct r1 as [[[b1 c1] t1] t2]. step E r2 Q2. destruct r2 as [b2 c2]. step E b3 Q3. step E b4 Q4. injection E as <- _. apply zero_keep in Q0.
  assert (I : bytesI n b1 /\ bytesI (zlen zt) t1 /\ bytesI (zlen zt) t2).
  { refine (foldM_keep (fun '(b, _, x, y) => bytesI n b /\ bytesI (zlen zt) x /\ bytesI (zlen zt) y) _ _ _ _ _ _ Q1); [|auto].
    intros [[[b c] x] y] j [[[b' c'] x'] y'] (I1 & I2 & I3) Ea. unfold both_step in Ea. step Ea f P1. step Ea y1 P2. step Ea z P3. step Ea q P4.
    assert (I3' : bytesI (zlen zt) y1) by (destruct f; [eapply mark_keep; [|eassumption]; eassumption|injection P2 as <-; auto]).
    destruct q.
    - step Ea x1 P5. injection Ea as <- _ <- <-. split; [auto|]. split; [eapply mark_keep; [|eassumption]; eassumption|auto].
    - step Ea pr P5. destruct pr as [b1' c1']. injection Ea as <- _ <- <-. split; [eapply put_pair_keep; [|eassumption]; eassumption|auto]. }
  destruct I as (I1 & I2 & I3). eapply put_table_keep; [|exact I3|exact Q4]. eapply put_table_keep; [|exact I2|exact Q3]. eapply put_odd_keep; [|eassumption]; eassumption.
Qed.
Lemma one_keep v n th cont k d bits bc bits' bc' : bytesI n bits -> store_one3 v th cont k d bits bc = Ok (bits', bc') -> bytesI n bits'.
Proof.
  intros H E. unfold store_one3 in E. step E zt Q0. step E r1 Q1. destruct r1 as [[b1 c1] t1]. step E r2 Q2. destruct r2 as [b2 c2]. step E b3 Q3. injection E as <- _. apply zero_keep in Q0.
  assert (I : bytesI n b1 /\ bytesI (zlen zt) t1).
  { refine (foldM_keep (fun '(b, _, x) => bytesI n b /\ bytesI (zlen zt) x) _ _ _ _ _ _ Q1); [|auto].
    intros [[b c] x] j [[b' c'] x'] (I1 & I2) Ea. unfold one_step in Ea. step Ea f P1. destruct f.
    - step Ea x1 P5. injection Ea as <- _ <-. split; [auto|eapply mark_keep; [|eassumption]; eassumption].
    - step Ea pr P5. destruct pr as [b1' c1']. injection Ea as <- _ <-. split; [eapply put_pair_keep; [|eassumption]; eassumption|auto]. }
  destruct I as (I1 & I2). eapply put_table_keep; [|exact I2|exact Q3]. eapply put_odd_keep; [|eassumption]; eassumption.
Qed.
Lemma plain_keep n cont k bits bc bits' bc' : bytesI n bits -> store_plain3 cont k bits bc = Ok (bits', bc') -> bytesI n bits'.
Proof.
  intros H E. unfold store_plain3 in E. step E b1 Q1. injection E as <- _. refine (foldM_keep (bytesI n) _ _ _ _ _ H Q1). intros a x a' Ha Ea. step Ea y Q. eapply seti_keep; [exact Ha|apply u8_byte|exact Ea].
Qed.
Lemma store3_keep n M th f cont k d bits bc bits' bc' : bytesI n bits -> store3 M th f cont k d bits bc = Ok (bits', bc') -> bytesI n bits'.
Proof.
  intros H E. unfold store3 in E. destruct M; repeat match type of E with context [if ?b then _ else _] => destruct b end;
    (eapply both_keep; eassumption) || (eapply one_keep; eassumption) || (eapply plain_keep; eassumption).
Qed.

Definition outI (n : Z) (st : list Z * list Z * Z * Z) : Prop := let '(_, bits, _, _) := st in bytesI n bits.
Lemma pass_keep n M L T t ones last btc st q st' : outI n (z_out st) -> step3 (store_pass M T btc) L T t ones last st q = Ok st' -> outI n (z_out st').
Proof.
  intros H E.
  assert (ONE : forall o q o', outI n o -> store_pos o q = Ok o' -> outI n o').
  { intros [[[a b] c] d] q' o' I Eo. unfold store_pos in Eo. step Eo b1 Q. injection Eo as <-. cbn in *. eapply store_keep; [|eassumption]; eassumption. }
  unfold step3 in E. destruct (z_done st); [injection E as <-; exact H|]. destruct (q =? z_upto st).
  - destruct (z_sc st + 2 =? last).
    + unfold last3 in E. step E r Q. destruct r as [[out cont] k]. step E out' Q'. injection E as <-. cbn [z_out].
      assert (I : outI n out).
      { destruct (ones mod L >? 0).
        - step Q b P1. step Q o P2. assert (Io : outI n o) by (destruct (z_sparse st && b); [eapply ONE; eauto|injection P2 as <-; auto]).
          destruct (is_dense st); [step Q c P3; injection Q as <- _ _; auto|injection Q as <- _ _; auto].
        - step Q pf P1. destruct pf. injection Q as <- _ _. auto. }
      destruct out as [[[a b] c] d]. cbn [store_pass p_last] in Q'. unfold store_last in Q'. step Q' rr PP. destruct rr as [b1 c1]. injection Q' as <-. cbn in *.
      destruct (is_dense st); [eapply plain_keep; [|eassumption]; eassumption|injection PP as <- _; auto].
    + unfold next3 in E. step E pf P1. destruct pf as [cont k]. step E out P2. step E up P3. step E lo P4. injection E as <-. cbn [z_out enter3].
      cbn [store_pass p_end] in P2. destruct (z_out st) as [[[a b] c] d]. unfold store_end in P2. step P2 rr PP. destruct rr as [b1 c1]. step P2 a1 P5. step P2 f1 P6. injection P2 as <-. cbn in *.
      destruct (is_dense st); [eapply store3_keep; [|eassumption]; eassumption|injection PP as <- _; auto].
  - unfold inner3 in E. destruct (z_mono st); [injection E as <-; auto|]. step E b P1. destruct (z_sparse st).
    + destruct b; [|injection E as <-; auto]. step E out P2. injection E as <-. cbn [z_out]. eapply ONE; eauto.
    + destruct (z_pos st =? 0); [step E c P2|]; injection E as <-; auto.
Qed.
Lemma fresh_b_ok j n : text_ok (fresh_b j n).
Proof. unfold fresh_b. apply Forall_forall. intros x Hx. apply in_map_iff in Hx. destruct Hx as (k & <- & _). apply u8_byte. Qed.
Lemma build_smpe_bytes M L T strict jf m t r : build_smpe M L T strict jf m t = Ok r -> text_ok (sb_bits r).
Proof.
  intros E. unfold build_smpe in E. step E r1 Q1. destruct r1 as [[temp sc] blen]. step E temp2 Q2. step E st Q3. destruct (z_out st) as [[[temp3 btc] removed] added]. step E f Q4. step E st2 Q5.
  destruct (z_out st2) as [[[temp4 bits] bc] f2] eqn:EO. step E temp5 Q6. step E temp6 Q7. step E arr Q8. injection E as <-. cbn [sb_bits].
  set (b0 := fresh_aligned_b _ _ _) in Q5. assert (I0 : bytesI (zlen b0) b0) by (split; [apply fresh_b_ok|reflexivity]). clearbody b0.
  unfold scan_all in Q5. step Q5 up P1. step Q5 lo P2.
  assert (I : outI (zlen b0) (z_out st2)).
  { refine (foldM_keep (fun s => outI (zlen b0) (z_out s)) _ _ _ _ _ _ Q5); [|exact I0]. intros a x a' Ha Ea. eapply pass_keep; [|eassumption]; eassumption. }
  rewrite EO in I. apply I.
Qed.

(** ** What the file keeps *)
Definition headsP (M : mpe_type) (L T : Z) (jf : Z -> Z) (m : memory) (t : list Z) (r : select_basic) : Prop :=
  exists temp btc, temp3 M L T t temp /\ btc3 M L T t jf btc /\ super3arr M jf temp btc (sb_selects r) (nbk L t / 16 + 1) /\ zlen (sb_selects r) = 21 * (nbk L t / 16 + 1) + slack (m_addr_r m) /\
  sb_selects_len r = 21 * (nbk L t / 16 + 1) /\ sb_bits_len r = blen3 M L T t /\ sb_text_len r = zlen t.

Lemma CO_bound M L T t c : 1 <= L < T -> zlen t < 2 ^ 58 -> 1 <= K t -> 0 <= c < nbk L t -> 0 <= CO M L T t c < 2 ^ 64.
Proof.
  intros HL Hl HK Hc. split; [apply CO_nonneg; lia|]. destruct (Z.eq_dec c 0) as [->|N]; [rewrite CO_0; lia|].
  pose proof (CO_mono M L T t c (nbk L t) ltac:(lia) Hl ltac:(lia) ltac:(lia)) as CM. pose proof (CO_sum M L T t (nbk L t) ltac:(lia)) as CS.
  pose proof (blen_upper M L T t HL Hl (nbk L t) ltac:(lia)) as BU. pose proof (SS_bound L t (nbk L t) ltac:(lia) ltac:(lia)) as SB.
  destruct (tight L T t) eqn:TI; [destruct (tight_sizes L T t HL TI); lia|]. pose proof (fits_all L T t HL TI (nbk L t) ltac:(lia)) as FA. clear - CM CS BU SB FA Hl. lia.
Qed.

Lemma xat_mod64 M jf temp btc s j : xat M jf (mod64 temp) btc s j = xat M jf temp btc s j.
Proof. unfold xat. rewrite !zn_mod64. unfold wrap. rewrite <- Zminus_mod. reflexivity. Qed.
Lemma fieldw_ext X Y k H : (forall j, X j = Y j) -> fieldw X k H = fieldw Y k H.
Proof. intros E. unfold fieldw, lw. do 3 f_equal. apply sumf_ext. intros j _. rewrite E. reflexivity. Qed.
Lemma super3P_mod64 M jf temp btc s v : super3P M jf temp btc s v -> super3P M jf (mod64 temp) btc s (mod64 v).
Proof.
  intros (V0 & V1 & V2 & V3). split; [unfold mod64; rewrite zlen_map; exact V0|]. split; [|split].
  - intros k Hk. rewrite !zn_mod64, V1 by lia. reflexivity.
  - rewrite !zn_mod64, V2. reflexivity.
  - intros w Hw. rewrite zn_mod64, V3 by lia. rewrite (fieldw_ext (xat M jf (mod64 temp) btc s) (xat M jf temp btc s)) by (intros; apply xat_mod64). apply Z.mod_small. apply fieldw_bound.
Qed.

Lemma heads_same M L T jf m m' t r r' : 1 <= L < T -> 1 <= K t -> zlen t < 2 ^ 58 -> smpeP M L T jf m t r -> sameS m' r r' -> headsP M L T jf m' t r'.
Proof.
  intros HL HK Hl (temp & btc & (T1 & T2 & T3) & BP & YP & SA & Z1 & E1 & E2 & E3) (S1 & S2 & S3 & (W1 & W2 & W3) & V). rewrite E1 in *. pose proof (nbk_1 L t ltac:(lia) HK) as N1.
  replace (21 * (nbk L t / 16 + 1) =? 0) with false in W1 by lia. exists (mod64 temp), btc. split; [|split; [exact BP|split; [|split; [exact W1|split; [exact S2|split; congruence]]]]].
  - split; [unfold mod64; rewrite zlen_map; exact T1|]. split.
    + intros c Hc. rewrite zn_mod64, T2 by lia. apply Z.mod_small. apply SS_small; auto; lia.
    + intros c Hc. rewrite zn_mod64, T3 by lia. apply Z.mod_small. apply CO_bound; auto; lia.
  - intros s Hs. destruct (SA s Hs) as (v & PV & EV). exists (mod64 v). split; [apply super3P_mod64; exact PV|]. intros k Hk. rewrite W2 by lia. rewrite EV by lia. symmetry. apply zn_mod64.
Qed.

Lemma lost3 M L T t : 1 <= L < T -> zlen t < 2 ^ 58 -> 1 <= K t -> lost L T (text_bits t) = (CO M L T t (nbk L t) >? blen3 M L T t).
Proof. intros HL Hl HK. rewrite lost_iff by auto. pose proof (nbk_1 L t ltac:(lia) HK). rewrite CO_sum by lia. unfold blen3. lia. Qed.

Lemma smpe_same M L T jf m m' t r r' : 1 <= L < T -> 1 <= K t -> zlen t < 2 ^ 58 -> lost L T (text_bits t) = false -> smpeP M L T jf m t r -> sameS m' r r' -> smpeP M L T jf m' t r'.
Proof.
  intros HL HK Hl LO SP SA. destruct (heads_same M L T jf m m' t r r' HL HK Hl SP SA) as (temp & btc & H1 & H2 & H3 & H4 & H5 & H6 & H7). exists temp, btc. split; [exact H1|]. split; [exact H2|]. split; [|auto].
  destruct SP as (_ & _ & _ & _ & (Y1 & Y2 & Y3) & _ & _ & _ & E2 & _). destruct SA as (_ & _ & _ & _ & (V1 & V2 & _)). rewrite E2 in *. rewrite (lost3 M) in LO by auto.
  pose proof (CO_nonneg M L T t (nbk L t) ltac:(lia) Hl ltac:(pose proof (nbk_1 L t ltac:(lia) HK); lia)) as CN. pose proof (room_bound (m_addr_b m')). split; [|split].
  - destruct (blen3 M L T t =? 0) eqn:E0; [right; rewrite V1; lia|left; exact V1].
  - rewrite V1. destruct (blen3 M L T t =? 0) eqn:E0; lia.
  - intros c Hc. apply (keep_spay M L T t (sb_bits r) (sb_bits r') (nbk L t)); auto; try lia. intros k Hk. apply V2. lia.
Qed.

Lemma smpe_round_trip M L T jf m m' t r : 1 <= L < T -> addresses_ok m -> addresses_ok m' -> text_ok t -> zlen t < 2 ^ 57 -> 1 <= K t ->
  build_smpe M L T false jf m t = Ok r -> smpeP M L T jf m t r ->
  exists f, save_sel r = Ok f /\ zlen f = 24 + 168 * (nbk L t / 16 + 1) + blen3 M L T t /\ text_ok f /\
    (forall rest, text_ok rest -> exists r', load_sel m' (f ++ rest) = Ok (Loaded r' rest) /\ sameS m' r r') /\
    (forall k, 0 <= k < zlen f -> load_sel m' (cut f k) = Ok Exits).
Proof.
  intros HL A A' H Hl HK E SP. pose proof (build_smpe_bytes M L T false jf m t r E) as OB.
  pose proof SP as (temp & btc & TP & BP & (Y1 & Y2 & Y3) & SA & Z1 & E1 & E2 & E3). destruct A as (A1 & A2 & A3 & A4). pose proof (slack_ok _ A2) as SL. pose proof (room_bound (m_addr_b m)) as RB.
  pose proof (nbk_1 L t ltac:(lia) HK) as NP. pose proof (nbk_le L t ltac:(lia)) as NL. pose proof (K_bound t) as KB. pose proof (zlen_nonneg t) as Z0.
  pose proof (blen_upper M L T t HL ltac:(lia) (nbk L t) ltac:(lia)) as BU. pose proof (blen_nonneg M L T t HL ltac:(lia) (nbk L t) ltac:(lia)) as BN. fold (blen3 M L T t) in BU, BN. pose proof (SS_bound L t (nbk L t) ltac:(lia) ltac:(lia)) as SB.
  destruct (sel_round m' r A' ltac:(rewrite E3; lia) ltac:(rewrite E1; clear - NP NL KB Hl Z0; lia) ltac:(rewrite E1, Z1; clear - SL; lia) ltac:(rewrite E2; clear - BU BN SB Hl; lia) ltac:(rewrite E2; clear - Y1 RB; lia) OB) as (f & F1 & F2 & F3 & F4 & F5).
  exists f. split; [exact F1|]. split; [rewrite F2, E1, E2; clear; lia|]. split; [exact F3|]. split; [exact F4|exact F5].
Qed.

(** ** Files *)
Lemma smpe_file M L T jf m m' t : 1 <= L < T -> fits_fields M L T = true -> addresses_ok m -> addresses_ok m' -> text_ok t -> zlen t < 2 ^ 57 ->
  1 <= count_true (text_bits t) -> overflows L T (room_of (m_addr_b m)) (text_bits t) = false -> lost L T (text_bits t) = false ->
  (reads_last_flag L T (text_bits t) = true -> flag_clear M (jf (SpecText.groups L (text_bits t) - 1)) = true) ->
  exists r f, build_smpe M L T false jf m t = Ok r /\ save_sel r = Ok f /\ zlen f = 192 + 168 * (SpecText.groups L (text_bits t) / 16) + smpe_payload M L T (text_bits t) /\
    (forall rest, text_ok rest -> exists r', load_sel m' (f ++ rest) = Ok (Loaded r' rest) /\ smpe_text_size r' = zlen t /\
       forall buf k, zlen buf = 8 -> 1 <= k <= count_true (text_bits t) -> select_smpe M L T r' buf k = Ok (sel_answer L (text_bits t) k)) /\
    (forall k, 0 <= k < zlen f -> load_sel m' (firstn (Z.to_nat k) f) = Ok Exits).
Proof.
  intros HL F A A' H Hl HK HO LO HC. destruct (fits_args M L T HL F) as [_ HT]. rewrite <- K_ones in *. pose proof (build_smpe_ok M L T jf m t HL HT A H ltac:(lia) HK) as B. rewrite HO in B. destruct B as (r & E & R).
  destruct (smpe_round_trip M L T jf m m' t r HL A A' H Hl HK E R) as (f & F1 & F2 & F3 & F4 & F5). exists r, f. split; [exact E|]. split; [exact F1|].
  split; [rewrite F2, payload_blen3, groups_nbk by lia; lia|]. split; [|exact F5].
  intros rest Hr. destruct (F4 rest Hr) as (r' & R1 & R2). exists r'. split; [exact R1|]. pose proof (smpe_same M L T jf m m' t r r' HL HK ltac:(lia) LO R R2) as R'.
  split; [destruct R' as (te & bt & R'); apply R'|]. intros buf k Hb Hk. rewrite <- answer_spec with (T := T) by lia. apply (select_smpe_ok M L T jf m'); auto; try lia. apply last_fine; auto.
Qed.

Lemma plain_payload M L T t bits : 1 <= L -> nbk L t = 1 -> spay M L T t bits 0 -> payload L T t bits 0.
Proof.
  intros HL N [S1 S2]. destruct (last_plain M L T t 0 ltac:(lia)) as [E1 E2]. split.
  - intros E k Hk. specialize (S1 E k Hk). rewrite CO_0 in S1. rewrite OO_0. exact S1.
  - intros E3 E4 j Hj. specialize (S2 ltac:(unfold de; rewrite E3, E4; reflexivity)). rewrite E1, E2 in S2. rewrite CO_0 in S2. pose proof (nb8_bound L t 0 HL ltac:(lia)). unfold nb8 in *.
    rewrite OO_0. rewrite (packed_plain (gb L t 0) (up8 (ee L t 0)) (tlen L t 0)) by (auto; lia). reflexivity.
Qed.

Lemma smpe_lost M L T jf m t : 1 <= L < T -> fits_fields M L T = true -> addresses_ok m -> text_ok t -> zlen t < 2 ^ 57 ->
  overflows L T (room_of (m_addr_b m)) (text_bits t) = false -> lost L T (text_bits t) = true ->
  let n := count_true (text_bits t) in
  exists m' r f r', addresses_ok m' /\ bytes_ok m' /\ build_smpe M L T false jf m t = Ok r /\ (forall buf, zlen buf = 8 -> select_smpe M L T r buf n = Ok (nth_one (text_bits t) n)) /\
    save_sel r = Ok f /\ load_sel m' f = Ok (Loaded r' []) /\ forall buf, select_smpe M L T r' buf n <> Ok (nth_one (text_bits t) n).
Proof.
  intros HL F A H Hl HO LO n. destruct (fits_args M L T HL F) as [_ HT]. assert (HK : 1 <= K t) by (rewrite K_ones; unfold lost in LO; lia).
  assert (KL : K t < L) by (rewrite K_ones; unfold lost in LO; lia). assert (N1 : nbk L t = 1) by (unfold nbk; symmetry; apply (Z.div_unique _ _ _ (K t - 1)); lia).
  pose proof (build_smpe_ok M L T jf m t HL HT A H ltac:(lia) HK) as B. rewrite HO in B. destruct B as (r & E & R).
  destruct (smpe_round_trip M L T jf m m127 t r HL A m127_ok H Hl HK E R) as (f & F1 & F2 & F3 & F4 & F5). destruct (F4 [] (Forall_nil _)) as (r' & R1 & R2). rewrite app_nil_r in R1.
  exists m127, r, f, r'. split; [exact m127_ok|]. split; [exact m127_bytes|]. split; [exact E|]. unfold n. rewrite <- K_ones, P_nth. split; [|split; [exact F1|]; split; [exact R1|]].
  - intros buf Hb. assert (RF : forall x, reads_last_flag L T (text_bits t) = true -> flag_clear M x = true).
    { intros x. unfold reads_last_flag. cbv zeta. rewrite <- K_ones, Z.mod_small by lia. replace (K t =? 0) with false by lia. rewrite andb_false_r. discriminate. }
    rewrite (select_smpe_ok M L T jf m t r buf (K t) HL F ltac:(lia) A R (last_fine M L T t jf HL HK (RF _)) Hb ltac:(lia)).
    rewrite answer_spec by lia. unfold sel_answer, misread, lost in *. rewrite <- K_ones in *. rewrite Z.div_small, Z.mod_small in * by lia.
    change (group_start L (text_bits t) 0) with 0. rewrite Z.sub_0_r. replace (nth_one (text_bits t) (K t) + 1 =? L) with false by lia. rewrite andb_false_r. reflexivity.
  - intros buf. destruct (heads_same M L T jf m m127 t r r' HL HK ltac:(lia) R R2) as (temp & btc & TP & BP & SA & Z1 & E1 & E2 & E3).
    destruct R as (_ & _ & _ & _ & (_ & _ & Y3) & _ & _ & _ & EB & _). pose proof (plain_payload M L T t (sb_bits r) ltac:(lia) N1 (Y3 0 ltac:(lia))) as PL.
    destruct R2 as (_ & _ & _ & _ & V). rewrite EB in V. assert (BL : blen3 M L T t = O1 L T t (nbk L t)).
    { destruct (last_plain M L T t 0 ltac:(lia)) as [C1 C2]. destruct (plain_zero M L T t 0 ltac:(lia) ltac:(lia) C1 C2) as (_ & C3 & C4). unfold blen3, AD, RM. rewrite N1. replace 1 with (0 + 1) at 2 3 by lia. rewrite !sumf_succ by lia. rewrite !sumf_empty by lia. lia. }
    rewrite BL in V. destruct (in_block_lost L T t (sb_bits r) (sb_bits r') HL HT H ltac:(lia) HK LO (build_smpe_bytes M L T false jf m t r E) PL V) as (_ & DL & IB).
    pose proof (slack_ok _ (proj1 (proj2 m127_ok))) as SL. pose proof TP as (T1 & T2 & T3). destruct (SA 0 ltac:(lia)) as (v & (_ & V1 & V2 & V3) & EV). pose proof (SS_bound L t 1 ltac:(lia) ltac:(lia)) as S1.
    assert (X0 : zn 0 (sb_selects r') 0 = 0). { pose proof (EV 0 ltac:(lia)) as EE. change (21 * 0 + 0) with 0 in EE. rewrite EE, V1 by lia. change (2 * (16 * 0 + 0)) with (2 * 0). rewrite T2, SS_0 by lia. reflexivity. }
    assert (X1 : zn 0 (sb_selects r') 1 = SS L t 1). { pose proof (EV 1 ltac:(lia)) as EE. change (21 * 0 + 1) with 1 in EE. rewrite EE, V1 by lia. change (2 * (16 * 0 + 1)) with (2 * 1). apply T2. lia. }
    assert (X16 : zn 0 (sb_selects r') 16 = 0). { pose proof (EV 16 ltac:(lia)) as EE. change (21 * 0 + 16) with 16 in EE. rewrite EE, V2 by lia. change (32 * 0 + 1) with (2 * 0 + 1). rewrite T3 by lia. rewrite Z.min_l by lia. apply CO_0. }
    assert (X17 : first_flag M (zn 0 (sb_selects r') 17) = 0).
    { pose proof (EV 17 ltac:(lia)) as EE. change (21 * 0 + 17) with 17 in EE. rewrite EE. change 17 with (17 + 0). rewrite V3 by lia. change (0 =? 0) with true. cbv iota.
      rewrite (header_first M L T t jf temp btc 0 HL ltac:(lia) F TP BP ltac:(lia) ltac:(lia)). change (16 * 0) with 0. replace (0 =? nbk L t - 1) with true by lia. unfold lastflag. rewrite Z.mod_small by lia. replace (K t >? 0) with true by lia. destruct M; reflexivity. }
    assert (DE : DD L t 0 = SS L t 1) by (unfold DD; rewrite SS_0; change (0 + 1) with 1; lia).
    unfold select_smpe. cbv zeta. rewrite (Z.div_small (K t) L), (Z.mod_small (K t) L) by (clear - HK KL; lia). replace (K t =? 0) with false by lia. change (0 / 16) with 0. change (0 mod 16) with 0. change (0 =? 15) with false. change (0 >? 0) with false. cbv iota. change (21 * 0 + 0) with 0.
    change (21 * 0) with 0. change (0 + 1) with 1. change (0 + 16) with 16. change (0 + 17) with 17. rewrite N1 in Z1. change (1 / 16 + 1) with 1 in Z1. rewrite geti_ok by lia. cbn [bind]. rewrite X0. rewrite geti_ok by lia. cbn [bind]. rewrite X1. rewrite geti_ok by lia. cbn [bind]. rewrite X16.
    rewrite wrap_small by lia. replace (SS L t 1 - 0) with (DD L t 0) by lia. replace (DD L t 0 =? L) with false by lia.
    destruct (DD L t 0 >? T) eqn:ED.
    + cbn [bind]. unfold in_block in IB. rewrite ED in IB. exact IB.
    + rewrite geti_ok by lia. cbn [bind]. rewrite X17. unfold in_dense. destruct M; exact IB.
Qed.

(** ** The self test *)
Lemma smpe_self_test M L T jf m t buf : 1 <= L < T -> fits_fields M L T = true -> addresses_ok m -> text_ok t -> zlen t < 2 ^ 58 -> 1 <= count_true (text_bits t) ->
  overflows L T (room_of (m_addr_b m)) (text_bits t) = false -> (reads_last_flag L T (text_bits t) = true -> flag_clear M (jf (SpecText.groups L (text_bits t) - 1)) = true) ->
  (forall i, zlen (buf i) = 8) ->
  exists r, build_smpe M L T false jf m t = Ok r /\ (test_select (fun i => select_smpe M L T r (buf i) i) t = Ok [] <-> misread L (text_bits t) = false).
Proof.
  intros HL F A H Hl HK HO HC HB. destruct (smpe_select M L T jf m t HL F A H Hl HK HO HC) as (r & E & R). exists r. split; [exact E|]. rewrite select_test by exact Hl.
  split; intros X.
  - destruct (misread L (text_bits t)) eqn:Mi; [|reflexivity]. exfalso. pose proof (answer_wrong L t ltac:(lia) Mi). specialize (X (count_true (text_bits t)) ltac:(lia)). cbv beta in X. rewrite (proj2 (R _ (HB _))) in X by lia. injection X as X. lia.
  - intros k Hk. rewrite (proj2 (R _ (HB k))) by exact Hk. rewrite answer_right by (assumption || lia). reflexivity.
Qed.

(** ** The benchmark *)
Lemma bench_smpe_select M L T buf jf m dbg n t op k runs measures : 1 <= L < T -> fits_fields M L T = true -> addresses_ok m -> 193 <= n < 2 ^ 58 ->
  let B := bench_bits 64 n t in
  op <> BRank -> overflows L T (128 - (- m_addr_b m) mod 128) (reversed 8 B) = false ->
  (reads_last_flag L T (reversed 8 B) = true -> flag_clear M (jf (SpecText.groups L (reversed 8 B) - 1)) = true) -> (forall i, zlen (buf i) = 8) ->
  bench_smpe M L T buf jf m dbg n t op k runs measures = printed dbg (fun q => if q =? 0 then 2 ^ 64 - 1 else sel_answer L (reversed 8 B) q) op n (count_true B) k runs measures.
Proof.
  intros HL F A Hn. cbv zeta. intros HR HO HC HB. apply (bench_answers dbg (fun ws => build_smpe M L T false jf m (bytes_of_words ws)) (fun t i => select_smpe M L T t (buf i) i)); [exact Hn|]. set (B := bench_bits 64 n t) in *. intros ws W LW EB LB C. destruct (text_facts n t ws Hn LW EB) as (T1 & T2 & T3 & T4 & T5 & T6 & T7). fold B in T1, T7.
  destruct (smpe_select M L T jf m (bytes_of_words ws)) as (r & E & R); try rewrite T1; auto; [lia|]. rewrite T1, T7 in R. exists r. split; [exact E|]. intros q Hq [Ho|Ho]; [congruence|]. subst op.
  destruct (R (buf q) (HB q)) as [R0 R1]. destruct (q =? 0) eqn:Q; [replace q with 0 in * by lia; exact R0|]. apply R1. lia.
Qed.
Lemma bench_smpe_bad M L T buf jf m dbg n t op k runs measures : 1 <= L < T -> T < 2 ^ 32 -> addresses_ok m -> 193 <= n < 2 ^ 58 ->
  let B := bench_bits 64 n t in
  overflows L T (128 - (- m_addr_b m) mod 128) (reversed 8 B) = true -> bench_smpe M L T buf jf m dbg n t op k runs measures = Ub UB_bounds.
Proof.
  intros HL HT A Hn B HO. unfold bench_smpe. destruct (bench_start dbg (fun ws => build_smpe M L T false jf m (bytes_of_words ws)) (fun t i => select_smpe M L T t (buf i) i) (fun t i => select_smpe M L T t (buf i) i) n t op k runs measures Hn) as (ws & W & LW & EB & LB & C & HM & E). cbv zeta in *. rewrite E.
  destruct (text_facts n t ws Hn LW EB) as (T1 & T2 & T3 & T4 & T5 & T6 & T7). fold B in T1, T7. pose proof (smpe_undefined M L T false jf m (bytes_of_words ws) HL HT A T2 T3) as U. rewrite T1, T7 in U. cbn [orb] in U.
  destruct ((count_true B =? 0) || overflows L T (room_of (m_addr_b m)) (reversed 8 B)) eqn:X; [rewrite U; reflexivity|]. exfalso. change (128 - (- m_addr_b m) mod 128) with (room_of (m_addr_b m)) in HO. rewrite HO in X. rewrite orb_true_r in X. discriminate.
Qed.
