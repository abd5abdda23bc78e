(** Alignment of the reads of the select structures with 32-bit counters. *)
From Coq Require Import ZifyBool.
From Verif Require Import Base BaseFacts Mem MemFacts Words WordFacts BlockFacts NodeFacts Trees TreeBuild Spec BitmapFacts ProgramFacts KernelFacts SpecPoppy PoppyFacts PoppyFacts2 SpecText SpecSel32 MrRank MrRankFacts MrRankFacts2 MrRankFacts3 MrRankProps MrSelect MrSelectFacts MrSelectFacts2 MrSelectFacts3 MrSelectFacts4 MrSelectFacts5 MrSelectFacts6 MrSelectProps MrMpe SpecSmpe SpecSmpe32 MrMpeFacts MrMpeFacts2 MrMpeFacts3 MrMpeFacts5 MrRank32 MrRank32Facts2 MrMpe32 MrSelect32 MrSelect32Facts MrSelect32Facts2 MrSelect32Facts3 MrSelect32Facts4 MrSelect32Facts5 MrSelect32Facts6 MrSmpe MrSmpeFacts MrSmpeFacts2 MrSmpeFacts3 MrSmpeFacts4 MrSmpeFacts5 MrSmpeFacts6 MrSmpeFacts7 MrSmpeProps MrSmpe32 MrSmpe32Facts MrSmpe32Facts2 MrSmpe32Facts3 MrSmpe32Facts4 MrSmpe32Facts5 MrSmpe32Facts6 MrSmpe32Facts7 SpecAlign MrAlign MrAlignFacts SpecAlign32 MrAlign32.
Ltac Zify.zify_post_hook ::= Z.div_mod_to_equations.

(** ** Blocks *)
Lemma word_loop_al32_eq bits fuel : forall j diff p i s, p mod 8 = 0 -> word_loop_al32 bits fuel j diff p i s = word_loop32 bits fuel j diff p i s.
Proof.
  induction fuel as [|f IH]; intros j diff p i s Hp; [reflexivity|]. cbn [word_loop_al32 word_loop32]. destruct (j <? diff); [|reflexivity].
  unfold load_al. change (Z.of_nat 8) with 8. replace (p mod 8 =? 0) with true by lia. destruct (load 8 bits p) as [w| |]; cbn [bind]; [|reflexivity..]. destruct (popcount w >=? i); [reflexivity|]. apply IH. lia.
Qed.
Lemma mod4_offset off i : (off + u32 (4 * (i - 1))) mod 4 = off mod 4.
Proof. unfold wrap. lia. Qed.
Lemma in_block_al32_eq th bits off diff i s : in_block_al32 th bits off diff i s =
  if (if diff >? th then negb (off mod 4 =? 0) else (diff >? 64) && negb (off mod 8 =? 0)) then Ub UB_align else in_block32 th bits off diff i s.
Proof.
  unfold in_block_al32, in_block32. destruct (diff >? th) eqn:E.
  - unfold load_al. change (Z.of_nat 4) with 4. rewrite mod4_offset. destruct (off mod 4 =? 0); reflexivity.
  - destruct (off mod 8 =? 0) eqn:O; cbn [negb].
    + rewrite andb_false_r. rewrite word_loop_al32_eq by lia. reflexivity.
    + rewrite andb_true_r. cbn [word_loop_al32 word_loop32]. destruct (diff >? 64) eqn:D.
      * replace (64 <? diff) with true by lia. unfold load_al. change (Z.of_nat 8) with 8. rewrite O. reflexivity.
      * replace (64 <? diff) with false by lia. reflexivity.
Qed.

(** ** Offsets *)
Lemma full_ww32 L T t c : 1 <= L -> 0 <= c < nbk L t - 1 -> full_bytes32 L T (text_bits t) c = ww32 L T t c.
Proof.
  intros HL Hc. unfold full_bytes32, ww32. rewrite span_DD by lia. assert (FU : fullb L t c = true) by (apply full_iff; lia). pose proof (DD_pos L t c ltac:(lia) ltac:(lia)).
  unfold ee. rewrite FU. destruct (DD L t c >? T); [reflexivity|]. destruct (DD L t c =? L); [reflexivity|]. rewrite up8_div by lia. f_equal. lia.
Qed.
Lemma offset_OO32 L T t c : 1 <= L -> 0 <= c < nbk L t -> group_offset32 L T (text_bits t) c = OO32 L T t c.
Proof. intros HL Hc. apply sumf_ext. intros j Hj. apply full_ww32; lia. Qed.
Lemma offset_CO32 M L T t c : 1 <= L < T -> zlen t < 2 ^ 58 -> 0 <= c < nbk L t -> group_offset32 L T (text_bits t) c - sumf (group_saved M L T (text_bits t)) 0 c = CO32 M L T t c.
Proof.
  intros HL Hl Hc. rewrite offset_OO32 by lia. unfold OO32, CO32. rewrite <- sumf_sub. apply sumf_ext. intros j Hj. rewrite saved_cw by lia. unfold cw32. lia.
Qed.

(** ** SelectBasic32 *)
Lemma select_std_al32_eq L T m t r k : 1 <= L < T -> T <= 2 ^ 32 - 64 -> addresses_ok m -> zlen t < 2 ^ 29 -> nbk L t < 2 ^ 31 - 17 -> selP32 L T m t r -> 1 <= k <= K t ->
  select_std_al32 L T r k = if misaligned32 L T (text_bits t) k then Ub UB_align else select_std32 L T r k.
Proof.
  intros HL HT (A1 & A2 & A3 & A4) Hl HN (Z1 & B2 & B3 & B4 & B5 & _) Hk. unfold select_std_al32, select_std32, misaligned32. pose proof (slack32_ok _ A2) as SL.
  destruct (div_parts k L ltac:(lia) ltac:(lia)) as (D1 & D2 & D3). destruct (k mod L =? 0) eqn:E.
  - cbn [negb andb]. reflexivity.
  - pose proof (start_inner L t k ltac:(lia) Hk ltac:(lia)) as C. rewrite span_DD, offset_OO32 by lia. set (c := k / L) in *. set (i := k mod L) in *. clearbody c i.
    rewrite (wrap_small 32 (2 * c)), (wrap_small 32 (2 * c + 2)), (wrap_small 32 (2 * c + 1)) by lia.
    rewrite geti_ok by lia. cbn [bind]. rewrite geti_ok by lia. cbn [bind]. replace (2 * c + 2) with (2 * (c + 1)) by lia. rewrite !B2 by lia. fold (DD L t c).
    pose proof (SS_bound L t c ltac:(lia) ltac:(lia)) as SB. pose proof (DD_pos L t c ltac:(lia) C). pose proof (DD_le L t c ltac:(lia) C).
    rewrite (wrap_small 32 (DD L t c)) by lia. destruct (DD L t c =? L); [reflexivity|]. cbn [negb andb]. rewrite geti_ok by lia. cbn [bind]. rewrite B3 by lia. apply in_block_al32_eq.
Qed.
Lemma select_bch_al32_eq L T m t r k : 1 <= L -> arguments_ok32 true L T = true -> zlen t < 2 ^ 29 -> nbk L t < 2 ^ 31 - 17 -> addresses_ok m -> selbP32 L T m t r -> 1 <= k <= K t ->
  select_bch_al32 L T r k = if misaligned32 L T (text_bits t) k then Ub UB_align else select_bch32 L T r k.
Proof.
  intros HL0 AR Hl HN (A1 & A2 & A3 & A4) (temp & B2 & B3 & B4 & B5 & SA & Z1 & _) Hk. destruct (args_bounds32 L T HL0 AR) as (AB1 & AB2 & AB3). assert (HL : 1 <= L < T) by lia.
  unfold select_bch_al32, select_bch32, misaligned32. pose proof (slack32_ok _ A2) as SL.
  assert (HD : forall c, 0 <= c <= nbk L t -> u32 (25 * (c / 16)) = 25 * (c / 16) /\ geti (sb_selects r) (25 * (c / 16) + c mod 16) = Ok (SS L t c)).
  { intros c Hc. split; [apply wrap_small; lia|]. rewrite geti_ok by lia. destruct (SA (c / 16) ltac:(lia)) as (v & (_ & V1 & _) & W). rewrite W, V1 by lia. f_equal. rewrite <- B2 by lia. do 2 f_equal. lia. }
  destruct (div_parts k L ltac:(lia) ltac:(lia)) as (D1 & D2 & D3). destruct (k mod L =? 0) eqn:E.
  - cbn [negb andb]. reflexivity.
  - pose proof (start_inner L t k ltac:(lia) Hk ltac:(lia)) as C. rewrite span_DD, offset_OO32 by lia. set (c := k / L) in *. set (i := k mod L) in *. clearbody c i.
    destruct (HD c ltac:(lia)) as [U G]. rewrite U, G. cbn [bind].
    replace (if c mod 16 =? 15 then 25 * (c / 16) + 25 else 25 * (c / 16) + (c mod 16 + 1)) with (25 * ((c + 1) / 16) + (c + 1) mod 16) by (destruct (c mod 16 =? 15) eqn:E15; lia).
    destruct (HD (c + 1) ltac:(lia)) as [_ ->]. cbn [bind]. fold (DD L t c).
    pose proof (SS_bound L t c ltac:(lia) ltac:(lia)) as SB. pose proof (DD_pos L t c ltac:(lia) C). pose proof (DD_le L t c ltac:(lia) C).
    rewrite (wrap_small 32 (DD L t c)) by lia. destruct (DD L t c =? L); [reflexivity|]. cbn [negb andb].
    + clear U G. destruct (SA (c / 16) ltac:(lia)) as (v & (_ & V1 & V2 & V3) & W). set (s := c / 16) in *. set (f := c mod 16) in *. assert (CF : c = 16 * s + f) by lia. assert (F16 : 0 <= f < 16) by lia. assert (S0 : 0 <= s) by lia.
      assert (SN : s <= nbk L t / 16) by lia. clearbody s f. rewrite geti_ok by lia. cbn [bind]. rewrite W, V2 by lia. replace (32 * s + 1) with (2 * (16 * s) + 1) by lia. rewrite B3 by lia.
      assert (OF : forall n, 0 <= n <= f -> 0 <= OO32 L T t (16 * s + n) - OO32 L T t (16 * s) <= 65535).
      { intros n Hn. pose proof (OO32_near L T t (16 * s) n ltac:(lia) AR ltac:(lia) ltac:(lia) ltac:(lia)). lia. }
      assert (DE : forall j, 0 <= j < f -> delta32 temp s j = OO32 L T t (16 * s + j + 1) - OO32 L T t (16 * s)).
      { intros j Hj. unfold delta32. rewrite B3 by lia. replace (32 * s + 1) with (2 * (16 * s) + 1) by lia. rewrite B3 by lia. apply wrap_small.
        specialize (OF (j + 1) ltac:(lia)). replace (16 * s + (j + 1)) with (16 * s + j + 1) in OF by lia. lia. }
      pose proof (OO32_nonneg L T t (16 * s) ltac:(lia) ltac:(lia)) as ON. pose proof (OF f ltac:(lia)) as OFf. rewrite <- CF in OFf.
      assert (OB : OO32 L T t c < 2 ^ 32) by (pose proof (OO32_mono L T t c (nbk L t) ltac:(lia) ltac:(lia) ltac:(lia)); lia).
      match goal with |- bind ?e _ = (if _ then _ else bind ?e _) => replace e with (Ok (OO32 L T t c)) end.
      * cbn [bind]. apply in_block_al32_eq.
      * destruct (f >? 0) eqn:E0.
        -- rewrite geti_ok by lia. cbn [bind]. replace (25 * s + (16 + (f + 1) / 2)) with (25 * s + (17 + (f - 1) / 2)) by (clear - F16 E0; lia). rewrite W, V3 by lia.
           pose proof (get_delta32 temp s (f - 1) ltac:(lia) ltac:(intros j' Hj'; rewrite DE by lia; specialize (OF (j' + 1) ltac:(lia)); replace (16 * s + (j' + 1)) with (16 * s + j' + 1) in OF by lia; lia)) as GD. cbv zeta in GD.
           rewrite DE in GD by lia. replace (16 * s + (f - 1) + 1) with c in GD by lia. set (wd := deltas32 _ _ _ _) in *. clearbody wd.
           replace (f mod 2 =? 1) with ((f - 1) mod 2 =? 0) by (clear - F16; lia). rewrite GD. f_equal. rewrite wrap_small by lia. lia.
        -- f_equal. f_equal. lia.
Qed.

(** ** SelectMPE32 *)
Lemma in_dense_al32_eq M fl th bits buf p diff i s : (diff >? th) = false -> in_dense_al32 M (read_flag M fl) th bits buf p diff i s =
  if (diff >? 64) && negb (negb (read_flag M fl =? 0)) && negb (p mod 8 =? 0) then Ub UB_align else in_dense32 M (read_flag M fl) th bits buf p diff i s.
Proof.
  intros E. unfold in_dense_al32, in_dense32. rewrite !in_block_al32_eq, E. rewrite negb_involutive. unfold read_flag. destruct M.
  - destruct (fl =? 0); cbn; [rewrite andb_true_r|rewrite andb_false_r]; reflexivity.
  - assert (0 <= fl mod 4 < 4) by lia. set (x := fl mod 4) in *. clearbody x. assert (X : x = 0 \/ x = 1 \/ x = 2 \/ x = 3) by lia. destruct X as [->|[->|[->| ->]]]; cbn; rewrite ?andb_true_r, ?andb_false_r; reflexivity.
  - assert (0 <= fl mod 4 < 4) by lia. set (x := fl mod 4) in *. clearbody x. assert (X : x = 0 \/ x = 1 \/ x = 2 \/ x = 3) by lia. destruct X as [->|[->|[->| ->]]]; cbn; rewrite ?andb_true_r, ?andb_false_r; reflexivity.
Qed.
Lemma select_smpe_al32_eq M L T jf m t r buf k : 1 <= L < T -> fits_fields32 M L T = true -> zlen t < 2 ^ 29 -> nbk L t < 2 ^ 31 - 17 -> addresses_ok m -> smpeP32 M L T jf m t r -> (1 < L -> last_ok32 M L T t jf) -> zlen buf = 8 -> 1 <= k <= K t ->
  select_smpe_al32 M L T r buf k = if misaligned_mpe32 M L T (text_bits t) k then Ub UB_align else select_smpe32 M L T r buf k.
Proof.
  intros HL F Hl HN (A1 & A2 & A3 & A4) (temp & btc & TP & BP & YP & SA & Z1 & _) LO Hb Hk.
  unfold select_smpe_al32, select_smpe32, misaligned_mpe32. pose proof (slack32_ok _ A2) as SL. pose proof TP as (T1 & T2 & T3).
  assert (HD : forall c, 0 <= c <= nbk L t -> geti (sb_selects r) (25 * (c / 16) + c mod 16) = Ok (SS L t c)).
  { intros c Hc. rewrite geti_ok by (clear - Hc Z1 SL; lia). destruct (SA (c / 16) ltac:(clear - Hc; lia)) as (v & (_ & V1 & _) & W). rewrite W, V1 by (clear; lia). f_equal. rewrite <- T2 by lia. do 2 f_equal. clear. lia. }
  assert (HU : forall c, 0 <= c <= nbk L t -> u32 (25 * (c / 16)) = 25 * (c / 16)) by (intros c Hc; apply wrap_small; clear - Hc HN; lia).
  destruct (div_parts k L ltac:(lia) ltac:(lia)) as (D1 & D2 & D3). destruct (k mod L =? 0) eqn:E.
  - cbn [negb andb]. reflexivity.
  - destruct (LO ltac:(clear - D1 D2 D3 E; lia)) as (LO1 & LO2). pose proof (start_inner L t k ltac:(lia) Hk ltac:(lia)) as C. rewrite span_DD, offset_CO32, compressed_flag by lia. set (c := k / L) in *. set (i := k mod L) in *. clearbody c i.
    rewrite HU, HD by lia. cbn [bind].
    replace (if c mod 16 =? 15 then 25 * (c / 16) + 25 else 25 * (c / 16) + c mod 16 + 1) with (25 * ((c + 1) / 16) + (c + 1) mod 16) by (clear; destruct (c mod 16 =? 15) eqn:E15; lia).
    rewrite HD by lia. cbn [bind]. fold (DD L t c).
    pose proof (SS_bound L t c ltac:(lia) ltac:(lia)) as SB. pose proof (DD_pos L t c ltac:(lia) C) as DP. pose proof (DD_le L t c ltac:(lia) C) as DL.
    rewrite (wrap_small 32 (DD L t c)) by lia. rewrite (mono_flag L T t c HL C). destruct (mo L T t c) eqn:EM; [reflexivity|]. cbn [negb andb].
    + destruct (SA (c / 16) ltac:(clear - C; lia)) as (v & (_ & V1 & V2 & V3) & W). set (s := c / 16) in *. set (f := c mod 16) in *. assert (CF : c = 16 * s + f) by (unfold s, f; clear; lia). assert (F16 : 0 <= f < 16) by (unfold f; clear; lia). assert (S0 : 0 <= s) by (unfold s; clear - C; lia).
      assert (SN : s <= nbk L t / 16) by (unfold s; clear - C; lia). assert (FM : c = nbk L t - 1 -> f = (nbk L t - 1) mod 16) by (unfold f; intros ->; reflexivity). clearbody s f. rewrite geti_ok by (clear - Z1 SL SN S0; lia). cbn [bind]. rewrite W, V2 by lia. replace (32 * s + 1) with (2 * (16 * s) + 1) by lia.
      rewrite T3 by (clear - SN S0; lia). rewrite Z.min_l by lia.
      set (fl := if 16 * s + f =? nbk L t - 1 then lastflag L t jf else flagv M L T t (16 * s + f)) in *.
      assert (CB : 0 <= CO32 M L T t (16 * s) <= CO32 M L T t c /\ CO32 M L T t c < 2 ^ 32).
      { pose proof (CO32_nonneg M L T t (16 * s) ltac:(lia) Hl ltac:(lia)). pose proof (CO32_mono M L T t (16 * s) c ltac:(lia) Hl ltac:(lia) ltac:(lia)). pose proof (CO32_mono M L T t c (nbk L t) ltac:(lia) Hl ltac:(lia) ltac:(lia)).
        destruct YP as (_ & Y2 & _). lia. }
      assert (HW : forall q, 0 <= q < 8 -> geti (sb_selects r) (25 * s + 17 + q) = Ok (fieldw32 (xat32 M jf temp btc s) q (if q =? 0 then hof M (btcv jf btc (16 * s)) else 0))).
      { intros q Hq. rewrite geti_ok by (clear - Z1 SL SN S0 Hq; lia). f_equal. replace (25 * s + 17 + q) with (25 * s + (17 + q)) by lia. rewrite W by lia. apply V3. exact Hq. }
      assert (FLc : (c < nbk L t - 1 -> read_flag M fl = flagv M L T t c) /\ (c = nbk L t - 1 -> fl = lastflag L t jf)).
      { unfold fl. rewrite <- CF. split; intros Q; [replace (c =? nbk L t - 1) with false by lia; apply flagv_bound|replace (c =? nbk L t - 1) with true by lia; reflexivity]. }
      destruct FLc as [FL1 FL2].
      assert (OI : i <= ones_in L t c).
      { unfold ones_in. destruct (fullb L t c) eqn:FB; [lia|]. destruct (not_full_last L t c ltac:(lia) C FB) as (_ & _ & X & _). lia. }
      assert (SPF : sp L T t c = true -> f <= 2 \/ read_flag M fl = 0).
      { intros ES. destruct (Z_le_gt_dec f 2) as [Q|Q]; [left; exact Q|right]. destruct (Z.eq_dec c (nbk L t - 1)) as [EL|NL].
        - rewrite FL2 by auto. apply LO2; [rewrite <- EL; exact ES|]. rewrite <- FM by auto. lia.
        - rewrite FL1 by lia. destruct (not_de M L T t c (sp_de L T t c ES)) as [N1 N2]. apply plain_zero; auto; lia. }
      change (DD L t c >? T) with (sp L T t c). destruct (sp L T t c) eqn:ES.
      * match goal with |- bind ?e _ = (if _ then _ else bind ?e _) => replace e with (Ok (CO32 M L T t c)) end.
        -- cbn [bind]. unfold load_al. change (Z.of_nat 4) with 4. rewrite mod4_offset. destruct (CO32 M L T t c mod 4 =? 0); reflexivity.
        -- destruct (f >? 0) eqn:E0; [|f_equal; f_equal; lia].
           replace (25 * s + 16 + (f + 1) / 2) with (25 * s + 17 + (f - 1) / 2) by (clear - F16 E0; lia). rewrite HW by (clear - F16 E0; lia). cbn [bind].
           destruct (header_field32 M L T t jf temp btc s f _ HL Hl F TP BP S0 ltac:(lia) ltac:(lia) eq_refl) as [_ Q]. fold fl in Q. rewrite Q by (apply SPF; reflexivity). rewrite <- CF. f_equal. rewrite wrap_small by lia. lia.
      * match goal with |- bind ?e _ = (if _ then _ else bind ?e _) => replace e with (Ok (CO32 M L T t c, read_flag M fl)) end.
        -- cbn [bind]. assert (RF : (flagv M L T t c =? 0) = (read_flag M fl =? 0)).
           { destruct (Z.eq_dec c (nbk L t - 1)) as [EL|NL]; [|rewrite FL1 by lia; reflexivity]. rewrite FL2 by auto. rewrite LO1 by (rewrite <- EL; unfold de; rewrite ES, EM; reflexivity).
             destruct (last_plain M L T t c ltac:(lia)) as [N1 N2]. unfold flagv. rewrite N1, N2. destruct M; reflexivity. }
           rewrite RF. apply in_dense_al32_eq. exact ES.
        -- destruct (f >? 0) eqn:E0.
           ++ replace (25 * s + 16 + (f + 1) / 2) with (25 * s + 17 + (f - 1) / 2) by (clear - F16 E0; lia). rewrite HW by (clear - F16 E0; lia). cbn [bind].
              destruct (header_field32 M L T t jf temp btc s f _ HL Hl F TP BP S0 ltac:(lia) ltac:(lia) eq_refl) as [Q _]. fold fl in Q. rewrite Q. rewrite <- CF. f_equal. f_equal. rewrite wrap_small by lia. lia.
           ++ replace (25 * s + 17) with (25 * s + 17 + 0) by lia. rewrite HW by lia. cbn [bind]. change (0 =? 0) with true. cbv iota. rewrite (header_first32 M L T t jf temp btc s HL Hl F TP BP S0 ltac:(lia)).
              assert (f = 0) by lia. subst f. unfold fl. rewrite Z.add_0_r in *. rewrite CF. reflexivity.
Qed.
