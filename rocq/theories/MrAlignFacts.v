(** Alignment of the 64-bit reads of the select structures. *)
From Coq Require Import ZifyBool.
From Verif Require Import Base BaseFacts Mem MemFacts Words WordFacts BlockFacts NodeFacts Trees TreeBuild Spec BitmapFacts ProgramFacts KernelFacts SpecPoppy PoppyFacts PoppyFacts2 SpecText MrRank MrRankFacts MrRankFacts2 MrRankFacts3 MrRankProps MrSelect MrSelectFacts MrSelectFacts2 MrSelectFacts3 MrSelectFacts4 MrSelectFacts5 MrSelectFacts6 MrSelectProps MrMpe SpecSmpe MrMpeFacts MrMpeFacts2 MrMpeFacts3 MrMpeFacts5 MrSmpe MrSmpeFacts MrSmpeFacts2 MrSmpeFacts3 MrSmpeFacts4 MrSmpeFacts5 MrSmpeFacts6 MrSmpeFacts7 MrSmpeProps SpecAlign MrAlign.
Ltac Zify.zify_post_hook ::= Z.div_mod_to_equations.

(** ** Blocks *)
Lemma load_word_al bits p : load_word true bits p = if p mod 8 =? 0 then load 8 bits p else Ub UB_align.
Proof. unfold load_word. destruct (p mod 8 =? 0); reflexivity. Qed.
Lemma word_loop_al_eq bits fuel : forall j diff p i s, p mod 8 = 0 -> word_loop_al bits fuel j diff p i s = word_loop bits fuel j diff p i s.
Proof.
  induction fuel as [|f IH]; intros j diff p i s Hp; [reflexivity|]. cbn [word_loop_al word_loop]. destruct (j <? diff); [|reflexivity].
  rewrite load_word_al. replace (p mod 8 =? 0) with true by lia. destruct (load 8 bits p) as [w| |]; cbn [bind]; [|reflexivity..]. destruct (popcount w >=? i); [reflexivity|]. apply IH. lia.
Qed.
Lemma in_block_al_eq th bits off diff i s : in_block_al th bits off diff i s =
  if ((diff >? th) || (diff >? 64)) && negb (off mod 8 =? 0) then Ub UB_align else in_block th bits off diff i s.
Proof.
  unfold in_block_al, in_block. destruct (diff >? th) eqn:E; cbn [orb andb].
  - rewrite load_word_al. replace ((off + 8 * (i - 1)) mod 8) with (off mod 8) by lia. destruct (off mod 8 =? 0); reflexivity.
  - destruct (off mod 8 =? 0) eqn:O; cbn [negb].
    + rewrite andb_false_r. rewrite word_loop_al_eq by lia. reflexivity.
    + rewrite andb_true_r. cbn [word_loop_al word_loop]. destruct (diff >? 64) eqn:D.
      * replace (64 <? diff) with true by lia. rewrite load_word_al, O. reflexivity.
      * replace (64 <? diff) with false by lia. reflexivity.
Qed.

(** ** Offsets *)
Lemma full_ww L T t c : 1 <= L -> 0 <= c < nbk L t - 1 -> full_bytes L T (text_bits t) c = ww L T t c.
Proof.
  intros HL Hc. unfold full_bytes, ww. rewrite span_DD by lia. assert (FU : fullb L t c = true) by (apply full_iff; lia). pose proof (DD_pos L t c ltac:(lia) ltac:(lia)).
  unfold ee. rewrite FU. destruct (DD L t c >? T); [reflexivity|]. destruct (DD L t c =? L); [reflexivity|]. rewrite up8_div by lia. f_equal. lia.
Qed.
Lemma offset_OO L T t c : 1 <= L -> 0 <= c < nbk L t -> group_offset L T (text_bits t) c = OO L T t c.
Proof. intros HL Hc. apply sumf_ext. intros j Hj. apply full_ww; lia. Qed.
Lemma offset_CO M L T t c : 1 <= L < T -> zlen t < 2 ^ 58 -> 0 <= c < nbk L t -> group_offset L T (text_bits t) c - sumf (group_saved M L T (text_bits t)) 0 c = CO M L T t c.
Proof.
  intros HL Hl Hc. rewrite offset_OO by lia. unfold OO, CO. rewrite <- sumf_sub. apply sumf_ext. intros j Hj. rewrite saved_cw by lia. unfold cw. lia.
Qed.
Lemma compressed_flag M L T t c : 1 <= L < T -> zlen t < 2 ^ 58 -> 0 <= c < nbk L t -> group_compressed M L T (text_bits t) c = negb (flagv M L T t c =? 0).
Proof.
  intros HL Hl Hc. unfold group_compressed. rewrite groups_nbk, span_DD by lia.
  assert (E : (DD L t c <=? T) && negb (DD L t c =? L) = de L T t c) by (unfold de, mo, sp; lia). rewrite <- (andb_assoc (c + 1 <? nbk L t)), E. clear E.
  destruct ((c + 1 <? nbk L t) && de L T t c) eqn:E; cbn [andb].
  - apply andb_prop in E. destruct E as [E1 E2]. rewrite !pairs_gn by lia. unfold table_bytes. rewrite span_DD by lia. rewrite <- tlen_eq by lia.
    unfold flagv, cz, co. rewrite E1, E2. cbn [andb]. set (n0 := gn 0 _ _). set (n1 := gn 255 _ _). set (tl := tlen L t c). clearbody n0 n1 tl. destruct M; cbn [dz3 do3].
    + destruct (n0 + n1 >? tl); reflexivity.
    + destruct (2 * n0 >? tl), (2 * n1 >? tl); reflexivity.
    + destruct ((n0 >? 9) && (n1 >? 9)); [reflexivity|]. cbn [orb]. destruct ((n0 >=? 18) && (n1 <=? 9)), ((n0 <=? 9) && (n1 >=? 18)); reflexivity.
  - assert (Q : cz M L T t c = false /\ co M L T t c = false).
    { destruct (de L T t c) eqn:D; [|apply not_de; exact D]. apply last_plain. lia. }
    destruct Q as [Q1 Q2]. unfold flagv. rewrite Q1, Q2. destruct M; reflexivity.
Qed.

(** ** SelectBasic64 *)
Lemma reads_inner L T t k : 1 <= L -> 1 <= k <= K t -> k mod L <> 0 -> 0 <= k / L < nbk L t ->
  reads_words L T (text_bits t) k = negb (DD L t (k / L) =? L) && ((DD L t (k / L) >? T) || (DD L t (k / L) >? 64)).
Proof. intros HL Hk E C. unfold reads_words. rewrite span_DD by lia. replace (k mod L =? 0) with false by lia. reflexivity. Qed.
Lemma mono_flag L T t c : 1 <= L < T -> 0 <= c < nbk L t -> (DD L t c =? L) = mo L T t c.
Proof. intros HL Hc. symmetry. unfold mo, sp. destruct (DD L t c =? L) eqn:E; [replace (DD L t c >? T) with false by lia; reflexivity|rewrite andb_false_r; reflexivity]. Qed.

Lemma select_std_al_eq L T m t r k : 1 <= L < T -> addresses_ok m -> zlen t < 2 ^ 58 -> selP L T m t r -> 1 <= k <= K t ->
  select_std_al L T r k = if misaligned L T (text_bits t) k then Ub UB_align else select_std L T r k.
Proof.
  intros HL (A1 & A2 & A3 & A4) Hl (Z1 & B2 & B3 & B4 & B5 & _) Hk. unfold select_std_al, select_std, misaligned. pose proof (slack_ok _ A2) as SL.
  destruct (div_parts k L ltac:(lia) ltac:(lia)) as (D1 & D2 & D3). destruct (k mod L =? 0) eqn:E.
  - unfold reads_words. rewrite E. reflexivity.
  - pose proof (start_inner L t k ltac:(lia) Hk ltac:(lia)) as C. rewrite reads_inner, offset_OO by lia. set (c := k / L) in *. set (i := k mod L) in *. clearbody c i.
    rewrite geti_ok by lia. cbn [bind]. rewrite geti_ok by lia. cbn [bind]. replace (2 * c + 2) with (2 * (c + 1)) by lia. rewrite !B2 by lia. fold (DD L t c).
    pose proof (SS_bound L t c ltac:(lia) ltac:(lia)) as SB. pose proof (DD_pos L t c ltac:(lia) C). pose proof (DD_le L t c ltac:(lia) C).
    rewrite (wrap_small 64 (DD L t c)) by lia. destruct (DD L t c =? L); [reflexivity|]. cbn [negb andb].
    rewrite geti_ok by lia. cbn [bind]. rewrite B3 by lia. apply in_block_al_eq.
Qed.
Lemma select_bch_al_eq L T m t r k : 1 <= L -> arguments_ok true L T = true -> zlen t < 2 ^ 58 -> addresses_ok m -> selbP L T m t r -> 1 <= k <= K t ->
  select_bch_al L T r k = if misaligned L T (text_bits t) k then Ub UB_align else select_bch L T r k.
Proof.
  intros HL0 AR Hl (A1 & A2 & A3 & A4) (temp & B2 & B3 & B4 & B5 & SA & Z1 & _) Hk. destruct (args_bounds L T HL0 AR) as (AB1 & AB2 & AB3). assert (HL : 1 <= L < T) by lia.
  unfold select_bch_al, select_bch, misaligned. pose proof (slack_ok _ A2) as SL.
  assert (HD : forall c, 0 <= c <= nbk L t -> geti (sb_selects r) (21 * (c / 16) + c mod 16) = Ok (SS L t c)).
  { intros c Hc. rewrite geti_ok by lia. destruct (SA (c / 16) ltac:(lia)) as (v & (_ & V1 & _) & W). rewrite W, V1 by lia. f_equal. rewrite <- B2 by lia. do 2 f_equal. lia. }
  destruct (div_parts k L ltac:(lia) ltac:(lia)) as (D1 & D2 & D3). destruct (k mod L =? 0) eqn:E.
  - unfold reads_words. rewrite E. reflexivity.
  - pose proof (start_inner L t k ltac:(lia) Hk ltac:(lia)) as C. rewrite reads_inner, offset_OO by lia. set (c := k / L) in *. set (i := k mod L) in *. clearbody c i.
    rewrite HD by lia. cbn [bind].
    replace (if c mod 16 =? 15 then 21 * (c / 16) + 21 else 21 * (c / 16) + c mod 16 + 1) with (21 * ((c + 1) / 16) + (c + 1) mod 16) by (destruct (c mod 16 =? 15) eqn:E15; lia).
    rewrite HD by lia. cbn [bind]. fold (DD L t c).
    pose proof (SS_bound L t c ltac:(lia) ltac:(lia)) as SB. pose proof (DD_pos L t c ltac:(lia) C). pose proof (DD_le L t c ltac:(lia) C).
    rewrite (wrap_small 64 (DD L t c)) by lia. destruct (DD L t c =? L); [reflexivity|]. cbn [negb andb].
    + destruct (SA (c / 16) ltac:(lia)) as (v & (_ & V1 & V2 & V3) & W). set (s := c / 16) in *. set (f := c mod 16) in *. assert (CF : c = 16 * s + f) by lia. assert (F16 : 0 <= f < 16) by lia. assert (S0 : 0 <= s) by lia.
      assert (SN : s <= nbk L t / 16) by lia. clearbody s f. rewrite geti_ok by lia. cbn [bind]. rewrite W, V2 by lia. replace (32 * s + 1) with (2 * (16 * s) + 1) by lia. rewrite B3 by lia.
      assert (OF : forall n, 0 <= n <= f -> 0 <= OO L T t (16 * s + n) - OO L T t (16 * s) <= 65535).
      { intros n Hn. pose proof (OO_near L T t (16 * s) n ltac:(lia) AR ltac:(lia) ltac:(lia) ltac:(lia)). lia. }
      assert (DE : forall j, 0 <= j < f -> delta temp s j = OO L T t (16 * s + j + 1) - OO L T t (16 * s)).
      { intros j Hj. unfold delta. rewrite B3 by lia. replace (32 * s + 1) with (2 * (16 * s) + 1) by lia. rewrite B3 by lia. apply wrap_small.
        specialize (OF (j + 1) ltac:(lia)). replace (16 * s + (j + 1)) with (16 * s + j + 1) in OF by lia. lia. }
      pose proof (OO_nonneg L T t (16 * s) ltac:(lia) ltac:(lia)) as ON. pose proof (OF f ltac:(lia)) as OFf. rewrite <- CF in OFf.
      assert (OB : OO L T t c < 2 ^ 64).
      { pose proof (OO_mono L T t c (nbk L t) ltac:(lia) ltac:(lia) ltac:(lia)). pose proof (O1_bound L T t (nbk L t) HL ltac:(lia)). pose proof (SS_bound L t (nbk L t) ltac:(lia) ltac:(lia)).
        destruct (tight L T t) eqn:TI; [destruct (tight_sizes L T t HL TI) as (T1 & T2 & T3); pose proof (K_bound t); rewrite T1 in *; lia|].
        pose proof (fits_all L T t HL TI (nbk L t) ltac:(lia)). lia. }
      match goal with |- bind ?e _ = (if _ then _ else bind ?e _) => replace e with (Ok (OO L T t c)) end.
      * cbn [bind]. apply in_block_al_eq.
      * destruct (f >? 0) eqn:E0.
        -- rewrite geti_ok by lia. cbn [bind]. replace (21 * s + 16 + (f + 3) / 4) with (21 * s + (17 + (f - 1) / 4)) by (clear - F16 E0; lia). rewrite W, V3 by lia.
           pose proof (get_delta temp s (f - 1) ltac:(lia) ltac:(intros j' Hj'; rewrite DE by lia; specialize (OF (j' + 1) ltac:(lia)); replace (16 * s + (j' + 1)) with (16 * s + j' + 1) in OF by lia; lia)) as GD.
           rewrite DE in GD by lia. replace (16 * s + (f - 1) + 1) with c in GD by lia. set (wd := deltas _ _ _ _) in *. clearbody wd. unfold get_lane in GD.
           match goal with |- context [u64 (_ + ?X)] => replace X with (OO L T t c - OO L T t (16 * s)) end.
           { f_equal. rewrite wrap_small by lia. lia. }
           rewrite <- GD. assert (CC : f mod 4 = 0 \/ f mod 4 = 1 \/ f mod 4 = 2 \/ f mod 4 = 3) by lia. destruct CC as [CC|[CC|[CC|CC]]]; rewrite CC.
           ++ replace ((f - 1) mod 4) with 3 by (clear - CC F16; lia). reflexivity.
           ++ replace ((f - 1) mod 4) with 0 by (clear - CC F16; lia). reflexivity.
           ++ replace ((f - 1) mod 4) with 1 by (clear - CC F16; lia). reflexivity.
           ++ replace ((f - 1) mod 4) with 2 by (clear - CC F16; lia). reflexivity.
        -- f_equal. f_equal. lia.
Qed.

(** ** SelectMPE64 *)
Lemma in_dense_al_eq M fl th bits buf p diff i s : (diff >? th) = false -> in_dense_al M (read_flag M fl) th bits buf p diff i s =
  if (diff >? 64) && negb (negb (read_flag M fl =? 0)) && negb (p mod 8 =? 0) then Ub UB_align else in_dense M (read_flag M fl) th bits buf p diff i s.
Proof.
  intros E. unfold in_dense_al, in_dense. rewrite !in_block_al_eq, E. cbn [orb]. rewrite negb_involutive. unfold read_flag. destruct M.
  - destruct (fl =? 0); cbn; [rewrite andb_true_r|rewrite andb_false_r]; reflexivity.
  - assert (0 <= fl mod 4 < 4) by lia. set (x := fl mod 4) in *. clearbody x. assert (X : x = 0 \/ x = 1 \/ x = 2 \/ x = 3) by lia. destruct X as [->|[->|[->| ->]]]; cbn; rewrite ?andb_true_r, ?andb_false_r; reflexivity.
  - assert (0 <= fl mod 4 < 4) by lia. set (x := fl mod 4) in *. clearbody x. assert (X : x = 0 \/ x = 1 \/ x = 2 \/ x = 3) by lia. destruct X as [->|[->|[->| ->]]]; cbn; rewrite ?andb_true_r, ?andb_false_r; reflexivity.
Qed.
Lemma select_smpe_al_eq M L T jf m t r buf k : 1 <= L < T -> fits_fields M L T = true -> zlen t < 2 ^ 58 -> addresses_ok m -> smpeP M L T jf m t r -> (1 < L -> last_ok M L T t jf) -> zlen buf = 8 -> 1 <= k <= K t ->
  select_smpe_al M L T r buf k = if misaligned_mpe M L T (text_bits t) k then Ub UB_align else select_smpe M L T r buf k.
Proof.
  intros HL F Hl (A1 & A2 & A3 & A4) (temp & btc & TP & BP & YP & SA & Z1 & _) LO Hb Hk.
  unfold select_smpe_al, select_smpe, misaligned_mpe. pose proof (slack_ok _ A2) as SL. pose proof TP as (T1 & T2 & T3).
  assert (HD : forall c, 0 <= c <= nbk L t -> geti (sb_selects r) (21 * (c / 16) + c mod 16) = Ok (SS L t c)).
  { intros c Hc. rewrite geti_ok by (clear - Hc Z1 SL; lia). destruct (SA (c / 16) ltac:(clear - Hc; lia)) as (v & (_ & V1 & _) & W). rewrite W, V1 by (clear; lia). f_equal. rewrite <- T2 by lia. do 2 f_equal. clear. lia. }
  destruct (div_parts k L ltac:(lia) ltac:(lia)) as (D1 & D2 & D3). destruct (k mod L =? 0) eqn:E.
  - unfold reads_words. rewrite E. reflexivity.
  - destruct (LO ltac:(clear - D1 D2 D3 E; lia)) as (LO1 & LO2). pose proof (start_inner L t k ltac:(lia) Hk ltac:(lia)) as C. rewrite reads_inner, offset_CO, compressed_flag by lia. set (c := k / L) in *. set (i := k mod L) in *. clearbody c i.
    rewrite HD by lia. cbn [bind].
    replace (if c mod 16 =? 15 then 21 * (c / 16) + 21 else 21 * (c / 16) + c mod 16 + 1) with (21 * ((c + 1) / 16) + (c + 1) mod 16) by (clear; destruct (c mod 16 =? 15) eqn:E15; lia).
    rewrite HD by lia. cbn [bind]. fold (DD L t c).
    pose proof (SS_bound L t c ltac:(lia) ltac:(lia)) as SB. pose proof (DD_pos L t c ltac:(lia) C) as DP. pose proof (DD_le L t c ltac:(lia) C) as DL.
    rewrite (wrap_small 64 (DD L t c)) by lia. rewrite (mono_flag L T t c HL C). destruct (mo L T t c) eqn:EM; [reflexivity|]. cbn [negb andb].
    + destruct (SA (c / 16) ltac:(clear - C; lia)) as (v & (_ & V1 & V2 & V3) & W). set (s := c / 16) in *. set (f := c mod 16) in *. assert (CF : c = 16 * s + f) by (unfold s, f; clear; lia). assert (F16 : 0 <= f < 16) by (unfold f; clear; lia). assert (S0 : 0 <= s) by (unfold s; clear - C; lia).
      assert (SN : s <= nbk L t / 16) by (unfold s; clear - C; lia). assert (FM : c = nbk L t - 1 -> f = (nbk L t - 1) mod 16) by (unfold f; intros ->; reflexivity). clearbody s f. rewrite geti_ok by (clear - Z1 SL SN S0; lia). cbn [bind]. rewrite W, V2 by lia. replace (32 * s + 1) with (2 * (16 * s) + 1) by lia.
      rewrite T3 by (clear - SN S0; lia). rewrite Z.min_l by lia.
      set (fl := if 16 * s + f =? nbk L t - 1 then lastflag L t jf else flagv M L T t (16 * s + f)) in *.
      assert (CB : 0 <= CO M L T t (16 * s) <= CO M L T t c /\ CO M L T t c < 2 ^ 64).
      { pose proof (CO_nonneg M L T t (16 * s) ltac:(lia) Hl ltac:(lia)). pose proof (CO_mono M L T t (16 * s) c ltac:(lia) Hl ltac:(lia) ltac:(lia)). pose proof (CO_mono M L T t c (nbk L t) ltac:(lia) Hl ltac:(lia) ltac:(lia)).
        split; [lia|]. destruct (Z.eq_dec c 0) as [->|]; [rewrite CO_0; lia|]. pose proof (fits3 M L T t (m_addr_b m) HL Hl A4 ltac:(lia)). pose proof (room_16 (m_addr_b m) A4). pose proof (CO_sum M L T t (nbk L t) ltac:(lia)).
        destruct (tight L T t) eqn:TI; [destruct (tight_sizes L T t HL TI); lia|]. pose proof (fits_all L T t HL TI (nbk L t) ltac:(lia)).
        pose proof (blen_upper M L T t HL Hl (nbk L t) ltac:(lia)) as BU. pose proof (SS_bound L t (nbk L t) ltac:(lia) ltac:(lia)). lia. }
      assert (HW : forall q, 0 <= q < 4 -> geti (sb_selects r) (21 * s + 17 + q) = Ok (fieldw (xat M jf temp btc s) q (if q =? 0 then hof M (btcv jf btc (16 * s)) else 0))).
      { intros q Hq. rewrite geti_ok by (clear - Z1 SL SN S0 Hq; lia). f_equal. replace (21 * s + 17 + q) with (21 * s + (17 + q)) by lia. rewrite W by lia. apply V3. exact Hq. }
      assert (FLc : (c < nbk L t - 1 -> read_flag M fl = flagv M L T t c) /\ (c = nbk L t - 1 -> fl = lastflag L t jf)).
      { unfold fl. rewrite <- CF. split; intros Q; [replace (c =? nbk L t - 1) with false by lia; apply flagv_bound|replace (c =? nbk L t - 1) with true by lia; reflexivity]. }
      destruct FLc as [FL1 FL2].
      assert (OI : i <= ones_in L t c).
      { unfold ones_in. destruct (fullb L t c) eqn:FB; [lia|]. destruct (not_full_last L t c ltac:(lia) C FB) as (_ & _ & X & _). lia. }
      assert (SPF : sp L T t c = true -> f <= 4 \/ read_flag M fl = 0).
      { intros ES. destruct (Z_le_gt_dec f 4) as [Q|Q]; [left; exact Q|right]. destruct (Z.eq_dec c (nbk L t - 1)) as [EL|NL].
        - rewrite FL2 by auto. apply LO2; [rewrite <- EL; exact ES|]. rewrite <- FM by auto. lia.
        - rewrite FL1 by lia. destruct (not_de M L T t c (sp_de L T t c ES)) as [N1 N2]. apply plain_zero; auto; lia. }
      change (DD L t c >? T) with (sp L T t c). destruct (sp L T t c) eqn:ES.
      * match goal with |- bind ?e _ = (if _ then _ else bind ?e _) => replace e with (Ok (CO M L T t c)) end.
        -- cbn [bind orb]. destruct (not_de M L T t c (sp_de L T t c ES)) as [N1 N2]. unfold flagv. rewrite N1, N2. replace (code M false false =? 0) with true by (destruct M; reflexivity). cbn [negb andb].
           rewrite load_word_al. replace ((CO M L T t c + 8 * (i - 1)) mod 8) with (CO M L T t c mod 8) by (clear; lia). destruct (CO M L T t c mod 8 =? 0); reflexivity.
        -- destruct (f >? 0) eqn:E0; [|f_equal; f_equal; lia].
           replace (21 * s + 16 + (f + 3) / 4) with (21 * s + 17 + (f - 1) / 4) by (clear - F16 E0; lia). rewrite HW by (clear - F16 E0; lia). cbn [bind].
           destruct (header_field M L T t jf temp btc s f _ HL Hl F TP BP S0 ltac:(lia) ltac:(lia) eq_refl) as [_ Q]. fold fl in Q. rewrite Q by (apply SPF; reflexivity). rewrite <- CF. f_equal. rewrite wrap_small by lia. lia.
      * match goal with |- bind ?e _ = (if _ then _ else bind ?e _) => replace e with (Ok (CO M L T t c, read_flag M fl)) end.
        -- cbn [bind orb]. assert (RF : (flagv M L T t c =? 0) = (read_flag M fl =? 0)).
           { destruct (Z.eq_dec c (nbk L t - 1)) as [EL|NL]; [|rewrite FL1 by lia; reflexivity]. rewrite FL2 by auto. rewrite LO1 by (rewrite <- EL; unfold de; rewrite ES, EM; reflexivity).
             destruct (last_plain M L T t c ltac:(lia)) as [N1 N2]. unfold flagv. rewrite N1, N2. destruct M; reflexivity. }
           rewrite RF. apply in_dense_al_eq. exact ES. 
        -- destruct (f >? 0) eqn:E0.
           ++ replace (21 * s + 16 + (f + 3) / 4) with (21 * s + 17 + (f - 1) / 4) by (clear - F16 E0; lia). rewrite HW by (clear - F16 E0; lia). cbn [bind].
              destruct (header_field M L T t jf temp btc s f _ HL Hl F TP BP S0 ltac:(lia) ltac:(lia) eq_refl) as [Q _]. fold fl in Q. rewrite Q. rewrite <- CF. f_equal. f_equal. rewrite wrap_small by lia. lia.
           ++ replace (21 * s + 17) with (21 * s + 17 + 0) by lia. rewrite HW by lia. cbn [bind]. change (0 =? 0) with true. cbv iota. rewrite (header_first M L T t jf temp btc s HL Hl F TP BP S0 ltac:(lia)).
              assert (f = 0) by lia. subst f. unfold fl. rewrite Z.add_0_r in *. rewrite CF. reflexivity.
Qed.
