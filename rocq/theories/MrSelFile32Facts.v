(** SelectBasic32 read back from a file. *)
From Coq Require Import ZifyBool.
From Verif Require Import Base BaseFacts Mem MemFacts Words WordFacts TreeBuild KernelFacts Spec SpecText SpecSel32 SpecFile SpecFile32 SpecSelFile32 MrRank MrRankFacts MrRankFacts2 MrRankFacts3 MrMpe MrRank32 MrRank32Facts2 MrMpe32 MrMpe32Facts4 MrFile MrFileFacts MrFileFacts2 MrFile32Facts MrSelect MrSelectFacts MrSelectFacts2 MrSelectFacts3 MrSelectFacts4 MrSelectFacts5 MrSelectFacts6 MrFileFacts4 MrSelect32 MrSelect32Facts MrSelect32Facts2 MrSelect32Facts3 MrSelect32Facts4 MrSelect32Facts5 MrSelect32Facts6 MrSelFile32.
Ltac Zify.zify_post_hook ::= Z.div_mod_to_equations.

(** ** The payload consists of bytes *)
Lemma step_keep32 n L T t ones last st q st' : stI n st -> second_step32 L T t ones last st q = Ok st' -> stI n st'.
Proof.
  intros HI E. pose proof HI as [H Hb]. unfold second_step32 in E. destruct (s_done st); [injection E as <-; exact HI|].
  destruct (u32 q =? s_upto st).
  - destruct (s_sc st + 2 =? last).
    + unfold last_one32 in E. match type of E with bind ?e _ = _ => destruct e as [[bits bc]| |] eqn:E1 end; cbn [bind] in E; try discriminate. injection E as <-. split; [|exact Hb]. cbn [s_bits].
      destruct (ones mod L >? 0); [|eapply flush_keep; eauto].
      destruct (text_bit t q) as [b| |]; cbn [bind] in E1; try discriminate. destruct (s_sparse st && b).
      * destruct (store 4 (s_bits st) (s_bc st) (u32 q)) as [b2| |] eqn:E2; cbn [bind] in E1; try discriminate. injection E1 as <- _. eapply store_keep; eauto.
      * destruct (_ && _); [|injection E1 as <- _; exact H].
        match type of E1 with bind ?e _ = _ => destruct e as [b2| |] eqn:E2 end; cbn [bind] in E1; try discriminate. injection E1 as <- _. eapply seti_keep; [exact H| |exact E2]. destruct b; [apply u8_byte|exact Hb].
    + unfold next_block32 in E. destruct (flush st) as [[bits bc]| |] eqn:E1; cbn [bind] in E; try discriminate.
      destruct (seti (s_arr st) _ _) as [arr| |]; cbn [bind] in E; try discriminate. destruct (geti arr _) as [up| |]; cbn [bind] in E; try discriminate.
      destruct (geti arr _) as [lo| |]; cbn [bind] in E; try discriminate. injection E as <-. split; [eapply flush_keep; eauto|]. cbn. lia.
  - unfold inner_bit32 in E. destruct (s_mono st); [injection E as <-; exact HI|]. destruct (text_bit t q) as [b| |]; cbn [bind] in E; try discriminate.
    destruct (s_sparse st).
    + destruct b; [|injection E as <-; exact HI]. destruct (store 4 (s_bits st) (s_bc st) (u32 q)) as [b2| |] eqn:E2; cbn [bind] in E; try discriminate. injection E as <-. split; [|exact Hb]. cbn [s_bits]. eapply store_keep; eauto.
    + assert (BB : 0 <= (if b then u8 (s_byte st + 2 ^ s_pos st) else s_byte st) < 256) by (destruct b; [apply u8_byte|exact Hb]).
      destruct (s_pos st =? 0).
      * match type of E with bind ?e _ = _ => destruct e as [b2| |] eqn:E2 end; cbn [bind] in E; try discriminate. injection E as <-. split; [|cbn [s_byte]; lia]. cbn [s_bits]. eapply seti_keep; [exact H|exact BB|exact E2].
      * injection E as <-. split; [exact H|exact BB].
Qed.
Lemma second_keep32 n L T t ones last len arr bits arr' bits' : bytesI n bits -> second_pass32 L T t ones last len arr bits = Ok (arr', bits') -> bytesI n bits'.
Proof.
  intros H E. unfold second_pass32 in E. destruct (geti arr 2) as [up| |]; cbn [bind] in E; try discriminate. destruct (geti arr 0) as [lo| |]; cbn [bind] in E; try discriminate.
  match type of E with bind ?e _ = _ => destruct e as [st| |] eqn:E1 end; cbn [bind] in E; try discriminate.
  match type of E with bind ?e _ = _ => destruct e as [a2| |] eqn:E2 end; cbn [bind] in E; try discriminate. injection E as _ <-.
  refine (proj1 (foldM_keep (stI n) _ _ _ _ _ _ E1)); [intros a x a' Ha Ea; eapply step_keep32; eauto|]. split; [exact H|cbn; lia].
Qed.

(** The uninitialised bytes are bytes. *)
Lemma fresh_bytesI32 j a n : bytesI (zlen (fresh_aligned_b32 j a n)) (fresh_aligned_b32 j a n).
Proof.
  split; [|reflexivity]. unfold fresh_aligned_b32, fresh. apply Forall_forall. intros x Hx. apply in_map_iff in Hx. destruct Hx as (k & <- & _). apply u8_byte.
Qed.
Lemma build_sel_bytes32 L T m t r : build_sel32 L T m t = Ok r -> bytesI (zlen (fresh_aligned_b32 (m_junk_b m) (m_addr_b m) (sb_bits_len r))) (sb_bits r).
Proof.
  intros E. unfold build_sel32 in E. cbv zeta in E. match type of E with bind ?e _ = _ => destruct e as [[[a1 x1] b1]| |] end; cbn [bind] in E; try discriminate.
  match type of E with bind ?e _ = _ => destruct e as [[a2 b2]| |] eqn:E2 end; cbn [bind] in E; try discriminate. injection E as <-. cbn [sb_bits sb_bits_len].
  eapply second_keep32; [|exact E2]. apply fresh_bytesI32.
Qed.
Lemma build_sel_bch_bytes32 L T m t r : build_sel_bch32 L T m t = Ok r -> bytesI (zlen (fresh_aligned_b32 (m_junk_b m) (m_addr_b m) (sb_bits_len r))) (sb_bits r).
Proof.
  intros E. unfold build_sel_bch32 in E. cbv zeta in E. match type of E with bind ?e _ = _ => destruct e as [[[a1 x1] b1]| |] end; cbn [bind] in E; try discriminate.
  match type of E with bind ?e _ = _ => destruct e as [tmp| |] end; cbn [bind] in E; try discriminate.
  match type of E with bind ?e _ = _ => destruct e as [[a2 b2]| |] eqn:E2 end; cbn [bind] in E; try discriminate.
  match type of E with bind ?e _ = _ => destruct e as [a3| |] end; cbn [bind] in E; try discriminate. injection E as <-. cbn [sb_bits sb_bits_len].
  eapply second_keep32; [|exact E2]. apply fresh_bytesI32.
Qed.

(** ** The file is that of RankMPE32 *)
Definition as_mpe (r : select_basic) : rank_mpe :=
  {| mp_ranks := sb_selects r; mp_ranks_len := sb_selects_len r; mp_bits := sb_bits r; mp_bits_len := sb_bits_len r; mp_text_len := sb_text_len r |}.
Definition as_sel (r : rank_mpe) : select_basic :=
  {| sb_selects := mp_ranks r; sb_selects_len := mp_ranks_len r; sb_bits := mp_bits r; sb_bits_len := mp_bits_len r; sb_text_len := mp_text_len r |}.
Definition load_as (x : res (loaded rank_mpe)) : res (loaded select_basic) :=
  match x with Ok (Loaded r f) => Ok (Loaded (as_sel r) f) | Ok Exits => Ok Exits | Ub u => Ub u | AssertFail => AssertFail end.
Lemma save_as r : save_sel32 r = save_mpe32 (as_mpe r).
Proof. reflexivity. Qed.
Lemma load_as_ok m f : load_sel32 m f = load_as (load_mpe32 m f).
Proof.
  unfold load_sel32, load_mpe32. destruct (get32 f) as [x1 f1|]; cbn [andthen]; [|reflexivity]. destruct (get32 f1) as [x2 f2|]; cbn [andthen]; [|reflexivity].
  destruct (get_ints _ _ _ f2) as [[x3 f3|]| |]; cbn [bind andthen]; try reflexivity. destruct (get32 f3) as [x4 f4|]; cbn [andthen]; [|reflexivity].
  destruct (get_bytes32 _ _ _ f4) as [[x5 f5|]| |]; reflexivity.
Qed.
Definition sameS32 (m : memory) (r r' : select_basic) : Prop :=
  sb_text_len r' = sb_text_len r /\ sb_selects_len r' = sb_selects_len r /\ sb_bits_len r' = sb_bits_len r /\
  intsP (m_junk_r m) (m_addr_r m) (sb_selects_len r) (fun j => zn 0 (sb_selects r) j mod 2 ^ 32) (sb_selects r') /\
  bytesP (fun k => u8 (m_junk_b m k)) (m_addr_b m) (sb_bits_len r) (zn 0 (sb_bits r)) (sb_bits r').
Lemma sel_round32 m r : addresses_ok m -> 0 <= sb_text_len r < 2 ^ 32 ->
  0 <= sb_selects_len r < 2 ^ 32 - 32 -> sb_selects_len r <= zlen (sb_selects r) -> 0 <= sb_bits_len r < 2 ^ 32 - 128 -> sb_bits_len r <= zlen (sb_bits r) -> text_ok (sb_bits r) ->
  exists f, save_sel32 r = Ok f /\ zlen f = 12 + 4 * sb_selects_len r + sb_bits_len r /\ text_ok f /\
    (forall rest, text_ok rest -> exists r', load_sel32 m (f ++ rest) = Ok (Loaded r' rest) /\ sameS32 m r r') /\
    (forall k, 0 <= k < zlen f -> load_sel32 m (cut f k) = Ok Exits).
Proof.
  intros A HT H1 H2 H3 H4 H5. destruct (mpe_round32 m (as_mpe r) A HT H1 H2 H3 H4 H5) as (f & F1 & F2 & F3 & F4 & F5). exists f. split; [exact F1|]. split; [exact F2|]. split; [exact F3|]. split.
  - intros rest Hr. destruct (F4 rest Hr) as (r' & E & S). exists (as_sel r'). split; [rewrite load_as_ok, E; reflexivity|exact S].
  - intros k Hk. rewrite load_as_ok, F5 by exact Hk. reflexivity.
Qed.

(** ** What the file keeps *)
Lemma lost_iff32 L T t : 1 <= L < T -> 1 <= K t -> lost32 L T (text_bits t) = (OO32 L T t (nbk L t) >? O132 L T t (nbk L t)).
Proof.
  intros HL HK. unfold lost32. rewrite <- K_ones. fold (P t (K t)). replace (1 <=? K t) with true by lia. cbn [andb]. pose proof (nbk_1 L t ltac:(lia) HK) as N1.
  assert (G : forall c, 0 <= c <= nbk L t -> (K t <? L) = false -> OO32 L T t c <= O132 L T t c).
  { intros c Hc EK. replace c with (Z.of_nat (Z.to_nat c)) in * by lia. set (n := Z.to_nat c) in *. clearbody n. induction n as [|n IH]; [unfold OO32, O132; rewrite !sumf_empty by lia; lia|].
    replace (Z.of_nat (S n)) with (Z.of_nat n + 1) in * by lia. rewrite O132_succ, OO32_succ by lia. specialize (IH ltac:(lia)).
    pose proof (fits32 L T t (Z.of_nat n) HL ltac:(lia) ltac:(right; unfold tight; lia)) as Fi. destruct (Z.of_nat n =? 0) eqn:E0; [|lia].
    assert (E : Z.of_nat n = 0) by lia. rewrite E in *. assert (F : fullb L t 0 = true) by (unfold fullb; lia).
    pose proof (DD_ge L t 0 ltac:(lia) ltac:(lia) F). unfold ww32, w132, ee in *. rewrite F in *. cbn [Z.eqb] in *.
    destruct (DD L t 0 >? T); [lia|]. destruct (DD L t 0 =? L) eqn:E2; [destruct (DD L t 0 >? L) eqn:E3; lia|]. replace (DD L t 0 >? L) with true by lia.
    pose proof (up8_mono (DD L t 0 - 1) (DD L t 0) ltac:(lia)). lia. }
  destruct (K t <? L) eqn:EK; cbn [andb]; [|specialize (G (nbk L t) ltac:(lia) eq_refl); lia]. clear G.
  assert (N : nbk L t = 1) by (unfold nbk; symmetry; apply (Z.div_unique _ _ _ (K t - 1)); lia). rewrite N.
  assert (F : fullb L t 0 = false) by (unfold fullb; lia). assert (M : K t mod L = K t) by (apply Z.mod_small; lia).
  assert (D : DD L t 0 = P t (K t) + 1). { unfold DD. rewrite SS_0, SS_pos by lia. replace (Z.min ((0 + 1) * L) (K t)) with (K t) by lia. lia. }
  destruct (P_spec t (K t) ltac:(lia)) as (PB & _). set (p := P t (K t)) in *. clearbody p.
  change (OO32 L T t 1) with (OO32 L T t (0 + 1)). change (O132 L T t 1) with (O132 L T t (0 + 1)). rewrite OO32_succ, O132_succ by lia. unfold OO32, O132. rewrite !sumf_empty by lia. unfold ww32, w132, ee. rewrite F, D, M. cbn [Z.eqb].
  replace (p + 1 - 1) with p by lia. rewrite !up8_div by lia. destruct (p <? T) eqn:E1.
  - replace (p + 1 >? T) with false by lia. replace (p >? T) with false by lia. destruct (p + 1 =? L) eqn:E2; cbn [negb andb]; lia.
  - replace (p + 1 >? T) with true by lia. replace (p + 1 =? L) with false by lia. cbn [negb andb]. destruct (p >? T) eqn:E3; [lia|]. assert (p = T) by lia. subst p. replace (T =? T) with true by lia. cbn [andb]. lia.
Qed.

Lemma payload_keep32 L T t bits bits' c : 1 <= L -> 0 <= c < nbk L t -> (forall j, 0 <= j < OO32 L T t (nbk L t) -> zn 0 bits' j = zn 0 bits j) ->
  payload32 L T t bits c -> payload32 L T t bits' c.
Proof.
  intros HL Hc A [P1 P2]. pose proof (OO32_nonneg L T t c HL ltac:(lia)). pose proof (OO32_mono L T t (c + 1) (nbk L t) HL ltac:(lia) ltac:(lia)) as OM. rewrite OO32_succ in OM by lia.
  split.
  - intros E k Hk. rewrite <- P1 by auto. apply rd_agree. intros j Hj. apply A. unfold ww32 in OM. unfold sp in E. rewrite E in OM. fold (ones_in L t c) in OM. lia.
  - intros E1 E2 j Hj. rewrite <- P2 by auto. apply A. unfold ww32 in OM. unfold mo in E2. unfold sp in E1, E2. rewrite E1 in *. cbn [negb andb] in E2. rewrite E2 in OM. lia.
Qed.

Lemma bits_same32 L T m' t r r' : 1 <= L < T -> 1 <= K t -> O132 L T t (nbk L t) + 128 < 2 ^ 32 -> sb_bits_len r = O132 L T t (nbk L t) -> OO32 L T t (nbk L t) <= O132 L T t (nbk L t) -> sameS32 m' r r' ->
  (forall c, 0 <= c < nbk L t -> payload32 L T t (sb_bits r) c) ->
  (forall c, 0 <= c < nbk L t -> payload32 L T t (sb_bits r') c) /\ OO32 L T t (nbk L t) <= zlen (sb_bits r') < 2 ^ 32.
Proof.
  intros HL HK HP EB LO (S1 & S2 & S3 & W & (V1 & V2 & V3)) PL. rewrite EB in *. split.
  - intros c Hc. apply (payload_keep32 L T t (sb_bits r)); auto; [lia|]. intros j Hj. apply V2. lia.
  - rewrite V1. pose proof (room_bound (m_addr_b m')). destruct (O132 L T t (nbk L t) =? 0) eqn:E; lia.
Qed.

Lemma OO32_small L T t c : 1 <= L < T -> O132 L T t (nbk L t) < 2 ^ 32 -> OO32 L T t (nbk L t) <= O132 L T t (nbk L t) -> 0 <= c <= nbk L t -> 0 <= OO32 L T t c < 2 ^ 32.
Proof.
  intros HL Hl LO Hc. split; [apply OO32_nonneg; lia|]. pose proof (OO32_mono L T t c (nbk L t) ltac:(lia) ltac:(lia) ltac:(lia)). lia.
Qed.
Lemma SS_small32 L t c : 1 <= L -> zlen t < 2 ^ 29 -> 0 <= c <= nbk L t -> 0 <= SS L t c < 2 ^ 32.
Proof. intros HL Hl Hc. pose proof (SS_bound L t c HL ltac:(lia)). lia. Qed.

Lemma sel_same32 L T m m' t r r' : 1 <= L < T -> 1 <= K t -> zlen t < 2 ^ 29 -> O132 L T t (nbk L t) + 128 < 2 ^ 32 -> selP32 L T m t r -> OO32 L T t (nbk L t) <= O132 L T t (nbk L t) -> sameS32 m' r r' -> selP32 L T m' t r'.
Proof.
  intros HL HK Hl HP (Z1 & B2 & B3 & B4 & B5 & E1 & E2 & E3) LO SA. destruct (bits_same32 L T m' t r r' HL HK HP E2 LO SA B4) as [PL PB].
  destruct SA as (S1 & S2 & S3 & (W1 & W2 & W3) & V). rewrite E1 in *. pose proof (nbk_pos L t ltac:(lia)) as NP. replace (2 * nbk L t + 2 =? 0) with false in W1 by lia.
  split; [exact W1|]. split; [|split; [|split; [exact PL|split; [exact PB|split; [exact S2|split; congruence]]]]].
  - intros c Hc. rewrite W2 by lia. rewrite B2 by lia. apply Z.mod_small. apply SS_small32; auto; lia.
  - intros c Hc. rewrite W2 by lia. rewrite B3 by lia. apply Z.mod_small. apply (OO32_small L T); auto; lia.
Qed.

Definition modw32 (l : list Z) : list Z := map (fun x => x mod 2 ^ 32) l.
Lemma zn_modw32 l k : zn 0 (modw32 l) k = zn 0 l k mod 2 ^ 32.
Proof. unfold zn, modw32. apply (map_nth (fun x => x mod 2 ^ 32) l 0). Qed.
Lemma delta_modw32 temp s j : delta32 (modw32 temp) s j = delta32 temp s j.
Proof. unfold delta32. rewrite !zn_modw32. unfold wrap. rewrite <- Zminus_mod. reflexivity. Qed.
Lemma deltas_modw32 temp s w n : deltas32 (modw32 temp) s w n = deltas32 temp s w n.
Proof. unfold deltas32. f_equal. apply sumf_ext. intros l _. rewrite delta_modw32. reflexivity. Qed.
Lemma superP_modw32 temp s v : superP32 temp s 15 v -> superP32 (modw32 temp) s 15 (modw32 v).
Proof.
  intros (V0 & V1 & V2 & V3). split; [unfold modw32; rewrite zlen_map; exact V0|]. split; [|split].
  - intros k Hk. rewrite !zn_modw32, V1 by lia. reflexivity.
  - rewrite !zn_modw32, V2. reflexivity.
  - intros w Hw. rewrite zn_modw32, V3, deltas_modw32 by lia. unfold deltas32, wrap. apply Zmod_mod.
Qed.

Lemma selb_same32 L T m m' t r r' : 1 <= L < T -> 1 <= K t -> zlen t < 2 ^ 29 -> O132 L T t (nbk L t) + 128 < 2 ^ 32 -> selbP32 L T m t r -> OO32 L T t (nbk L t) <= O132 L T t (nbk L t) -> sameS32 m' r r' -> selbP32 L T m' t r'.
Proof.
  intros HL HK Hl HP (temp & B2 & B3 & B4 & B5 & SU & Z1 & E1 & E2 & E3) LO SA. destruct (bits_same32 L T m' t r r' HL HK HP E2 LO SA B4) as [PL PB].
  destruct SA as (S1 & S2 & S3 & (W1 & W2 & W3) & V). rewrite E1 in *. pose proof (nbk_pos L t ltac:(lia)) as NP. replace (25 * (nbk L t / 16 + 1) =? 0) with false in W1 by lia.
  exists (modw32 temp). split; [|split; [|split; [exact PL|split; [exact PB|split; [|split; [exact W1|split; [exact S2|split; congruence]]]]]]].
  - intros c Hc. rewrite zn_modw32, B2 by lia. apply Z.mod_small. apply SS_small32; auto; lia.
  - intros c Hc. rewrite zn_modw32, B3 by lia. apply Z.mod_small. apply (OO32_small L T); auto; lia.
  - intros s Hs. destruct (SU s Hs) as (v & PV & EV). exists (modw32 v). split; [apply superP_modw32; exact PV|]. intros k Hk. rewrite W2 by lia. rewrite EV by lia. symmetry. apply zn_modw32.
Qed.

(** ** Round trips *)
Lemma selP_size32 m r : bytesI (zlen (fresh_aligned_b32 (m_junk_b m) (m_addr_b m) (sb_bits_len r))) (sb_bits r) -> 0 <= sb_bits_len r < 2 ^ 32 - 128 -> sb_bits_len r <= zlen (sb_bits r).
Proof.
  intros [_ Z] Hb. rewrite Z, zlen_bytes32. rewrite wrap_small by lia. pose proof (Z.mod_pos_bound (- m_addr_b m) 128 ltac:(lia)). lia.
Qed.
Lemma std_round_sel32 L T m m' t r : 1 <= L < T -> addresses_ok m -> addresses_ok m' -> zlen t < 2 ^ 29 -> nbk L t < 2 ^ 31 - 17 -> 1 <= K t ->
  lost32 L T (text_bits t) = false -> O132 L T t (nbk L t) + 128 < 2 ^ 32 -> build_sel32 L T m t = Ok r -> selP32 L T m t r ->
  exists f, save_sel32 r = Ok f /\ zlen f = 20 + 8 * nbk L t + O132 L T t (nbk L t) /\ text_ok f /\
    (forall rest, text_ok rest -> exists r', load_sel32 m' (f ++ rest) = Ok (Loaded r' rest) /\ selP32 L T m' t r') /\
    (forall k, 0 <= k < zlen f -> load_sel32 m' (cut f k) = Ok Exits).
Proof.
  intros HL A A' Hl HN HK LO HP E SP. pose proof (build_sel_bytes32 L T m t r E) as BI. rewrite lost_iff32 in LO by auto.
  pose proof SP as (Z1 & B2 & B3 & B4 & B5 & E1 & E2 & E3). destruct A as (A1 & A2 & A3 & A4). pose proof (slack32_ok _ A2).
  pose proof (nbk_pos L t ltac:(lia)) as NP. pose proof (O132_bound L T t (nbk L t) HL ltac:(lia)). pose proof (zlen_nonneg t).
  pose proof (selP_size32 m r BI ltac:(lia)) as ZB.
  destruct (sel_round32 m' r A' ltac:(lia) ltac:(lia) ltac:(lia) ltac:(lia) ZB (proj1 BI)) as (f & F1 & F2 & F3 & F4 & F5).
  exists f. split; [exact F1|]. split; [lia|]. split; [exact F3|]. split; [|exact F5]. intros rest Hr. destruct (F4 rest Hr) as (r' & R1 & R2). exists r'. split; [exact R1|].
  apply (sel_same32 L T m m' t r r'); auto; lia.
Qed.
Lemma bch_round_sel32 L T m m' t r : 1 <= L < T -> addresses_ok m -> addresses_ok m' -> zlen t < 2 ^ 29 -> nbk L t < 2 ^ 31 - 17 -> 1 <= K t ->
  lost32 L T (text_bits t) = false -> O132 L T t (nbk L t) + 128 < 2 ^ 32 -> build_sel_bch32 L T m t = Ok r -> selbP32 L T m t r ->
  exists f, save_sel32 r = Ok f /\ zlen f = 12 + 100 * (nbk L t / 16 + 1) + O132 L T t (nbk L t) /\ text_ok f /\
    (forall rest, text_ok rest -> exists r', load_sel32 m' (f ++ rest) = Ok (Loaded r' rest) /\ selbP32 L T m' t r') /\
    (forall k, 0 <= k < zlen f -> load_sel32 m' (cut f k) = Ok Exits).
Proof.
  intros HL A A' Hl HN HK LO HP E SP. pose proof (build_sel_bch_bytes32 L T m t r E) as BI. rewrite lost_iff32 in LO by auto.
  pose proof SP as (temp & B2 & B3 & B4 & B5 & SU & Z1 & E1 & E2 & E3). destruct A as (A1 & A2 & A3 & A4). pose proof (slack32_ok _ A2).
  pose proof (nbk_pos L t ltac:(lia)) as NP. pose proof (O132_bound L T t (nbk L t) HL ltac:(lia)). pose proof (zlen_nonneg t).
  pose proof (selP_size32 m r BI ltac:(lia)) as ZB.
  destruct (sel_round32 m' r A' ltac:(lia) ltac:(lia) ltac:(lia) ltac:(lia) ZB (proj1 BI)) as (f & F1 & F2 & F3 & F4 & F5).
  exists f. split; [exact F1|]. split; [lia|]. split; [exact F3|]. split; [|exact F5]. intros rest Hr. destruct (F4 rest Hr) as (r' & R1 & R2). exists r'. split; [exact R1|].
  apply (selb_same32 L T m m' t r r'); auto; lia.
Qed.
