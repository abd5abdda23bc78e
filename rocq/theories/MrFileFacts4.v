(** Facts about MrFile: the select structure read back from a file. *)
From Verif Require Import Base BaseFacts Mem MemFacts Words WordFacts TreeBuild KernelFacts Spec SpecText SpecFile MrRank MrRankFacts MrRankFacts2 MrRankFacts3 MrSelect MrSelectFacts MrSelectFacts2 MrSelectFacts3 MrSelectFacts4 MrSelectFacts5 MrSelectFacts6 MrFile MrFileFacts MrFileFacts2.
From Coq Require Import ZifyBool.
Ltac Zify.zify_post_hook ::= Z.div_mod_to_equations.

(** ** The payload consists of bytes *)
Lemma foldM_keep {A} (I : A -> Prop) (f : A -> Z -> res A) : (forall a x a', I a -> f a x = Ok a' -> I a') -> forall l a a', I a -> foldM f l a = Ok a' -> I a'.
Proof.
  intros S. induction l as [|x l IH]; intros a a' Ha E; cbn [foldM] in E; [injection E as <-; exact Ha|].
  destruct (f a x) as [b| |] eqn:E1; cbn [bind] in E; try discriminate. eauto.
Qed.
Lemma upd_ok l i v : text_ok l -> 0 <= v < 256 -> text_ok (upd l i v).
Proof.
  intros H Hv. unfold upd. generalize (Z.to_nat i) as n. clear i. intros n. revert n. induction H as [|x l Hx Hl IH]; intros n; [destruct n; constructor|]. destruct n; cbn; constructor; auto. apply IH.
Qed.
Definition bytesI (n : Z) (bits : list Z) : Prop := text_ok bits /\ zlen bits = n.
Lemma seti_keep n l i v l' : bytesI n l -> 0 <= v < 256 -> seti l i v = Ok l' -> bytesI n l'.
Proof. intros [H Hn] Hv E. unfold seti in E. destruct (_ && _); [|discriminate]. injection E as <-. split; [apply upd_ok; auto|rewrite zlen_upd; exact Hn]. Qed.
Lemma wr_keep n k : forall l off v, bytesI n l -> bytesI n (wr k l off v).
Proof. induction k; intros l off v [H Hn]; [split; auto|]. cbn [wr]. apply IHk. split; [apply upd_ok; auto; lia|rewrite zlen_upd; exact Hn]. Qed.
Lemma store_keep n k l off v l' : bytesI n l -> store k l off v = Ok l' -> bytesI n l'.
Proof. intros H E. unfold store in E. destruct (in_bounds l off (Z.of_nat k)); [|discriminate]. injection E as <-. apply wr_keep. exact H. Qed.

Definition stI (n : Z) (st : scan2) : Prop := bytesI n (s_bits st) /\ 0 <= s_byte st < 256.
Lemma flush_keep n st bits bc : stI n st -> flush st = Ok (bits, bc) -> bytesI n bits.
Proof.
  intros [H Hb] E. unfold flush in E. destruct (_ && _); [|injection E as <- _; exact H].
  destruct (seti (s_bits st) (s_bc st) (s_byte st)) as [b| |] eqn:E1; try discriminate. cbn [bind] in E. injection E as <- _. eapply seti_keep; eauto.
Qed.
Lemma u8_byte x : 0 <= u8 x < 256.
Proof. apply (wrap_bound 8 x). lia. Qed.
Lemma step_keep n L T t ones last st q st' : stI n st -> second_step L T t ones last st q = Ok st' -> stI n st'.
Proof.
  intros HI E. pose proof HI as [H Hb]. unfold second_step in E. destruct (s_done st); [injection E as <-; exact HI|].
  destruct (q =? s_upto st).
  - destruct (s_sc st + 2 =? last).
    + unfold last_one in E. match type of E with bind ?e _ = _ => destruct e as [[bits bc]| |] eqn:E1 end; cbn [bind] in E; try discriminate. injection E as <-. split; [|exact Hb]. cbn [s_bits].
      destruct (ones mod L >? 0); [|eapply flush_keep; eauto].
      destruct (text_bit t q) as [b| |]; cbn [bind] in E1; try discriminate. destruct (s_sparse st && b).
      * destruct (store 8 (s_bits st) (s_bc st) q) as [b2| |] eqn:E2; cbn [bind] in E1; try discriminate. injection E1 as <- _. eapply store_keep; eauto.
      * destruct (_ && _); [|injection E1 as <- _; exact H].
        match type of E1 with bind ?e _ = _ => destruct e as [b2| |] eqn:E2 end; cbn [bind] in E1; try discriminate. injection E1 as <- _. eapply seti_keep; [exact H| |exact E2]. destruct b; [apply u8_byte|exact Hb].
    + unfold next_block in E. destruct (flush st) as [[bits bc]| |] eqn:E1; cbn [bind] in E; try discriminate.
      destruct (seti (s_arr st) _ _) as [arr| |]; cbn [bind] in E; try discriminate. destruct (geti arr _) as [up| |]; cbn [bind] in E; try discriminate.
      destruct (geti arr _) as [lo| |]; cbn [bind] in E; try discriminate. injection E as <-. split; [eapply flush_keep; eauto|]. cbn. lia.
  - unfold inner_bit in E. destruct (s_mono st); [injection E as <-; exact HI|]. destruct (text_bit t q) as [b| |]; cbn [bind] in E; try discriminate.
    destruct (s_sparse st).
    + destruct b; [|injection E as <-; exact HI]. destruct (store 8 (s_bits st) (s_bc st) q) as [b2| |] eqn:E2; cbn [bind] in E; try discriminate. injection E as <-. split; [|exact Hb]. cbn [s_bits]. eapply store_keep; eauto.
    + assert (BB : 0 <= (if b then u8 (s_byte st + 2 ^ s_pos st) else s_byte st) < 256) by (destruct b; [apply u8_byte|exact Hb]).
      destruct (s_pos st =? 0).
      * match type of E with bind ?e _ = _ => destruct e as [b2| |] eqn:E2 end; cbn [bind] in E; try discriminate. injection E as <-. split; [|cbn [s_byte]; lia]. cbn [s_bits]. eapply seti_keep; [exact H|exact BB|exact E2].
      * injection E as <-. split; [exact H|exact BB].
Qed.
Lemma second_keep n L T t ones last len arr bits arr' bits' : bytesI n bits -> second_pass L T t ones last len arr bits = Ok (arr', bits') -> bytesI n bits'.
Proof.
  intros H E. unfold second_pass in E. destruct (geti arr 2) as [up| |]; cbn [bind] in E; try discriminate. destruct (geti arr 0) as [lo| |]; cbn [bind] in E; try discriminate.
  match type of E with bind ?e _ = _ => destruct e as [st| |] eqn:E1 end; cbn [bind] in E; try discriminate.
  match type of E with bind ?e _ = _ => destruct e as [a2| |] eqn:E2 end; cbn [bind] in E; try discriminate. injection E as _ <-.
  refine (proj1 (foldM_keep (stI n) _ _ _ _ _ _ E1)); [intros a x a' Ha Ea; eapply step_keep; eauto|]. split; [exact H|cbn; lia].
Qed.

(** The uninitialised bytes are bytes. *)
Lemma fresh_bytesI m n : bytes_ok m -> 0 <= n -> bytesI (n + room_of (m_addr_b m)) (fresh_bytes (m_junk_b m) (m_addr_b m) n).
Proof.
  intros HB Hn. split; [|apply zlen_fresh_bytes; auto]. unfold fresh_bytes, fresh. apply Forall_forall. intros x Hx. apply in_map_iff in Hx. destruct Hx as (j & <- & _). apply HB.
Qed.
Lemma build_sel_bytes L T m t r : 1 <= L < T -> T < 2 ^ 32 -> addresses_ok m -> bytes_ok m -> text_ok t -> zlen t < 2 ^ 58 -> build_sel L T m t = Ok r ->
  bytesI (sb_bits_len r + room_of (m_addr_b m)) (sb_bits r).
Proof.
  intros HL HT (A1 & A2 & A3 & A4) HB H Hl E. unfold build_sel in E. rewrite number_of_ones_ok in E by auto. rewrite selects_len_nbk in E by lia. pose proof (nbk_pos L t ltac:(lia)) as NP. pose proof (slack_ok _ A2) as SL.
  assert (ZA : zlen (fresh_aligned (m_junk_r m) (m_addr_r m) (2 * nbk L t + 2)) = 2 * nbk L t + 2 + slack (m_addr_r m)) by (apply zlen_aligned; auto; lia).
  set (arr0 := fresh_aligned _ _ _) in *. clearbody arr0. destruct (first_pass_ok L T t arr0 HL HT H Hl ltac:(lia)) as (arr & E1 & FD). rewrite E1 in E. cbn [bind] in E.
  pose proof (O1_bound L T t (nbk L t) HL ltac:(lia)) as OB.
  match type of E with bind ?e _ = _ => destruct e as [[a2 b2]| |] eqn:E2 end; cbn [bind] in E; try discriminate. injection E as <-. cbn [sb_bits sb_bits_len].
  eapply second_keep; [|exact E2]. apply fresh_bytesI; auto; lia.
Qed.
Lemma build_sel_bch_bytes L T m t r : 1 <= L < T -> T < 2 ^ 32 -> addresses_ok m -> bytes_ok m -> text_ok t -> zlen t < 2 ^ 58 -> build_sel_bch L T m t = Ok r ->
  bytesI (sb_bits_len r + room_of (m_addr_b m)) (sb_bits r).
Proof.
  intros HL HT (A1 & A2 & A3 & A4) HB H Hl E. unfold build_sel_bch in E. rewrite number_of_ones_ok in E by auto. rewrite selects_len_nbk in E by lia. pose proof (nbk_pos L t ltac:(lia)) as NP.
  rewrite sel_temp_len_ok in E by lia.
  assert (ZA : zlen (fresh (m_junk_t m) (32 * (nbk L t / 16 + 1))) = 32 * (nbk L t / 16 + 1)) by (apply zlen_fresh; lia).
  set (arr0 := fresh _ _) in *. clearbody arr0. destruct (first_pass_ok L T t arr0 HL HT H Hl ltac:(lia)) as (arr & E1 & FD). rewrite E1 in E. cbn [bind] in E.
  pose proof (O1_bound L T t (nbk L t) HL ltac:(lia)) as OB.
  match type of E with bind ?e _ = _ => destruct e as [tmp| |] eqn:E0 end; cbn [bind] in E; try discriminate.
  match type of E with bind ?e _ = _ => destruct e as [[a2 b2]| |] eqn:E2 end; cbn [bind] in E; try discriminate.
  match type of E with bind ?e _ = _ => destruct e as [a3| |] eqn:E3 end; cbn [bind] in E; try discriminate. injection E as <-. cbn [sb_bits sb_bits_len].
  eapply second_keep; [|exact E2]. apply fresh_bytesI; auto; lia.
Qed.

(** ** What the file keeps *)
Lemma lost_iff L T t : 1 <= L < T -> 1 <= K t -> lost L T (text_bits t) = (OO L T t (nbk L t) >? O1 L T t (nbk L t)).
Proof.
  intros HL HK. unfold lost. rewrite <- K_ones. fold (P t (K t)). replace (1 <=? K t) with true by lia. cbn [andb]. pose proof (nbk_1 L t ltac:(lia) HK) as N1.
  assert (G : forall c, 0 <= c <= nbk L t -> (K t <? L) = false -> OO L T t c <= O1 L T t c).
  { intros c Hc EK. replace c with (Z.of_nat (Z.to_nat c)) in * by lia. set (n := Z.to_nat c) in *. clearbody n. induction n as [|n IH]; [unfold OO, O1; rewrite !sumf_empty by lia; lia|].
    replace (Z.of_nat (S n)) with (Z.of_nat n + 1) in * by lia. rewrite O1_succ, OO_succ by lia. specialize (IH ltac:(lia)).
    pose proof (fits L T t (Z.of_nat n) HL ltac:(lia) ltac:(right; unfold tight; lia)) as Fi. destruct (Z.of_nat n =? 0) eqn:E0; [|lia].
    assert (E : Z.of_nat n = 0) by lia. rewrite E in *. assert (F : fullb L t 0 = true) by (unfold fullb; lia).
    pose proof (DD_ge L t 0 ltac:(lia) ltac:(lia) F). unfold ww, w1, ee in *. rewrite F in *. cbn [Z.eqb] in *.
    destruct (DD L t 0 >? T); [lia|]. destruct (DD L t 0 =? L) eqn:E2; [destruct (DD L t 0 >? L) eqn:E3; lia|]. replace (DD L t 0 >? L) with true by lia.
    pose proof (up8_mono (DD L t 0 - 1) (DD L t 0) ltac:(lia)). lia. }
  destruct (K t <? L) eqn:EK; cbn [andb]; [|specialize (G (nbk L t) ltac:(lia) eq_refl); lia]. clear G.
  assert (N : nbk L t = 1) by (unfold nbk; symmetry; apply (Z.div_unique _ _ _ (K t - 1)); lia). rewrite N.
  assert (F : fullb L t 0 = false) by (unfold fullb; lia). assert (M : K t mod L = K t) by (apply Z.mod_small; lia).
  assert (D : DD L t 0 = P t (K t) + 1). { unfold DD. rewrite SS_0, SS_pos by lia. replace (Z.min ((0 + 1) * L) (K t)) with (K t) by lia. lia. }
  destruct (P_spec t (K t) ltac:(lia)) as (PB & _). set (p := P t (K t)) in *. clearbody p.
  change (OO L T t 1) with (OO L T t (0 + 1)). change (O1 L T t 1) with (O1 L T t (0 + 1)). rewrite OO_succ, O1_succ by lia. unfold OO, O1. rewrite !sumf_empty by lia. unfold ww, w1, ee. rewrite F, D, M. cbn [Z.eqb].
  replace (p + 1 - 1) with p by lia. rewrite !up8_div by lia. destruct (p <? T) eqn:E1.
  - replace (p + 1 >? T) with false by lia. replace (p >? T) with false by lia. destruct (p + 1 =? L) eqn:E2; cbn [negb andb]; lia.
  - replace (p + 1 >? T) with true by lia. replace (p + 1 =? L) with false by lia. cbn [negb andb]. destruct (p >? T) eqn:E3; [lia|]. assert (p = T) by lia. subst p. replace (T =? T) with true by lia. cbn [andb]. lia.
Qed.

Lemma payload_agree L T t bits bits' c : 1 <= L -> 0 <= c < nbk L t -> (forall j, 0 <= j < OO L T t (nbk L t) -> zn 0 bits' j = zn 0 bits j) ->
  payload L T t bits c -> payload L T t bits' c.
Proof.
  intros HL Hc A [P1 P2]. pose proof (OO_nonneg L T t c HL ltac:(lia)). pose proof (OO_mono L T t (c + 1) (nbk L t) HL ltac:(lia) ltac:(lia)) as OM. rewrite OO_succ in OM by lia.
  split.
  - intros E k Hk. rewrite <- P1 by auto. apply rd_agree. intros j Hj. apply A. unfold ww in OM. unfold sp in E. rewrite E in OM. fold (ones_in L t c) in OM. lia.
  - intros E1 E2 j Hj. rewrite <- P2 by auto. apply A. unfold ww in OM. unfold mo in E2. unfold sp in E1, E2. rewrite E1 in *. cbn [negb andb] in E2. rewrite E2 in OM. lia.
Qed.

Lemma wordsP_at junk addr len src a k : wordsP junk addr len src a -> 0 <= k < len -> zn 0 a k = src k.
Proof. intros (_ & W & _). auto. Qed.
Lemma bits_same L T m' t r r' : 1 <= L < T -> 1 <= K t -> sb_bits_len r = O1 L T t (nbk L t) -> OO L T t (nbk L t) <= O1 L T t (nbk L t) -> sameS m' r r' ->
  (forall c, 0 <= c < nbk L t -> payload L T t (sb_bits r) c) ->
  (forall c, 0 <= c < nbk L t -> payload L T t (sb_bits r') c) /\ OO L T t (nbk L t) <= zlen (sb_bits r').
Proof.
  intros HL HK EB LO (S1 & S2 & S3 & W & (V1 & V2 & V3)) PL. rewrite EB in *. split.
  - intros c Hc. apply (payload_agree L T t (sb_bits r)); auto; [lia|]. intros j Hj. apply V2. lia.
  - rewrite V1. pose proof (room_bound (m_addr_b m')). destruct (O1 L T t (nbk L t) =? 0) eqn:E; lia.
Qed.

Lemma OO_small L T t c : 1 <= L < T -> zlen t < 2 ^ 58 -> OO L T t (nbk L t) <= O1 L T t (nbk L t) -> 0 <= c <= nbk L t -> 0 <= OO L T t c < 2 ^ 64.
Proof.
  intros HL Hl LO Hc. split; [apply OO_nonneg; lia|]. pose proof (OO_mono L T t c (nbk L t) ltac:(lia) ltac:(lia) ltac:(lia)). pose proof (O1_bound L T t (nbk L t) HL ltac:(lia)).
  pose proof (SS_bound L t (nbk L t) ltac:(lia) ltac:(lia)). lia.
Qed.
Lemma SS_small L t c : 1 <= L -> zlen t < 2 ^ 58 -> 0 <= c <= nbk L t -> 0 <= SS L t c < 2 ^ 64.
Proof. intros HL Hl Hc. pose proof (SS_bound L t c HL ltac:(lia)). lia. Qed.

Lemma sel_same L T m m' t r r' : 1 <= L < T -> 1 <= K t -> zlen t < 2 ^ 58 -> selP L T m t r -> OO L T t (nbk L t) <= O1 L T t (nbk L t) -> sameS m' r r' -> selP L T m' t r'.
Proof.
  intros HL HK Hl (Z1 & B2 & B3 & B4 & B5 & E1 & E2 & E3) LO SA. destruct (bits_same L T m' t r r' HL HK E2 LO SA B4) as [PL PB].
  destruct SA as (S1 & S2 & S3 & (W1 & W2 & W3) & V). rewrite E1 in *. pose proof (nbk_pos L t ltac:(lia)) as NP. replace (2 * nbk L t + 2 =? 0) with false in W1 by lia.
  split; [exact W1|]. split; [|split; [|split; [exact PL|split; [exact PB|split; [exact S2|split; congruence]]]]].
  - intros c Hc. rewrite W2 by lia. rewrite B2 by lia. apply Z.mod_small. apply SS_small; auto; lia.
  - intros c Hc. rewrite W2 by lia. rewrite B3 by lia. apply Z.mod_small. apply (OO_small L T); auto; lia.
Qed.

Definition mod64 (l : list Z) : list Z := map (fun x => x mod 2 ^ 64) l.
Lemma zn_mod64 l k : zn 0 (mod64 l) k = zn 0 l k mod 2 ^ 64.
Proof. unfold zn, mod64. apply (map_nth (fun x => x mod 2 ^ 64) l 0). Qed.
Lemma delta_mod64 temp s j : delta (mod64 temp) s j = delta temp s j.
Proof. unfold delta. rewrite !zn_mod64. unfold wrap. rewrite <- Zminus_mod. reflexivity. Qed.
Lemma deltas_mod64 temp s w n : deltas (mod64 temp) s w n = deltas temp s w n.
Proof. unfold deltas. f_equal. apply sumf_ext. intros l _. rewrite delta_mod64. reflexivity. Qed.
Lemma superP_mod64 temp s v : superP temp s 15 v -> superP (mod64 temp) s 15 (mod64 v).
Proof.
  intros (V0 & V1 & V2 & V3). split; [unfold mod64; rewrite zlen_map; exact V0|]. split; [|split].
  - intros k Hk. rewrite !zn_mod64, V1 by lia. reflexivity.
  - rewrite !zn_mod64, V2. reflexivity.
  - intros w Hw. rewrite zn_mod64, V3, deltas_mod64 by lia. unfold deltas, wrap. apply Zmod_mod.
Qed.

Lemma selb_same L T m m' t r r' : 1 <= L < T -> 1 <= K t -> zlen t < 2 ^ 58 -> selbP L T m t r -> OO L T t (nbk L t) <= O1 L T t (nbk L t) -> sameS m' r r' -> selbP L T m' t r'.
Proof.
  intros HL HK Hl (temp & B2 & B3 & B4 & B5 & SU & Z1 & E1 & E2 & E3) LO SA. destruct (bits_same L T m' t r r' HL HK E2 LO SA B4) as [PL PB].
  destruct SA as (S1 & S2 & S3 & (W1 & W2 & W3) & V). rewrite E1 in *. pose proof (nbk_pos L t ltac:(lia)) as NP. replace (21 * (nbk L t / 16 + 1) =? 0) with false in W1 by lia.
  exists (mod64 temp). split; [|split; [|split; [exact PL|split; [exact PB|split; [|split; [exact W1|split; [exact S2|split; congruence]]]]]]].
  - intros c Hc. rewrite zn_mod64, B2 by lia. apply Z.mod_small. apply SS_small; auto; lia.
  - intros c Hc. rewrite zn_mod64, B3 by lia. apply Z.mod_small. apply (OO_small L T); auto; lia.
  - intros s Hs. destruct (SU s Hs) as (v & PV & EV). exists (mod64 v). split; [apply superP_mod64; exact PV|]. intros k Hk. rewrite W2 by lia. rewrite EV by lia. symmetry. apply zn_mod64.
Qed.

(** ** Round trips *)
Lemma sel_round_trip L T m m' t r : 1 <= L < T -> T < 2 ^ 32 -> addresses_ok m -> addresses_ok m' -> bytes_ok m -> text_ok t -> zlen t < 2 ^ 57 -> 1 <= K t ->
  lost L T (text_bits t) = false -> build_sel L T m t = Ok r -> selP L T m t r ->
  exists f, save_sel r = Ok f /\ zlen f = 40 + 16 * nbk L t + O1 L T t (nbk L t) /\ text_ok f /\
    (forall rest, text_ok rest -> exists r', load_sel m' (f ++ rest) = Ok (Loaded r' rest) /\ selP L T m' t r') /\
    (forall k, 0 <= k < zlen f -> load_sel m' (cut f k) = Ok Exits).
Proof.
  intros HL HT A A' HB H Hl HK LO E SP. destruct (build_sel_bytes L T m t r HL HT A HB H ltac:(lia) E) as [OB ZB]. rewrite lost_iff in LO by auto.
  pose proof SP as (Z1 & B2 & B3 & B4 & B5 & E1 & E2 & E3). destruct A as (A1 & A2 & A3 & A4). pose proof (slack_ok _ A2). pose proof (room_bound (m_addr_b m)).
  pose proof (nbk_pos L t ltac:(lia)) as NP. pose proof (O1_bound L T t (nbk L t) HL ltac:(lia)). pose proof (SS_bound L t (nbk L t) ltac:(lia) ltac:(lia)). pose proof (zlen_nonneg t).
  assert (NB : nbk L t <= K t + L) by (unfold nbk; apply Z.div_le_upper_bound; nia). pose proof (K_bound t).
  destruct (sel_round m' r A' ltac:(lia) ltac:(lia) ltac:(lia) ltac:(lia) ltac:(lia) OB) as (f & F1 & F2 & F3 & F4 & F5).
  exists f. split; [exact F1|]. split; [lia|]. split; [exact F3|]. split; [|exact F5]. intros rest Hr. destruct (F4 rest Hr) as (r' & R1 & R2). exists r'. split; [exact R1|].
  apply (sel_same L T m m' t r r'); auto; lia.
Qed.
Lemma selb_round_trip L T m m' t r : 1 <= L < T -> T < 2 ^ 32 -> addresses_ok m -> addresses_ok m' -> bytes_ok m -> text_ok t -> zlen t < 2 ^ 57 -> 1 <= K t ->
  lost L T (text_bits t) = false -> build_sel_bch L T m t = Ok r -> selbP L T m t r ->
  exists f, save_sel r = Ok f /\ zlen f = 24 + 168 * (nbk L t / 16 + 1) + O1 L T t (nbk L t) /\ text_ok f /\
    (forall rest, text_ok rest -> exists r', load_sel m' (f ++ rest) = Ok (Loaded r' rest) /\ selbP L T m' t r') /\
    (forall k, 0 <= k < zlen f -> load_sel m' (cut f k) = Ok Exits).
Proof.
  intros HL HT A A' HB H Hl HK LO E SP. destruct (build_sel_bch_bytes L T m t r HL HT A HB H ltac:(lia) E) as [OB ZB]. rewrite lost_iff in LO by auto.
  pose proof SP as (temp & B2 & B3 & B4 & B5 & SU & Z1 & E1 & E2 & E3). destruct A as (A1 & A2 & A3 & A4). pose proof (slack_ok _ A2). pose proof (room_bound (m_addr_b m)).
  pose proof (nbk_pos L t ltac:(lia)) as NP. pose proof (O1_bound L T t (nbk L t) HL ltac:(lia)). pose proof (SS_bound L t (nbk L t) ltac:(lia) ltac:(lia)). pose proof (zlen_nonneg t).
  assert (NB : nbk L t <= K t + L) by (unfold nbk; apply Z.div_le_upper_bound; nia). pose proof (K_bound t).
  destruct (sel_round m' r A' ltac:(lia) ltac:(lia) ltac:(lia) ltac:(lia) ltac:(lia) OB) as (f & F1 & F2 & F3 & F4 & F5).
  exists f. split; [exact F1|]. split; [lia|]. split; [exact F3|]. split; [|exact F5]. intros rest Hr. destruct (F4 rest Hr) as (r' & R1 & R2). exists r'. split; [exact R1|].
  apply (selb_same L T m m' t r r'); auto; lia.
Qed.
