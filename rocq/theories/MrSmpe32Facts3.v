(** The second and third pass of the build of SelectMPE32. *)
From Coq Require Import ZifyBool.
From Verif Require Import Base BaseFacts Mem MemFacts Words WordFacts BlockFacts NodeFacts Trees TreeBuild Spec BitmapFacts KernelFacts SpecPoppy PoppyFacts PoppyFacts2 SpecText MrRank MrRankFacts MrSelect MrSelectFacts MrSelectFacts2 MrSelectFacts3 MrMpe MrMpeFacts MrMpeFacts2 MrSelect32 MrSelect32Facts MrSelect32Facts2 MrSelect32Facts3 MrSmpe MrSmpeFacts MrSmpeFacts2 MrSmpeFacts3 MrSmpe32 MrSmpe32Facts MrSmpe32Facts2.
Ltac Zify.zify_post_hook ::= Z.div_mod_to_equations.

Lemma table_len_eq d : 1 <= d <= 2 ^ 32 -> table_len32 d = table_len d.
Proof. intros H. unfold table_len32, table_len. rewrite (wrap_small 32 (d - 1)), (wrap_small 64 (d - 1)) by lia. reflexivity. Qed.
Lemma choose3_eq M cont n d : 1 <= d <= 2 ^ 32 -> choose3_32 M cont n d = choose3 M cont n d.
Proof. intros H. unfold choose3_32, choose3. rewrite table_len_eq by lia. reflexivity. Qed.
Lemma store3_eq M th f cont n d bits bc : 1 <= d <= 2 ^ 32 -> store3_32 M th f cont n d bits bc = store3 M th f cont n d bits bc.
Proof. intros H. unfold store3_32, store3, store_both_32, store_both3, store_one_32, store_one3. rewrite table_len_eq by lia. reflexivity. Qed.

(** ** The form of each block *)
Definition cw32 (M : mpe_type) (L T : Z) (t : list Z) (c : Z) : Z := ww32 L T t c + hdc M L T t c - 2 * rnc M L T t c.
Definition CO32 (M : mpe_type) (L T : Z) (t : list Z) (c : Z) : Z := sumf (cw32 M L T t) 0 c.

Lemma cw_de32 M L T t c : de L T t c = true -> cw32 M L T t c = width (cz M L T t c) (co M L T t c) (gb L t c) (nb8 L t c) (tlen L t c).
Proof. intros D. apply de_true in D. destruct D as [D1 D2]. unfold cw32, width. rewrite (ww_de32 L T t c D1 D2). fold (nb8 L t c). unfold hdc, rnc. lia. Qed.
Lemma cw_plain32 M L T t c : 1 <= L -> 0 <= c < nbk L t -> cz M L T t c = false -> co M L T t c = false -> cw32 M L T t c = ww32 L T t c.
Proof. intros HL Hc E1 E2. unfold cw32. destruct (plain_zero M L T t c HL Hc E1 E2) as (_ & -> & ->). lia. Qed.
Lemma cw_nonneg32 M L T t c : 1 <= L -> zlen t < 2 ^ 29 -> 0 <= c < nbk L t -> 0 <= cw32 M L T t c.
Proof.
  intros HL Hl Hc. destruct (de L T t c) eqn:D.
  - rewrite cw_de32 by auto. unfold width. fold (hdc M L T t c) (rnc M L T t c). pose proof (hdc_bound M L T t c HL (small58 t Hl) Hc). pose proof (rnc_bound M L T t c HL Hc).
    pose proof (nb8_bound L t c HL Hc). lia.
  - destruct (not_de M L T t c D). rewrite cw_plain32 by auto. apply ww32_nonneg; auto.
Qed.
Lemma CO32_succ M L T t c : 0 <= c -> CO32 M L T t (c + 1) = CO32 M L T t c + cw32 M L T t c.
Proof. intros. apply sumf_succ. lia. Qed.
Lemma CO32_0 M L T t : CO32 M L T t 0 = 0.
Proof. reflexivity. Qed.
Lemma CO32_mono M L T t a b : 1 <= L -> zlen t < 2 ^ 29 -> 0 <= a <= b -> b <= nbk L t -> CO32 M L T t a <= CO32 M L T t b.
Proof. intros HL Hl Ha Hb. apply sumf_mono; [lia|]. intros i Hi. apply cw_nonneg32; lia. Qed.
Lemma CO32_nonneg M L T t a : 1 <= L -> zlen t < 2 ^ 29 -> 0 <= a <= nbk L t -> 0 <= CO32 M L T t a.
Proof. intros. rewrite <- (CO32_0 M L T t). apply CO32_mono; lia. Qed.
Lemma CO32_room M L T t c : 1 <= L -> zlen t < 2 ^ 29 -> 0 <= c < nbk L t -> CO32 M L T t c + cw32 M L T t c <= CO32 M L T t (nbk L t).
Proof. intros HL Hl Hc. rewrite <- CO32_succ by lia. apply CO32_mono; lia. Qed.
Lemma CO32_sum M L T t c : 0 <= c -> CO32 M L T t c = OO32 L T t c + AD M L T t c - 2 * RM M L T t c.
Proof.
  intros Hc. replace c with (Z.of_nat (Z.to_nat c)) in * by lia. set (n := Z.to_nat c) in *. clearbody n. induction n as [|n IH]; [reflexivity|].
  replace (Z.of_nat (S n)) with (Z.of_nat n + 1) by lia. rewrite CO32_succ, OO32_succ by lia. unfold AD, RM in *. rewrite !sumf_succ by lia. rewrite IH by lia. unfold cw32. lia.
Qed.
(** The size computed from the first two passes. *)
Lemma blen_nonneg32 M L T t : 1 <= L < T -> zlen t < 2 ^ 29 -> forall c, 0 <= c <= nbk L t -> 0 <= O132 L T t c + AD M L T t c - 2 * RM M L T t c.
Proof.
  intros HL Hl c Hc. replace c with (Z.of_nat (Z.to_nat c)) in * by lia. set (n := Z.to_nat c) in *. clearbody n. induction n as [|n IH]; [cbn; lia|].
  specialize (IH ltac:(lia)). replace (Z.of_nat (S n)) with (Z.of_nat n + 1) by lia. set (i := Z.of_nat n) in *. rewrite O132_succ by lia. unfold AD, RM in *. rewrite !sumf_succ by lia.
  pose proof (w132_bound L T t i HL ltac:(lia)). enough (0 <= w132 L T t i + hdc M L T t i - 2 * rnc M L T t i) by lia.
  assert (PL : cz M L T t i = false -> co M L T t i = false -> 0 <= w132 L T t i + hdc M L T t i - 2 * rnc M L T t i).
  { intros E1 E2. destruct (plain_zero M L T t i ltac:(lia) ltac:(lia) E1 E2) as (_ & -> & ->). lia. }
  destruct (de L T t i && (i + 1 <? nbk L t)) eqn:D.
  - apply andb_prop in D. destruct D as [D1 D2]. apply de_true in D1. destruct D1 as [D1 D3]. pose proof (hdc_bound M L T t i ltac:(lia) (small58 t Hl) ltac:(lia)).
    pose proof (rnc_bound M L T t i ltac:(lia) ltac:(lia)) as R. assert (F : fullb L t i = true) by (apply full_iff; lia).
    enough (nb8 L t i <= w132 L T t i) by (set (x := nb8 L t i) in *; clearbody x; lia).
    pose proof (DD_pos L t i ltac:(lia) ltac:(lia)). pose proof (DD_ge L t i ltac:(lia) ltac:(lia) F). unfold w132, nb8, ee. unfold sp in D1. rewrite F, D1. unfold mo, sp in D3. rewrite D1 in D3. cbn in D3.
    replace (DD L t i >? L) with true by lia. destruct (i =? 0); [apply up8_mono; lia|lia].
  - apply PL; unfold cz, co; rewrite D; reflexivity.
Qed.

(** ** The second pass *)
Definition chooseJ32 (M : mpe_type) (L T : Z) (t temp0 btc0 : list Z) (c k : Z) (st : list Z * list Z * Z * Z) : Prop :=
  let '(temp, btc, removed, added) := st in
  temp = temp0 /\ zlen btc = nbk L t /\ (forall c', 0 <= c' < c -> zn 0 btc c' = flagv M L T t c') /\ (forall c', c <= c' -> zn 0 btc c' = zn 0 btc0 c') /\
  removed = u32 (RM M L T t c) /\ added = u32 (AD M L T t c).
Definition chooseF32 (M : mpe_type) (L T : Z) (t temp0 btc0 : list Z) (st : list Z * list Z * Z * Z) : Prop :=
  let '(temp, btc, removed, added) := st in
  temp = temp0 /\ zlen btc = nbk L t /\ (forall c', 0 <= c' < nbk L t - 1 -> zn 0 btc c' = flagv M L T t c') /\
  zn 0 btc (nbk L t - 1) = (if K t mod L >? 0 then 0 else zn 0 btc0 (nbk L t - 1)) /\ removed = u32 (RM M L T t (nbk L t)) /\ added = u32 (AD M L T t (nbk L t)).

Lemma choose_good32 M L T t temp0 btc0 : 1 <= L < T -> zlen t < 2 ^ 29 -> evens L t temp0 ->
  good_pass (choose_pass32 M L (K t) (2 * nbk L t)) L T t False (chooseJ32 M L T t temp0 btc0) (chooseF32 M L T t temp0 btc0).
Proof.
  intros HL Hl [E1 E2]. split; [|split; [|split]].
  - intros c k [[[temp btc] removed] added] Hc (-> & _) c' Hc'. cbn [choose_pass32 p_sel]. split; [lia|auto].
  - intros c q [[[temp btc] removed] added] Hc Hs Hq Hb J. left. eexists. split; [reflexivity|]. exact J.
  - intros c [[[temp btc] removed] added] cont n Hc Hn Hd (-> & J1 & J2 & J3 & -> & ->). left. cbn [choose_pass32 p_end]. unfold choose_end32.
    replace (2 * (c + 1) / 2 - 1) with c by lia. rewrite seti_ok by lia. cbn [bind].
    pose proof (RM_bound M L T t (c + 1) ltac:(lia) ltac:(lia)) as RB. pose proof (AD_bound M L T t (c + 1) ltac:(lia) (small58 t Hl) ltac:(lia)) as AB. pose proof (SS_bound L t (c + 1) ltac:(lia) ltac:(lia)) as SB.
    assert (RS : RM M L T t (c + 1) = RM M L T t c + rnc M L T t c) by (apply sumf_succ; lia). assert (AS : AD M L T t (c + 1) = AD M L T t c + hdc M L T t c) by (apply sumf_succ; lia).
    destruct (de L T t c) eqn:D.
    + destruct (held_holds L T t c cont n D ltac:(lia) ltac:(lia) Hd) as [En Hh].
      rewrite choose3_eq by (pose proof (DD_pos L t c ltac:(lia) ltac:(lia)); pose proof (DD_le L t c ltac:(lia) ltac:(lia)); lia). rewrite (choose3_ok M (gb L t c)) by exact Hh. cbn [bind]. rewrite En. fold (tlen L t c).
      assert (Z1 : dz3 M (gn 0 (gb L t c) (nb8 L t c)) (gn 255 (gb L t c) (nb8 L t c)) (tlen L t c) = cz M L T t c) by (unfold cz; rewrite D; replace (c + 1 <? nbk L t) with true by lia; reflexivity).
      assert (O2 : do3 M (gn 0 (gb L t c) (nb8 L t c)) (gn 255 (gb L t c) (nb8 L t c)) (tlen L t c) = co M L T t c) by (unfold co; rewrite D; replace (c + 1 <? nbk L t) with true by lia; reflexivity).
      rewrite Z1, O2. rewrite seti_ok by (rewrite zlen_upd; lia). cbn [bind]. fold (flagv M L T t c) (rnc M L T t c) (hdc M L T t c). rewrite !wrap32_l. rewrite <- RS, <- AS.
      eexists. split; [reflexivity|]. split; [auto|]. rewrite !zlen_upd. split; [auto|]. split; [|split; [|auto]].
      * intros c' Hc'. rewrite !zn_upd by (rewrite ?zlen_upd; lia). destruct (c' =? c) eqn:EC; [f_equal; lia|]. apply J2. lia.
      * intros c' Hc'. rewrite !zn_upd by (rewrite ?zlen_upd; lia). replace (c' =? c) with false by lia. apply J3. lia.
    + destruct (not_de M L T t c D) as [N1 N2]. destruct (plain_zero M L T t c ltac:(lia) ltac:(lia) N1 N2) as (F0 & R0 & H0).
      eexists. split; [reflexivity|]. split; [auto|]. rewrite !zlen_upd. split; [auto|]. split; [|split; [|split; f_equal; lia]].
      * intros c' Hc'. rewrite !zn_upd by lia. destruct (c' =? c) eqn:EC; [replace c' with c by lia; auto|]. apply J2. lia.
      * intros c' Hc'. rewrite !zn_upd by lia. replace (c' =? c) with false by lia. apply J3. lia.
  - intros c [[[temp btc] removed] added] cont n Hc Hn Hd (-> & J1 & J2 & J3 & -> & ->). left. cbn [choose_pass32 p_last]. unfold choose_last.
    destruct (last_plain M L T t c Hn) as [N1 N2]. destruct (plain_zero M L T t c ltac:(lia) ltac:(lia) N1 N2) as (F0 & R0 & H0).
    assert (RS : RM M L T t (c + 1) = RM M L T t c + rnc M L T t c) by (apply sumf_succ; lia). assert (AS : AD M L T t (c + 1) = AD M L T t c + hdc M L T t c) by (apply sumf_succ; lia).
    unfold chooseF32. rewrite <- Hn. replace (2 * (c + 1) / 2 - 1) with c by lia. replace (c + 1 - 1) with c by lia. destruct (K t mod L >? 0) eqn:EK.
    + rewrite seti_ok by lia. cbn [bind]. eexists. split; [reflexivity|]. split; [auto|]. rewrite zlen_upd. split; [lia|]. split; [|split; [|split; f_equal; lia]].
      * intros c' Hc'. rewrite zn_upd by lia. replace (c' =? c) with false by lia. apply J2. lia.
      * rewrite zn_upd by lia. rewrite Z.eqb_refl. reflexivity.
    + eexists. split; [reflexivity|]. split; [auto|]. split; [lia|]. split; [auto|]. split; [apply J3; lia|]. split; f_equal; lia.
Qed.

(** ** The third pass *)
Definition spay32 (M : mpe_type) (L T : Z) (t bits : list Z) (c : Z) : Prop :=
  (sp L T t c = true -> forall k, 1 <= k <= ones_in L t c -> rd 4 bits (CO32 M L T t c + 4 * (k - 1)) = P t (c * L + k)) /\
  (de L T t c = true -> packed (cz M L T t c) (co M L T t c) (gb L t c) (nb8 L t c) (tlen L t c) bits (CO32 M L T t c)).

Lemma keep_spay32 M L T t bits bits' c : 1 <= L -> zlen t < 2 ^ 29 -> 0 <= c <= nbk L t -> (forall k, 0 <= k < CO32 M L T t c -> zn 0 bits' k = zn 0 bits k) ->
  (forall c', 0 <= c' < c -> spay32 M L T t bits c') -> forall c', 0 <= c' < c -> spay32 M L T t bits' c'.
Proof.
  intros HL Hl Hc A PL c' Hc'. destruct (PL c' Hc') as [P1 P2].
  pose proof (CO32_nonneg M L T t c' HL Hl ltac:(lia)). pose proof (CO32_mono M L T t (c' + 1) c HL Hl ltac:(lia) ltac:(lia)) as CM. rewrite CO32_succ in CM by lia. split.
  - intros S1 k Hk. rewrite <- (P1 S1 k Hk). apply rd_agree. intros i Hi. apply A. destruct (not_de M L T t c' (sp_de L T t c' S1)) as [N1 N2].
    rewrite (cw_plain32 M L T t c' HL ltac:(lia) N1 N2) in CM. rewrite (ww_sp32 L T t c' S1) in CM. lia.
  - intros D. pose proof (nb8_bound L t c' HL ltac:(lia)). pose proof (tlen_bound L t c' HL (small58 t Hl) ltac:(lia)). apply (packed_frame _ _ _ _ _ bits); auto; try lia. intros k Hk. apply A. rewrite <- cw_de32 in Hk by auto. lia.
Qed.

Definition storeJ32 (M : mpe_type) (L T : Z) (t temp0 btc : list Z) (cap c k : Z) (st : list Z * list Z * Z * Z) : Prop :=
  let '(temp, bits, bc, f) := st in
  zlen temp = zlen temp0 /\ (forall c', 0 <= c' <= nbk L t -> zn 0 temp (2 * c') = raw L t c') /\ (forall c', 0 <= c' <= c -> zn 0 temp (2 * c' + 1) = CO32 M L T t c') /\
  zlen bits = cap /\ bc = CO32 M L T t c + 4 * k /\ bc <= cap /\ f = zn 0 btc c /\ (forall c', 0 <= c' < c -> spay32 M L T t bits c') /\
  (sp L T t c = true -> forall k', 1 <= k' <= k -> rd 4 bits (CO32 M L T t c + 4 * (k' - 1)) = P t (c * L + k')).
Definition storeF32 (M : mpe_type) (L T : Z) (t temp0 : list Z) (cap : Z) (st : list Z * list Z * Z * Z) : Prop :=
  let '(temp, bits, bc, f) := st in
  zlen temp = zlen temp0 /\ (forall c', 0 <= c' <= nbk L t -> zn 0 temp (2 * c') = raw L t c') /\ (forall c', 0 <= c' < nbk L t -> zn 0 temp (2 * c' + 1) = CO32 M L T t c') /\
  zlen bits = cap /\ CO32 M L T t (nbk L t) <= cap /\ (forall c', 0 <= c' < nbk L t -> spay32 M L T t bits c').

Lemma sparse_store3_32 L t c q bits bc B : 1 <= L -> zlen t < 2 ^ 29 -> 0 <= c < nbk L t -> SS L t c <= q < SS L t (c + 1) -> tb t q = 1 -> 0 <= B ->
  bc = B + 4 * ts t (SS L t c) q -> bc + 4 <= zlen bits ->
  (forall k, 1 <= k <= ts t (SS L t c) q -> rd 4 bits (B + 4 * (k - 1)) = P t (c * L + k)) ->
  forall k, 1 <= k <= ts t (SS L t c) q + 1 -> rd 4 (wr 4 bits bc q) (B + 4 * (k - 1)) = P t (c * L + k).
Proof.
  intros HL Hl Hc Hq E HB Eb Hb R k Hk. pose proof (ts_bound t (SS L t c) q ltac:(lia)).
  pose proof (SS_bound L t c HL ltac:(lia)). pose proof (SS_bound L t (c + 1) HL ltac:(lia)).
  destruct (Z.eq_dec k (ts t (SS L t c) q + 1)) as [->|NE].
  - replace (B + 4 * (ts t (SS L t c) q + 1 - 1)) with bc by lia. rewrite rd_wr_same_w by (cbn; lia).
    rewrite <- (P_in L t c q) by auto. apply Z.mod_small. change (8 * Z.of_nat 4) with 32. lia.
  - rewrite <- R by lia. apply rd_agree. intros i Hi. apply zn_wr_below32; lia.
Qed.

Lemma all_seen_cw32 M L T t c : 1 <= L -> 0 <= c < nbk L t -> de L T t c = false -> 4 * all_seen L T t c = cw32 M L T t c.
Proof.
  intros HL Hc D. destruct (not_de M L T t c D) as [N1 N2]. rewrite (cw_plain32 M L T t c HL Hc N1 N2). unfold all_seen. destruct (sp L T t c) eqn:ES.
  - rewrite (ww_sp32 L T t c ES). reflexivity.
  - unfold de in D. rewrite ES in D. cbn in D. rewrite ww_mo32 by (destruct (mo L T t c); [reflexivity|discriminate]). reflexivity.
Qed.

Lemma store_good32 M L T t temp0 btc cap : 1 <= L < T -> zlen t < 2 ^ 29 -> evens L t temp0 -> zlen btc = nbk L t ->
  (forall c, 0 <= c < nbk L t - 1 -> zn 0 btc c = flagv M L T t c) ->
  good_pass (store_pass32 M T btc) L T t (cap < CO32 M L T t (nbk L t)) (storeJ32 M L T t temp0 btc cap) (storeF32 M L T t temp0 cap).
Proof.
  intros HL Hl [E1 _] ZB FB. split; [|split; [|split]].
  - intros c k [[[temp bits] bc] f] Hc (J1 & J2 & _) c' Hc'. cbn [store_pass32 p_sel]. split; [lia|auto].
  - intros c q [[[temp bits] bc] f] Hc Hs Hq Hb (J1 & J2 & J3 & J4 & -> & J6 & -> & J8 & J9). cbn [store_pass32 p_one]. unfold store_pos32. rewrite (wrap_small 32 q) by (pose proof (SS_bound L t c ltac:(lia) ltac:(lia)); pose proof (SS_bound L t (c + 1) ltac:(lia) ltac:(lia)); pose proof (ee_bound L t c ltac:(lia) Hc); unfold DD in *; lia).
    pose proof (CO32_nonneg M L T t c ltac:(lia) Hl ltac:(lia)) as CN. pose proof (CO32_room M L T t c ltac:(lia) Hl Hc) as CR.
    rewrite <- (all_seen_cw32 M L T t c ltac:(lia) Hc (sp_de L T t c Hs)) in CR. unfold all_seen in CR. rewrite Hs in CR.
    pose proof (ones_le L t c (q + 1 - SS L t c) ltac:(lia) Hc ltac:(lia)) as OL. replace (SS L t c + (q + 1 - SS L t c)) with (q + 1) in OL by lia.
    rewrite ts_succ in OL by lia. rewrite Hb in OL. pose proof (ts_bound t (SS L t c) q ltac:(lia)) as TB.
    assert (QS : SS L t c <= q < SS L t (c + 1)) by (pose proof (ee_bound L t c ltac:(lia) Hc); unfold DD in *; lia).
    destruct (store_or32 bits (CO32 M L T t c + 4 * ts t (SS L t c) q) q ltac:(lia)) as [[S1 ->]|[S1 ->]]; cbn [bind]; [left|right; split; [reflexivity|lia]].
    eexists. split; [reflexivity|]. split; [auto|]. split; [auto|]. split; [auto|]. rewrite zlen_wr. split; [auto|]. split; [lia|]. split; [lia|]. split; [auto|]. split.
    + apply (keep_spay32 M L T t bits); auto; try lia. intros k Hk. apply zn_wr_below32; lia.
    + intros _. apply sparse_store3_32; auto; lia.
  - intros c [[[temp bits] bc] f] cont n Hc Hn Hd (J1 & J2 & J3 & J4 & -> & J6 & -> & J8 & J9). cbn [store_pass32 p_end]. unfold store_end32.
    pose proof (CO32_nonneg M L T t c ltac:(lia) Hl ltac:(lia)) as CN. pose proof (CO32_room M L T t c ltac:(lia) Hl ltac:(lia)) as CR.
    assert (ST : (exists bits', (if de L T t c then store3_32 M T (zn 0 btc c) cont n (DD L t c) bits (CO32 M L T t c + 4 * all_seen L T t c) else Ok (bits, CO32 M L T t c + 4 * all_seen L T t c)) = Ok (bits', CO32 M L T t (c + 1)) /\
      zlen bits' = cap /\ CO32 M L T t (c + 1) <= cap /\ forall c', 0 <= c' < c + 1 -> spay32 M L T t bits' c') \/
      ((if de L T t c then store3_32 M T (zn 0 btc c) cont n (DD L t c) bits (CO32 M L T t c + 4 * all_seen L T t c) else Ok (bits, CO32 M L T t c + 4 * all_seen L T t c)) = Ub UB_bounds /\ cap < CO32 M L T t (nbk L t))).
    { destruct (de L T t c) eqn:D.
      - destruct (held_holds L T t c cont n D ltac:(lia) ltac:(lia) Hd) as [En Hh]. subst n. pose proof (dense_room L T t c ltac:(lia) ltac:(lia) D) as [DR _].
        assert (AS : all_seen L T t c = 0) by (apply de_true in D; unfold all_seen; destruct D as [-> _]; reflexivity). rewrite AS, Z.mul_0_r, Z.add_0_r in *. rewrite FB by lia.
        pose proof (cw_de32 M L T t c D) as CW. assert (F : fullb L t c = true) by (apply full_iff; lia).
        pose proof (nb8_bound L t c ltac:(lia) ltac:(lia)) as NB. pose proof (tlen_eq L t c ltac:(lia) (small58 t Hl) ltac:(lia)) as TE. pose proof (DD_pos L t c ltac:(lia) ltac:(lia)) as DP.
        pose proof (DD_le L t c ltac:(lia) ltac:(lia)) as DL. rewrite store3_eq by lia.
        assert (DT : DD L t c <= T) by (apply de_true in D; destruct D as [D _]; unfold sp in D; lia). assert (EE : ee L t c = DD L t c - 1) by (unfold ee; rewrite F; reflexivity).
        assert (Q1 : tlen L t c <= T / 8 / 2 / 8 + 1) by (rewrite TE; set (d := DD L t c) in *; clearbody d; clear - DT DP; lia).
        assert (Q2 : nb8 L t c <= 16 * tlen L t c) by (rewrite TE; set (d := DD L t c) in *; set (x := nb8 L t c) in *; clearbody d x; rewrite EE in NB; clear - NB DP; lia).
        pose proof (tlen_bound L t c ltac:(lia) (small58 t Hl) ltac:(lia)) as Q3.
        destruct (Z_le_gt_dec (CO32 M L T t c + cw32 M L T t c) cap) as [FI|NF].
        + left. destruct (store3_ok M (cz M L T t c) (co M L T t c) (gb L t c) (nb8 L t c) cont (DD L t c) T bits (CO32 M L T t c) Hh) as (bits' & E & (B1 & B2 & B3));
            [intros ->; symmetry; apply mpe1_co|exact Q1|exact Q2|fold (tlen L t c); lia|lia|fold (tlen L t c); lia|].
          fold (tlen L t c) in E, B2. rewrite <- CW in E. unfold flagv. rewrite E. exists bits'. rewrite CO32_succ by lia. split; [reflexivity|]. split; [lia|]. split; [lia|].
          intros c' Hc'. destruct (Z.eq_dec c' c) as [->|].
          * split; [|intros _; exact B2]. intros X. apply sp_de in X. congruence.
          * apply (keep_spay32 M L T t bits bits' c); auto; try lia.
        + right. split; [|lia]. apply (store3_bad M (cz M L T t c) (co M L T t c) (gb L t c));
            [exact Hh|intros ->; symmetry; apply mpe1_co|exact Q1|exact Q2|fold (tlen L t c); lia|lia|fold (tlen L t c); lia].
      - rewrite (all_seen_cw32 M L T t c ltac:(lia) ltac:(lia) D) in *. left. exists bits. rewrite CO32_succ by lia. split; [reflexivity|]. split; [auto|]. split; [lia|].
        intros c' Hc'. destruct (Z.eq_dec c' c) as [->|]; [|apply J8; lia]. split; [|congruence]. intros S1. unfold all_seen in J9. rewrite S1 in J9. auto. }
    destruct ST as [(bits' & -> & B1 & B3 & B2)|[-> X]]; cbn [bind]; [left|right; auto]. rewrite seti_ok by lia. cbn [bind]. replace (2 * (c + 1) / 2) with (c + 1) by lia. rewrite geti_ok by lia. cbn [bind].
    eexists. split; [reflexivity|]. split; [rewrite zlen_upd; auto|]. split; [|split; [|split; [auto|split; [lia|split; [lia|split; [auto|split; [auto|]]]]]]].
    + intros c' Hc'. rewrite zn_upd by lia. replace (2 * c' =? 2 * (c + 1) + 1) with false by lia. auto.
    + intros c' Hc'. rewrite zn_upd by lia. destruct (2 * c' + 1 =? 2 * (c + 1) + 1) eqn:E; [f_equal; lia|]. apply J3. lia.
    + intros; lia.
  - intros c [[[temp bits] bc] f] cont n Hc Hn Hd (J1 & J2 & J3 & J4 & -> & J6 & -> & J8 & J9). cbn [store_pass32 p_last]. unfold store_last.
    pose proof (CO32_nonneg M L T t c ltac:(lia) Hl ltac:(lia)) as CN. assert (CC : CO32 M L T t (nbk L t) = CO32 M L T t c + cw32 M L T t c) by (rewrite <- Hn, CO32_succ by lia; reflexivity).
    destruct (last_plain M L T t c Hn) as [N1 N2]. destruct (de L T t c) eqn:D.
    + destruct (held_holds L T t c cont n D ltac:(lia) ltac:(lia) Hd) as [En Hh].
      assert (AS : all_seen L T t c = 0) by (apply de_true in D; unfold all_seen; destruct D as [-> _]; reflexivity). rewrite AS, Z.mul_0_r, Z.add_0_r in *.
      pose proof (cw_de32 M L T t c D) as CW. pose proof (nb8_bound L t c ltac:(lia) ltac:(lia)) as NB. rewrite N1, N2 in CW. rewrite width_plain in CW by lia. subst n.
      destruct (store_plain3_or (gb L t c) (nb8 L t c) cont bits (CO32 M L T t c) Hh CN) as [(b' & -> & B1 & B2 & B3 & B4)|[-> X]]; cbn [bind]; [left|right; split; [reflexivity|lia]].
      eexists. split; [reflexivity|]. split; [auto|]. split; [auto|]. split; [intros; apply J3; lia|]. split; [lia|]. split; [lia|]. intros c' Hc'. destruct (Z.eq_dec c' c) as [->|].
      * split; [|intros _; rewrite N1, N2; apply plain_packed; auto; lia]. intros X. apply sp_de in X. congruence.
      * apply (keep_spay32 M L T t bits b' c); auto; try lia.
    + cbn [bind]. left. pose proof (all_seen_cw32 M L T t c ltac:(lia) ltac:(lia) D) as AS. eexists. split; [reflexivity|]. split; [auto|]. split; [auto|]. split; [intros; apply J3; lia|].
      split; [auto|]. split; [lia|]. intros c' Hc'. destruct (Z.eq_dec c' c) as [->|]; [|apply J8; lia]. split; [|congruence]. intros S1. unfold all_seen in J9. rewrite S1 in J9. auto.
Qed.
