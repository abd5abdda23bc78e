(** The second and third pass of the build of SelectMPE64. *)
From Coq Require Import ZifyBool.
From Verif Require Import Base BaseFacts Mem MemFacts Words WordFacts BlockFacts NodeFacts Trees TreeBuild Spec BitmapFacts KernelFacts SpecPoppy PoppyFacts PoppyFacts2 SpecText MrRank MrRankFacts MrSelect MrSelectFacts MrSelectFacts2 MrSelectFacts3 MrMpe MrMpeFacts MrMpeFacts2 MrSmpe MrSmpeFacts MrSmpeFacts2.
Ltac Zify.zify_post_hook ::= Z.div_mod_to_equations.

(** ** The form of each block *)
Definition gb (L : Z) (t : list Z) (c j : Z) : Z := bpart t (SS L t c + 8 * j) (Z.min 8 (ee L t c - 8 * j)).
Definition nb8 (L : Z) (t : list Z) (c : Z) : Z := up8 (ee L t c).
Definition tlen (L : Z) (t : list Z) (c : Z) : Z := table_len (DD L t c).
Definition cz (M : mpe_type) (L T : Z) (t : list Z) (c : Z) : bool :=
  de L T t c && (c + 1 <? nbk L t) && dz3 M (gn 0 (gb L t c) (nb8 L t c)) (gn 255 (gb L t c) (nb8 L t c)) (tlen L t c).
Definition co (M : mpe_type) (L T : Z) (t : list Z) (c : Z) : bool :=
  de L T t c && (c + 1 <? nbk L t) && do3 M (gn 0 (gb L t c) (nb8 L t c)) (gn 255 (gb L t c) (nb8 L t c)) (tlen L t c).
Definition flagv (M : mpe_type) (L T : Z) (t : list Z) (c : Z) : Z := code M (cz M L T t c) (co M L T t c).
Definition rnc (M : mpe_type) (L T : Z) (t : list Z) (c : Z) : Z := rn (cz M L T t c) (co M L T t c) (gb L t c) (nb8 L t c).
Definition hdc (M : mpe_type) (L T : Z) (t : list Z) (c : Z) : Z := heads (cz M L T t c) (co M L T t c) (tlen L t c).
Definition cw (M : mpe_type) (L T : Z) (t : list Z) (c : Z) : Z := ww L T t c + hdc M L T t c - 2 * rnc M L T t c.
Definition CO (M : mpe_type) (L T : Z) (t : list Z) (c : Z) : Z := sumf (cw M L T t) 0 c.

Lemma mpe1_co L T t c : co MPE1 L T t c = cz MPE1 L T t c.
Proof. reflexivity. Qed.
Lemma not_de M L T t c : de L T t c = false -> cz M L T t c = false /\ co M L T t c = false.
Proof. intros E. unfold cz, co. rewrite E. auto. Qed.
Lemma last_plain M L T t c : c + 1 = nbk L t -> cz M L T t c = false /\ co M L T t c = false.
Proof. intros E. unfold cz, co. replace (c + 1 <? nbk L t) with false by lia. rewrite andb_false_r. auto. Qed.
Lemma plain_zero M L T t c : 1 <= L -> 0 <= c < nbk L t -> cz M L T t c = false -> co M L T t c = false -> flagv M L T t c = 0 /\ rnc M L T t c = 0 /\ hdc M L T t c = 0.
Proof.
  intros HL Hc E1 E2. unfold flagv, rnc, hdc. rewrite E1, E2. pose proof (ee_bound L t c HL Hc). pose proof (up8_bound (ee L t c) ltac:(lia)).
  split; [destruct M; reflexivity|]. split; [unfold rn; apply cnt_none; unfold nb8; lia|]. unfold heads. cbn [b2z]. lia.
Qed.
Lemma nb8_bound L t c : 1 <= L -> 0 <= c < nbk L t -> 0 <= nb8 L t c <= DD L t c /\ 8 * nb8 L t c <= ee L t c + 7.
Proof. intros HL Hc. pose proof (ee_bound L t c HL Hc) as E. pose proof (up8_bound (ee L t c) ltac:(lia)) as U. pose proof (DD_pos L t c HL Hc). unfold nb8. lia. Qed.
Lemma tlen_eq L t c : 1 <= L -> zlen t < 2 ^ 58 -> 0 <= c < nbk L t -> tlen L t c = (DD L t c - 1) / 128 + 1.
Proof. intros HL Hl Hc. pose proof (DD_pos L t c HL Hc). pose proof (DD_le L t c HL Hc). unfold tlen, table_len. rewrite wrap_small by lia. reflexivity. Qed.
Lemma tlen_bound L t c : 1 <= L -> zlen t < 2 ^ 58 -> 0 <= c < nbk L t -> 1 <= tlen L t c <= DD L t c.
Proof. intros HL Hl Hc. pose proof (DD_pos L t c HL Hc). rewrite tlen_eq by lia. set (d := DD L t c) in *. clearbody d. clear - H. lia. Qed.
Lemma rnc_bound M L T t c : 1 <= L -> 0 <= c < nbk L t -> 0 <= rnc M L T t c <= nb8 L t c / 2.
Proof. intros HL Hc. pose proof (nb8_bound L t c HL Hc). apply rn_bound. lia. Qed.
Lemma hdc_bound M L T t c : 1 <= L -> zlen t < 2 ^ 58 -> 0 <= c < nbk L t -> 0 <= hdc M L T t c <= 2 * tlen L t c.
Proof. intros HL Hl Hc. pose proof (tlen_bound L t c HL Hl Hc). unfold hdc, heads. destruct (cz M L T t c), (co M L T t c); cbn [b2z]; lia. Qed.
Lemma cw_de M L T t c : de L T t c = true -> cw M L T t c = width (cz M L T t c) (co M L T t c) (gb L t c) (nb8 L t c) (tlen L t c).
Proof. intros D. apply de_true in D. destruct D as [D1 D2]. unfold cw, width. rewrite (ww_de L T t c D1 D2). fold (nb8 L t c). unfold hdc, rnc. lia. Qed.
Lemma cw_plain M L T t c : 1 <= L -> 0 <= c < nbk L t -> cz M L T t c = false -> co M L T t c = false -> cw M L T t c = ww L T t c.
Proof. intros HL Hc E1 E2. unfold cw. destruct (plain_zero M L T t c HL Hc E1 E2) as (_ & -> & ->). lia. Qed.
Lemma cw_nonneg M L T t c : 1 <= L -> zlen t < 2 ^ 58 -> 0 <= c < nbk L t -> 0 <= cw M L T t c.
Proof.
  intros HL Hl Hc. destruct (de L T t c) eqn:D.
  - rewrite cw_de by auto. unfold width. fold (hdc M L T t c) (rnc M L T t c). pose proof (hdc_bound M L T t c HL Hl Hc). pose proof (rnc_bound M L T t c HL Hc).
    pose proof (nb8_bound L t c HL Hc). lia.
  - destruct (not_de M L T t c D). rewrite cw_plain by auto. apply ww_nonneg; auto.
Qed.
Lemma CO_succ M L T t c : 0 <= c -> CO M L T t (c + 1) = CO M L T t c + cw M L T t c.
Proof. intros. apply sumf_succ. lia. Qed.
Lemma CO_0 M L T t : CO M L T t 0 = 0.
Proof. reflexivity. Qed.
Lemma CO_mono M L T t a b : 1 <= L -> zlen t < 2 ^ 58 -> 0 <= a <= b -> b <= nbk L t -> CO M L T t a <= CO M L T t b.
Proof. intros HL Hl Ha Hb. apply sumf_mono; [lia|]. intros i Hi. apply cw_nonneg; lia. Qed.
Lemma CO_nonneg M L T t a : 1 <= L -> zlen t < 2 ^ 58 -> 0 <= a <= nbk L t -> 0 <= CO M L T t a.
Proof. intros. rewrite <- (CO_0 M L T t). apply CO_mono; lia. Qed.
Lemma CO_room M L T t c : 1 <= L -> zlen t < 2 ^ 58 -> 0 <= c < nbk L t -> CO M L T t c + cw M L T t c <= CO M L T t (nbk L t).
Proof. intros HL Hl Hc. rewrite <- CO_succ by lia. apply CO_mono; lia. Qed.

(** Sums over the blocks. *)
Lemma sum_SS f k L t : 1 <= L -> (forall c, 0 <= c < nbk L t -> 0 <= f c <= k * DD L t c) -> forall c, 0 <= c <= nbk L t -> 0 <= sumf f 0 c <= k * SS L t c.
Proof.
  intros HL H c Hc. replace c with (Z.of_nat (Z.to_nat c)) in * by lia. set (n := Z.to_nat c) in *. clearbody n. induction n as [|n IH].
  - change (Z.of_nat 0) with 0. rewrite SS_0. rewrite sumf_empty by lia. lia.
  - specialize (IH ltac:(lia)). pose proof (H (Z.of_nat n) ltac:(lia)) as Hf. replace (Z.of_nat (S n)) with (Z.of_nat n + 1) by lia. rewrite sumf_succ by lia. unfold DD in Hf. lia.
Qed.
Definition RM (M : mpe_type) (L T : Z) (t : list Z) (c : Z) : Z := sumf (rnc M L T t) 0 c.
Definition AD (M : mpe_type) (L T : Z) (t : list Z) (c : Z) : Z := sumf (hdc M L T t) 0 c.
Lemma RM_bound M L T t c : 1 <= L -> 0 <= c <= nbk L t -> 0 <= RM M L T t c <= 1 * SS L t c.
Proof.
  intros HL. apply sum_SS; auto. intros i Hi. pose proof (rnc_bound M L T t i HL Hi) as R. pose proof (nb8_bound L t i HL Hi) as N.
  set (a := nb8 L t i) in *. set (b := DD L t i) in *. clearbody a b. clear - R N. lia.
Qed.
Lemma AD_bound M L T t c : 1 <= L -> zlen t < 2 ^ 58 -> 0 <= c <= nbk L t -> 0 <= AD M L T t c <= 2 * SS L t c.
Proof. intros HL Hl. apply sum_SS; auto. intros i Hi. pose proof (hdc_bound M L T t i HL Hl Hi). pose proof (tlen_bound L t i HL Hl Hi). lia. Qed.
Lemma CO_sum M L T t c : 0 <= c -> CO M L T t c = OO L T t c + AD M L T t c - 2 * RM M L T t c.
Proof.
  intros Hc. replace c with (Z.of_nat (Z.to_nat c)) in * by lia. set (n := Z.to_nat c) in *. clearbody n. induction n as [|n IH]; [reflexivity|].
  replace (Z.of_nat (S n)) with (Z.of_nat n + 1) by lia. rewrite CO_succ, OO_succ by lia. unfold AD, RM in *. rewrite !sumf_succ by lia. rewrite IH by lia. unfold cw. lia.
Qed.
(** The size computed from the first two passes. *)
Lemma blen_nonneg M L T t : 1 <= L < T -> zlen t < 2 ^ 58 -> forall c, 0 <= c <= nbk L t -> 0 <= O1 L T t c + AD M L T t c - 2 * RM M L T t c.
Proof.
  intros HL Hl c Hc. replace c with (Z.of_nat (Z.to_nat c)) in * by lia. set (n := Z.to_nat c) in *. clearbody n. induction n as [|n IH]; [cbn; lia|].
  specialize (IH ltac:(lia)). replace (Z.of_nat (S n)) with (Z.of_nat n + 1) by lia. set (i := Z.of_nat n) in *. rewrite O1_succ by lia. unfold AD, RM in *. rewrite !sumf_succ by lia.
  pose proof (w1_bound L T t i HL ltac:(lia)). enough (0 <= w1 L T t i + hdc M L T t i - 2 * rnc M L T t i) by lia.
  assert (PL : cz M L T t i = false -> co M L T t i = false -> 0 <= w1 L T t i + hdc M L T t i - 2 * rnc M L T t i).
  { intros E1 E2. destruct (plain_zero M L T t i ltac:(lia) ltac:(lia) E1 E2) as (_ & -> & ->). lia. }
  destruct (de L T t i && (i + 1 <? nbk L t)) eqn:D.
  - apply andb_prop in D. destruct D as [D1 D2]. apply de_true in D1. destruct D1 as [D1 D3]. pose proof (hdc_bound M L T t i ltac:(lia) Hl ltac:(lia)).
    pose proof (rnc_bound M L T t i ltac:(lia) ltac:(lia)) as R. assert (F : fullb L t i = true) by (apply full_iff; lia).
    enough (nb8 L t i <= w1 L T t i) by (set (x := nb8 L t i) in *; clearbody x; lia).
    pose proof (DD_pos L t i ltac:(lia) ltac:(lia)). pose proof (DD_ge L t i ltac:(lia) ltac:(lia) F). unfold w1, nb8, ee. unfold sp in D1. rewrite F, D1. unfold mo, sp in D3. rewrite D1 in D3. cbn in D3.
    replace (DD L t i >? L) with true by lia. destruct (i =? 0); [apply up8_mono; lia|lia].
  - apply PL; unfold cz, co; rewrite D; reflexivity.
Qed.

(** ** The second pass *)
Lemma held_holds L T t c cont n : de L T t c = true -> 1 <= L -> 0 <= c < nbk L t -> held L T t c cont n -> n = nb8 L t c /\ holds (gb L t c) n cont.
Proof.
  intros D HL Hc (H1 & H2). destruct (H2 D) as (-> & H3 & H4). pose proof (nb8_bound L t c HL Hc). split; [reflexivity|]. split; [unfold nb8 in *; lia|]. split; [exact H4|].
  intros j Hj. pose proof (ee_bound L t c HL Hc) as EB. pose proof (up8_bound (ee L t c) ltac:(lia)) as UB. unfold nb8 in Hj. apply (wrap_small 8). apply bpart_byte. lia.
Qed.

Definition chooseJ (M : mpe_type) (L T : Z) (t temp0 btc0 : list Z) (c k : Z) (st : list Z * list Z * Z * Z) : Prop :=
  let '(temp, btc, removed, added) := st in
  temp = temp0 /\ zlen btc = nbk L t /\ (forall c', 0 <= c' < c -> zn 0 btc c' = flagv M L T t c') /\ (forall c', c <= c' -> zn 0 btc c' = zn 0 btc0 c') /\
  removed = RM M L T t c /\ added = AD M L T t c.
Definition chooseF (M : mpe_type) (L T : Z) (t temp0 btc0 : list Z) (st : list Z * list Z * Z * Z) : Prop :=
  let '(temp, btc, removed, added) := st in
  temp = temp0 /\ zlen btc = nbk L t /\ (forall c', 0 <= c' < nbk L t - 1 -> zn 0 btc c' = flagv M L T t c') /\
  zn 0 btc (nbk L t - 1) = (if K t mod L >? 0 then 0 else zn 0 btc0 (nbk L t - 1)) /\ removed = RM M L T t (nbk L t) /\ added = AD M L T t (nbk L t).

Definition evens (L : Z) (t temp : list Z) : Prop := 2 * nbk L t + 2 <= zlen temp /\ forall c, 0 <= c <= nbk L t -> zn 0 temp (2 * c) = raw L t c.

Lemma choose_good M L T t temp0 btc0 : 1 <= L < T -> zlen t < 2 ^ 58 -> evens L t temp0 ->
  good_pass (choose_pass M L (K t) (2 * nbk L t)) L T t False (chooseJ M L T t temp0 btc0) (chooseF M L T t temp0 btc0).
Proof.
  intros HL Hl [E1 E2]. split; [|split; [|split]].
  - intros c k [[[temp btc] removed] added] Hc (-> & _) c' Hc'. cbn [choose_pass p_sel]. split; [lia|auto].
  - intros c q [[[temp btc] removed] added] Hc Hs Hq Hb J. left. eexists. split; [reflexivity|]. exact J.
  - intros c [[[temp btc] removed] added] cont n Hc Hn Hd (-> & J1 & J2 & J3 & -> & ->). left. cbn [choose_pass p_end]. unfold choose_end.
    replace (2 * (c + 1) / 2 - 1) with c by lia. rewrite seti_ok by lia. cbn [bind].
    pose proof (RM_bound M L T t (c + 1) ltac:(lia) ltac:(lia)) as RB. pose proof (AD_bound M L T t (c + 1) ltac:(lia) Hl ltac:(lia)) as AB. pose proof (SS_bound L t (c + 1) ltac:(lia) ltac:(lia)) as SB.
    assert (RS : RM M L T t (c + 1) = RM M L T t c + rnc M L T t c) by (apply sumf_succ; lia). assert (AS : AD M L T t (c + 1) = AD M L T t c + hdc M L T t c) by (apply sumf_succ; lia).
    destruct (de L T t c) eqn:D.
    + destruct (held_holds L T t c cont n D ltac:(lia) ltac:(lia) Hd) as [En Hh].
      rewrite (choose3_ok M (gb L t c)) by exact Hh. cbn [bind]. rewrite En. fold (tlen L t c).
      assert (Z1 : dz3 M (gn 0 (gb L t c) (nb8 L t c)) (gn 255 (gb L t c) (nb8 L t c)) (tlen L t c) = cz M L T t c) by (unfold cz; rewrite D; replace (c + 1 <? nbk L t) with true by lia; reflexivity).
      assert (O2 : do3 M (gn 0 (gb L t c) (nb8 L t c)) (gn 255 (gb L t c) (nb8 L t c)) (tlen L t c) = co M L T t c) by (unfold co; rewrite D; replace (c + 1 <? nbk L t) with true by lia; reflexivity).
      rewrite Z1, O2. rewrite seti_ok by (rewrite zlen_upd; lia). cbn [bind]. fold (flagv M L T t c) (rnc M L T t c) (hdc M L T t c). rewrite <- RS, <- AS.
      rewrite !wrap_small by lia. eexists. split; [reflexivity|]. split; [auto|]. rewrite !zlen_upd. split; [auto|]. split; [|split; [|auto]].
      * intros c' Hc'. rewrite !zn_upd by (rewrite ?zlen_upd; lia). destruct (c' =? c) eqn:EC; [f_equal; lia|]. apply J2. lia.
      * intros c' Hc'. rewrite !zn_upd by (rewrite ?zlen_upd; lia). replace (c' =? c) with false by lia. apply J3. lia.
    + destruct (not_de M L T t c D) as [N1 N2]. destruct (plain_zero M L T t c ltac:(lia) ltac:(lia) N1 N2) as (F0 & R0 & H0).
      eexists. split; [reflexivity|]. split; [auto|]. rewrite !zlen_upd. split; [auto|]. split; [|split; [|split; lia]].
      * intros c' Hc'. rewrite !zn_upd by lia. destruct (c' =? c) eqn:EC; [replace c' with c by lia; auto|]. apply J2. lia.
      * intros c' Hc'. rewrite !zn_upd by lia. replace (c' =? c) with false by lia. apply J3. lia.
  - intros c [[[temp btc] removed] added] cont n Hc Hn Hd (-> & J1 & J2 & J3 & -> & ->). left. cbn [choose_pass p_last]. unfold choose_last.
    destruct (last_plain M L T t c Hn) as [N1 N2]. destruct (plain_zero M L T t c ltac:(lia) ltac:(lia) N1 N2) as (F0 & R0 & H0).
    assert (RS : RM M L T t (c + 1) = RM M L T t c + rnc M L T t c) by (apply sumf_succ; lia). assert (AS : AD M L T t (c + 1) = AD M L T t c + hdc M L T t c) by (apply sumf_succ; lia).
    unfold chooseF. rewrite <- Hn. replace (2 * (c + 1) / 2 - 1) with c by lia. replace (c + 1 - 1) with c by lia. destruct (K t mod L >? 0) eqn:EK.
    + rewrite seti_ok by lia. cbn [bind]. eexists. split; [reflexivity|]. split; [auto|]. rewrite zlen_upd. split; [lia|]. split; [|split; [|split; lia]].
      * intros c' Hc'. rewrite zn_upd by lia. replace (c' =? c) with false by lia. apply J2. lia.
      * rewrite zn_upd by lia. rewrite Z.eqb_refl. reflexivity.
    + eexists. split; [reflexivity|]. split; [auto|]. split; [lia|]. split; [auto|]. split; [apply J3; lia|]. split; lia.
Qed.

(** ** The third pass *)
Definition spay (M : mpe_type) (L T : Z) (t bits : list Z) (c : Z) : Prop :=
  (sp L T t c = true -> forall k, 1 <= k <= ones_in L t c -> rd 8 bits (CO M L T t c + 8 * (k - 1)) = P t (c * L + k)) /\
  (de L T t c = true -> packed (cz M L T t c) (co M L T t c) (gb L t c) (nb8 L t c) (tlen L t c) bits (CO M L T t c)).

Lemma keep_spay M L T t bits bits' c : 1 <= L -> zlen t < 2 ^ 58 -> 0 <= c <= nbk L t -> (forall k, 0 <= k < CO M L T t c -> zn 0 bits' k = zn 0 bits k) ->
  (forall c', 0 <= c' < c -> spay M L T t bits c') -> forall c', 0 <= c' < c -> spay M L T t bits' c'.
Proof.
  intros HL Hl Hc A PL c' Hc'. destruct (PL c' Hc') as [P1 P2].
  pose proof (CO_nonneg M L T t c' HL Hl ltac:(lia)). pose proof (CO_mono M L T t (c' + 1) c HL Hl ltac:(lia) ltac:(lia)) as CM. rewrite CO_succ in CM by lia. split.
  - intros S1 k Hk. rewrite <- (P1 S1 k Hk). apply rd_agree. intros i Hi. apply A. destruct (not_de M L T t c' (sp_de L T t c' S1)) as [N1 N2].
    rewrite (cw_plain M L T t c' HL ltac:(lia) N1 N2) in CM. rewrite (ww_sp L T t c' S1) in CM. lia.
  - intros D. pose proof (nb8_bound L t c' HL ltac:(lia)). pose proof (tlen_bound L t c' HL Hl ltac:(lia)). apply (packed_frame _ _ _ _ _ bits); auto; try lia. intros k Hk. apply A. rewrite <- cw_de in Hk by auto. lia.
Qed.

Definition storeJ (M : mpe_type) (L T : Z) (t temp0 btc : list Z) (cap c k : Z) (st : list Z * list Z * Z * Z) : Prop :=
  let '(temp, bits, bc, f) := st in
  zlen temp = zlen temp0 /\ (forall c', 0 <= c' <= nbk L t -> zn 0 temp (2 * c') = raw L t c') /\ (forall c', 0 <= c' <= c -> zn 0 temp (2 * c' + 1) = CO M L T t c') /\
  zlen bits = cap /\ bc = CO M L T t c + 8 * k /\ bc <= cap /\ f = zn 0 btc c /\ (forall c', 0 <= c' < c -> spay M L T t bits c') /\
  (sp L T t c = true -> forall k', 1 <= k' <= k -> rd 8 bits (CO M L T t c + 8 * (k' - 1)) = P t (c * L + k')).
Definition storeF (M : mpe_type) (L T : Z) (t temp0 : list Z) (cap : Z) (st : list Z * list Z * Z * Z) : Prop :=
  let '(temp, bits, bc, f) := st in
  zlen temp = zlen temp0 /\ (forall c', 0 <= c' <= nbk L t -> zn 0 temp (2 * c') = raw L t c') /\ (forall c', 0 <= c' < nbk L t -> zn 0 temp (2 * c' + 1) = CO M L T t c') /\
  zlen bits = cap /\ CO M L T t (nbk L t) <= cap /\ (forall c', 0 <= c' < nbk L t -> spay M L T t bits c').

Lemma sparse_store3 L t c q bits bc B : 1 <= L -> zlen t < 2 ^ 58 -> 0 <= c < nbk L t -> SS L t c <= q < SS L t (c + 1) -> tb t q = 1 -> 0 <= B ->
  bc = B + 8 * ts t (SS L t c) q -> bc + 8 <= zlen bits ->
  (forall k, 1 <= k <= ts t (SS L t c) q -> rd 8 bits (B + 8 * (k - 1)) = P t (c * L + k)) ->
  forall k, 1 <= k <= ts t (SS L t c) q + 1 -> rd 8 (wr 8 bits bc q) (B + 8 * (k - 1)) = P t (c * L + k).
Proof.
  intros HL Hl Hc Hq E HB Eb Hb R k Hk. pose proof (ts_bound t (SS L t c) q ltac:(lia)).
  pose proof (SS_bound L t c HL ltac:(lia)). pose proof (SS_bound L t (c + 1) HL ltac:(lia)).
  destruct (Z.eq_dec k (ts t (SS L t c) q + 1)) as [->|NE].
  - replace (B + 8 * (ts t (SS L t c) q + 1 - 1)) with bc by lia. rewrite rd_wr_same_w by (cbn; lia).
    rewrite <- (P_in L t c q) by auto. apply Z.mod_small. change (8 * Z.of_nat 8) with 64. lia.
  - rewrite <- R by lia. apply rd_agree. intros i Hi. apply zn_wr_below; lia.
Qed.

Lemma all_seen_cw M L T t c : 1 <= L -> 0 <= c < nbk L t -> de L T t c = false -> 8 * all_seen L T t c = cw M L T t c.
Proof.
  intros HL Hc D. destruct (not_de M L T t c D) as [N1 N2]. rewrite (cw_plain M L T t c HL Hc N1 N2). unfold all_seen. destruct (sp L T t c) eqn:ES.
  - rewrite (ww_sp L T t c ES). reflexivity.
  - unfold de in D. rewrite ES in D. cbn in D. rewrite ww_mo by (destruct (mo L T t c); [reflexivity|discriminate]). reflexivity.
Qed.

Lemma store_good M L T t temp0 btc cap : 1 <= L < T -> zlen t < 2 ^ 58 -> evens L t temp0 -> zlen btc = nbk L t ->
  (forall c, 0 <= c < nbk L t - 1 -> zn 0 btc c = flagv M L T t c) -> (2 <= nbk L t -> CO M L T t (nbk L t) <= cap) ->
  good_pass (store_pass M T btc) L T t (cap < CO M L T t (nbk L t)) (storeJ M L T t temp0 btc cap) (storeF M L T t temp0 cap).
Proof.
  intros HL Hl [E1 _] ZB FB CAP. split; [|split; [|split]].
  - intros c k [[[temp bits] bc] f] Hc (J1 & J2 & _) c' Hc'. cbn [store_pass p_sel]. split; [lia|auto].
  - intros c q [[[temp bits] bc] f] Hc Hs Hq Hb (J1 & J2 & J3 & J4 & -> & J6 & -> & J8 & J9). cbn [store_pass p_one]. unfold store_pos.
    pose proof (CO_nonneg M L T t c ltac:(lia) Hl ltac:(lia)) as CN. pose proof (CO_room M L T t c ltac:(lia) Hl Hc) as CR.
    rewrite <- (all_seen_cw M L T t c ltac:(lia) Hc (sp_de L T t c Hs)) in CR. unfold all_seen in CR. rewrite Hs in CR.
    pose proof (ones_le L t c (q + 1 - SS L t c) ltac:(lia) Hc ltac:(lia)) as OL. replace (SS L t c + (q + 1 - SS L t c)) with (q + 1) in OL by lia.
    rewrite ts_succ in OL by lia. rewrite Hb in OL. pose proof (ts_bound t (SS L t c) q ltac:(lia)) as TB.
    assert (QS : SS L t c <= q < SS L t (c + 1)) by (pose proof (ee_bound L t c ltac:(lia) Hc); unfold DD in *; lia).
    destruct (store_or bits (CO M L T t c + 8 * ts t (SS L t c) q) q ltac:(lia)) as [[S1 ->]|[S1 ->]]; cbn [bind]; [left|right; split; [reflexivity|lia]].
    eexists. split; [reflexivity|]. split; [auto|]. split; [auto|]. split; [auto|]. rewrite zlen_wr. split; [auto|]. split; [lia|]. split; [lia|]. split; [auto|]. split.
    + apply (keep_spay M L T t bits); auto; try lia. intros k Hk. apply zn_wr_below; lia.
    + intros _. apply sparse_store3; auto; lia.
  - intros c [[[temp bits] bc] f] cont n Hc Hn Hd (J1 & J2 & J3 & J4 & -> & J6 & -> & J8 & J9). left. cbn [store_pass p_end]. unfold store_end.
    pose proof (CO_nonneg M L T t c ltac:(lia) Hl ltac:(lia)) as CN. pose proof (CO_room M L T t c ltac:(lia) Hl ltac:(lia)) as CR. specialize (CAP ltac:(lia)).
    assert (ST : exists bits', (if de L T t c then store3 M T (zn 0 btc c) cont n (DD L t c) bits (CO M L T t c + 8 * all_seen L T t c) else Ok (bits, CO M L T t c + 8 * all_seen L T t c)) = Ok (bits', CO M L T t (c + 1)) /\
      zlen bits' = cap /\ forall c', 0 <= c' < c + 1 -> spay M L T t bits' c').
    { destruct (de L T t c) eqn:D.
      - destruct (held_holds L T t c cont n D ltac:(lia) ltac:(lia) Hd) as [En Hh]. subst n. pose proof (dense_room L T t c ltac:(lia) ltac:(lia) D) as [DR _].
        assert (AS : all_seen L T t c = 0) by (apply de_true in D; unfold all_seen; destruct D as [-> _]; reflexivity). rewrite AS, Z.mul_0_r, Z.add_0_r. rewrite FB by lia.
        pose proof (cw_de M L T t c D) as CW. assert (F : fullb L t c = true) by (apply full_iff; lia).
        pose proof (nb8_bound L t c ltac:(lia) ltac:(lia)) as NB. pose proof (tlen_eq L t c ltac:(lia) Hl ltac:(lia)) as TE. pose proof (DD_pos L t c ltac:(lia) ltac:(lia)) as DP.
        assert (DT : DD L t c <= T) by (apply de_true in D; destruct D as [D _]; unfold sp in D; lia). assert (EE : ee L t c = DD L t c - 1) by (unfold ee; rewrite F; reflexivity).
        assert (Q1 : tlen L t c <= T / 8 / 2 / 8 + 1) by (rewrite TE; set (d := DD L t c) in *; clearbody d; clear - DT DP; lia).
        assert (Q2 : nb8 L t c <= 16 * tlen L t c) by (rewrite TE; set (d := DD L t c) in *; set (x := nb8 L t c) in *; clearbody d x; rewrite EE in NB; clear - NB DP; lia).
        pose proof (tlen_bound L t c ltac:(lia) Hl ltac:(lia)) as Q3.
        destruct (store3_ok M (cz M L T t c) (co M L T t c) (gb L t c) (nb8 L t c) cont (DD L t c) T bits (CO M L T t c) Hh) as (bits' & E & (B1 & B2 & B3));
          [intros ->; symmetry; apply mpe1_co|exact Q1|exact Q2|fold (tlen L t c); lia|lia|fold (tlen L t c); lia|].
        fold (tlen L t c) in E, B2. rewrite <- CW in E. unfold flagv. rewrite E. exists bits'. split; [rewrite CO_succ by lia; reflexivity|]. split; [lia|].
        intros c' Hc'. destruct (Z.eq_dec c' c) as [->|].
        + split; [|intros _; exact B2]. intros X. apply sp_de in X. congruence.
        + apply (keep_spay M L T t bits bits' c); auto; try lia.
      - rewrite (all_seen_cw M L T t c ltac:(lia) ltac:(lia) D). exists bits. split; [rewrite CO_succ by lia; reflexivity|]. split; [auto|].
        intros c' Hc'. destruct (Z.eq_dec c' c) as [->|]; [|apply J8; lia]. split; [|congruence]. intros S1. unfold all_seen in J9. rewrite S1 in J9. auto. }
    destruct ST as (bits' & -> & B1 & B2). cbn [bind]. rewrite seti_ok by lia. cbn [bind]. replace (2 * (c + 1) / 2) with (c + 1) by lia. rewrite geti_ok by lia. cbn [bind].
    pose proof (CO_mono M L T t (c + 1) (nbk L t) ltac:(lia) Hl ltac:(lia) ltac:(lia)) as CM.
    eexists. split; [reflexivity|]. split; [rewrite zlen_upd; auto|]. split; [|split; [|split; [auto|split; [lia|split; [lia|split; [auto|split; [auto|]]]]]]].
    + intros c' Hc'. rewrite zn_upd by lia. replace (2 * c' =? 2 * (c + 1) + 1) with false by lia. auto.
    + intros c' Hc'. rewrite zn_upd by lia. destruct (2 * c' + 1 =? 2 * (c + 1) + 1) eqn:E; [f_equal; lia|]. apply J3. lia.
    + intros; lia.
  - intros c [[[temp bits] bc] f] cont n Hc Hn Hd (J1 & J2 & J3 & J4 & -> & J6 & -> & J8 & J9). cbn [store_pass p_last]. unfold store_last.
    pose proof (CO_nonneg M L T t c ltac:(lia) Hl ltac:(lia)) as CN. assert (CC : CO M L T t (nbk L t) = CO M L T t c + cw M L T t c) by (rewrite <- Hn, CO_succ by lia; reflexivity).
    destruct (last_plain M L T t c Hn) as [N1 N2]. destruct (de L T t c) eqn:D.
    + destruct (held_holds L T t c cont n D ltac:(lia) ltac:(lia) Hd) as [En Hh].
      assert (AS : all_seen L T t c = 0) by (apply de_true in D; unfold all_seen; destruct D as [-> _]; reflexivity). rewrite AS, Z.mul_0_r, Z.add_0_r in *.
      pose proof (cw_de M L T t c D) as CW. pose proof (nb8_bound L t c ltac:(lia) ltac:(lia)) as NB. rewrite N1, N2 in CW. rewrite width_plain in CW by lia. subst n.
      destruct (store_plain3_or (gb L t c) (nb8 L t c) cont bits (CO M L T t c) Hh CN) as [(b' & -> & B1 & B2 & B3 & B4)|[-> X]]; cbn [bind]; [left|right; split; [reflexivity|lia]].
      eexists. split; [reflexivity|]. split; [auto|]. split; [auto|]. split; [intros; apply J3; lia|]. split; [lia|]. split; [lia|]. intros c' Hc'. destruct (Z.eq_dec c' c) as [->|].
      * split; [|intros _; rewrite N1, N2; apply plain_packed; auto; lia]. intros X. apply sp_de in X. congruence.
      * apply (keep_spay M L T t bits b' c); auto; try lia.
    + cbn [bind]. left. pose proof (all_seen_cw M L T t c ltac:(lia) ltac:(lia) D) as AS. eexists. split; [reflexivity|]. split; [auto|]. split; [auto|]. split; [intros; apply J3; lia|].
      split; [auto|]. split; [lia|]. intros c' Hc'. destruct (Z.eq_dec c' c) as [->|]; [|apply J8; lia]. split; [|congruence]. intros S1. unfold all_seen in J9. rewrite S1 in J9. auto.
Qed.
