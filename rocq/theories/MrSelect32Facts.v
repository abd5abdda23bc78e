(** Facts about SelectBasic32 of include/mranisz: the sizes of the blocks. *)
From Coq Require Import ZifyBool.
From Verif Require Import Base BaseFacts Mem MemFacts Words WordFacts BlockFacts NodeFacts Trees TreeBuild Spec BitmapFacts KernelFacts SpecPoppy PoppyFacts PoppyFacts2 SpecText SpecSel32 MrRank MrRankFacts MrRankFacts2 MrRank32 MrRank32Facts2 MrMpe32 MrSelect MrSelectFacts MrSelectFacts2 MrSelectFacts5 MrSelect32.
Ltac Zify.zify_post_hook ::= Z.div_mod_to_equations.

(** Bytes block [c] occupies, and where they begin. *)
Definition ww32 (L T : Z) (t : list Z) (c : Z) : Z :=
  if DD L t c >? T then 4 * (if fullb L t c then L - 1 else K t mod L) else if DD L t c =? L then 0 else up8 (ee L t c).
Definition OO32 (L T : Z) (t : list Z) (c : Z) : Z := sumf (ww32 L T t) 0 c.

Lemma ww32_nonneg L T t c : 1 <= L -> 0 <= c < nbk L t -> 0 <= ww32 L T t c.
Proof.
  intros HL Hc. pose proof (ee_bound L t c HL Hc). pose proof (up8_bound (ee L t c)). unfold ww32.
  pose proof (Z.mod_pos_bound (K t) L ltac:(lia)). destruct (DD L t c >? T); [destruct (fullb L t c); lia|]. destruct (DD L t c =? L); lia.
Qed.
Lemma OO32_succ L T t c : 0 <= c -> OO32 L T t (c + 1) = OO32 L T t c + ww32 L T t c.
Proof. intros. apply sumf_succ. lia. Qed.
Lemma OO32_0 L T t : OO32 L T t 0 = 0.
Proof. reflexivity. Qed.
Lemma OO32_mono L T t a b : 1 <= L -> 0 <= a <= b -> b <= nbk L t -> OO32 L T t a <= OO32 L T t b.
Proof. intros HL Ha Hb. apply sumf_mono; [lia|]. intros i Hi. apply ww32_nonneg; lia. Qed.
Lemma OO32_nonneg L T t a : 1 <= L -> 0 <= a <= nbk L t -> 0 <= OO32 L T t a.
Proof. intros. rewrite <- (OO32_0 L T t). apply OO32_mono; lia. Qed.

(** Bytes the first pass counts. *)
Definition w132 (L T : Z) (t : list Z) (c : Z) : Z :=
  if fullb L t c
  then if DD L t c >? T then 4 * (L - 1) else if DD L t c >? L then (if c =? 0 then up8 (DD L t c) else up8 (DD L t c - 1)) else 0
  else let d := if c =? 0 then DD L t c - 1 else DD L t c in if d >? T then 4 * (K t mod L) else up8 d.
Definition O132 (L T : Z) (t : list Z) (c : Z) : Z := sumf (w132 L T t) 0 c.
Lemma O132_succ L T t c : 0 <= c -> O132 L T t (c + 1) = O132 L T t c + w132 L T t c.
Proof. intros. apply sumf_succ. lia. Qed.
Lemma w132_bound L T t c : 1 <= L < T -> 0 <= c < nbk L t -> 0 <= w132 L T t c <= 4 * DD L t c.
Proof.
  intros HL Hc. pose proof (DD_pos L t c ltac:(lia) Hc). pose proof (up8_bound (DD L t c)). pose proof (up8_bound (DD L t c - 1)).
  pose proof (Z.mod_pos_bound (K t) L ltac:(lia)). unfold w132. destruct (fullb L t c).
  - destruct (DD L t c >? T) eqn:E; [lia|]. destruct (DD L t c >? L); [|lia]. destruct (c =? 0); lia.
  - cbv zeta. destruct (c =? 0).
    + destruct (DD L t c - 1 >? T) eqn:E; lia.
    + destruct (DD L t c >? T) eqn:E; lia.
Qed.
Lemma O132_bound L T t c : 1 <= L < T -> 0 <= c <= nbk L t -> 0 <= O132 L T t c <= 4 * SS L t c.
Proof.
  intros HL Hc. replace c with (Z.of_nat (Z.to_nat c)) in * by lia. set (n := Z.to_nat c) in *. clearbody n. induction n as [|n IH].
  - change (Z.of_nat 0) with 0. rewrite SS_0. unfold O132. rewrite sumf_empty; lia.
  - specialize (IH ltac:(lia)). pose proof (w132_bound L T t (Z.of_nat n) HL ltac:(lia)).
    replace (Z.of_nat (S n)) with (Z.of_nat n + 1) by lia. rewrite O132_succ by lia. unfold DD in *. lia.
Qed.

(** The second pass fits32 into what the first one counted, but for the slack and
    one special case. *)
Lemma fits32 L T t c : 1 <= L < T -> 0 <= c < nbk L t -> (c > 0 \/ tight L T t = false) -> ww32 L T t c <= w132 L T t c + (if c =? 0 then 1 else 0).
Proof.
  intros HL Hc X. pose proof (ee_bound L t c ltac:(lia) Hc) as EB. pose proof (DD_pos L t c ltac:(lia) Hc). pose proof (K_bound t).
  pose proof (up8_bound (DD L t c)). pose proof (up8_bound (DD L t c - 1)). pose proof (Z.mod_pos_bound (K t) L ltac:(lia)).
  unfold ww32, w132. destruct (fullb L t c) eqn:F.
  - pose proof (DD_ge L t c ltac:(lia) Hc F). unfold ee. rewrite F. destruct (DD L t c >? T); [destruct (c =? 0); lia|].
    destruct (DD L t c =? L) eqn:E; destruct (DD L t c >? L) eqn:E2; destruct (c =? 0); lia.
  - unfold ee. rewrite F. cbv zeta. destruct (c =? 0) eqn:C0.
    + assert (c = 0) by lia. subst c. unfold tight in X. unfold fullb in F. unfold DD in *. rewrite SS_0 in *. rewrite SS_pos in * by lia.
      pose proof (proj1 (blk_lt L t 0 ltac:(lia) ltac:(lia)) ltac:(lia)).
      replace (Z.min ((0 + 1) * L) (K t)) with (K t) in * by lia.
      destruct (P t (K t) + 1 - 0 >? T) eqn:E1.
      * replace (P t (K t) + 1 - 0 - 1 >? T) with true by lia. lia.
      * replace (P t (K t) + 1 - 0 - 1 >? T) with false by lia. destruct (P t (K t) + 1 - 0 =? L); lia.
    + destruct (DD L t c >? T); [lia|]. destruct (DD L t c =? L); lia.
Qed.
Lemma fits_all32 L T t : 1 <= L < T -> tight L T t = false -> forall c, 0 <= c <= nbk L t -> OO32 L T t c <= O132 L T t c + 1.
Proof.
  intros HL X c Hc. assert (G : 0 < c -> OO32 L T t c <= O132 L T t c + 1).
  { replace c with (Z.of_nat (Z.to_nat c)) in * by lia. set (n := Z.to_nat c) in *. clearbody n. induction n as [|n IH]; [lia|].
    intros _. replace (Z.of_nat (S n)) with (Z.of_nat n + 1) in * by lia. rewrite O132_succ, OO32_succ by lia.
    pose proof (fits32 L T t (Z.of_nat n) HL ltac:(lia) ltac:(auto)) as Fi. destruct n as [|n].
    - cbn [Z.of_nat Z.eqb] in *. rewrite OO32_0. unfold O132. rewrite sumf_empty by lia. lia.
    - replace (Z.of_nat (S n) =? 0) with false in Fi by lia. specialize (IH ltac:(lia) ltac:(lia)). lia. }
  destruct (Z.eq_dec c 0) as [->|]; [rewrite OO32_0; unfold O132; rewrite sumf_empty; lia|]. apply G. lia.
Qed.
Lemma tight_sizes32 L T t : 1 <= L < T -> tight L T t = true -> nbk L t = 1 /\ OO32 L T t 1 = 4 * K t /\ O132 L T t 1 = up8 T.
Proof.
  intros HL X. unfold tight in X. assert (N : nbk L t = 1) by (unfold nbk; symmetry; apply (Z.div_unique _ _ _ (K t - 1)); lia).
  assert (F : fullb L t 0 = false) by (unfold fullb; lia). assert (M : K t mod L = K t) by (apply Z.mod_small; lia).
  assert (D : DD L t 0 = T + 1). { unfold DD. rewrite SS_0, SS_pos by lia. replace (Z.min ((0 + 1) * L) (K t)) with (K t) by lia. lia. }
  split; [exact N|]. split.
  - change 1 with (0 + 1) at 1. rewrite OO32_succ, OO32_0 by lia. unfold ww32. rewrite F, D, M. replace (T + 1 >? T) with true by lia. lia.
  - change 1 with (0 + 1) at 1. rewrite O132_succ by lia. unfold O132. rewrite sumf_empty by lia. unfold w132. rewrite F, D, M. cbn [Z.eqb].
    replace (T + 1 - 1) with T by lia. replace (T >? T) with false by lia. lia.
Qed.

Lemma number_of_ones32_ok t : text_ok t -> zlen t < 2 ^ 29 -> number_of_ones32 t = K t.
Proof.
  unfold number_of_ones32. induction t as [|b t IH] using rev_ind; intros H Hl; [reflexivity|].
  apply Forall_app in H. destruct H as [H Hb]. inversion Hb as [|x y Hx _]; subst x y. rewrite zlen_app in Hl. change (zlen [b]) with 1 in Hl.
  rewrite fold_left_app. cbn [fold_left]. rewrite IH by (auto; lia). pose proof (K_bound t). pose proof (zlen_nonneg t). assert (PB : 0 <= popcount b <= 8) by (rewrite popcount_byte by lia; apply wones_bound; lia).
  rewrite wrap_small by lia. unfold K at 2. rewrite zlen_app. change (zlen [b]) with 1.
  rewrite (ts_split _ 0 (8 * zlen t)) by lia. rewrite ts_app by lia. fold (K t). f_equal.
  replace (8 * (zlen t + 1)) with (8 * zlen t + 8) by lia. rewrite byte_ts by lia. rewrite zn_app_r by lia.
  replace (zlen t - zlen t) with 0 by lia. rewrite zn_cons_0, <- wones_rev. apply popcount_byte. lia.
Qed.

Lemma selects_len32_nbk L t : 1 <= L -> nbk L t < 2 ^ 31 - 17 -> selects_len32 L (K t) = 2 * nbk L t + 2.
Proof.
  intros HL HN. unfold selects_len32. pose proof (nbk_up L t HL) as NU. pose proof (K_bound t). assert (0 <= K t / L) by (apply Z.div_pos; lia).
  destruct (K t mod L >? 0); rewrite (wrap_small 32 (2 * (K t / L) + 2)) by lia; rewrite wrap_small by lia; lia.
Qed.

(** What the first pass counts is at most what the second one stores, and the bits of a
    last group taken for all ones. *)
Lemma most32 L T t c : 1 <= L < T -> T < 2 ^ 32 -> 0 <= c < nbk L t -> w132 L T t c <= ww32 L T t c + (if fullb L t c then (if c =? 0 then 1 else 0) else if DD L t c =? L then up8 (DD L t c) else up8 T).
Proof.
  intros HL HT Hc. pose proof (ee_bound L t c ltac:(lia) Hc) as EB. pose proof (DD_pos L t c ltac:(lia) Hc). pose proof (K_bound t).
  pose proof (up8_bound (DD L t c)). pose proof (up8_bound (DD L t c - 1)). pose proof (up8_bound T). pose proof (Z.mod_pos_bound (K t) L ltac:(lia)).
  unfold ww32, w132. destruct (fullb L t c) eqn:F.
  - pose proof (DD_ge L t c ltac:(lia) Hc F). unfold ee. rewrite F. destruct (DD L t c >? T); [destruct (c =? 0); lia|].
    destruct (DD L t c =? L) eqn:E; destruct (DD L t c >? L) eqn:E2; destruct (c =? 0); lia.
  - unfold ee. rewrite F. cbv zeta. destruct (c =? 0) eqn:C0.
    + destruct (DD L t c - 1 >? T) eqn:E1; destruct (DD L t c >? T) eqn:E2; destruct (DD L t c =? L) eqn:E3; lia.
    + destruct (DD L t c >? T) eqn:E2; destruct (DD L t c =? L) eqn:E3; lia.
Qed.
Lemma most32_all L T t : 1 <= L < T -> T < 2 ^ 32 -> zlen t < 2 ^ 29 -> 1 <= K t -> O132 L T t (nbk L t) <= OO32 L T t (nbk L t) + 2 ^ 30.
Proof.
  intros HL HT Hl HK. pose proof (nbk_1 L t ltac:(lia) HK) as N1.
  assert (G : forall n : nat, Z.of_nat n <= nbk L t - 1 -> O132 L T t (Z.of_nat n) <= OO32 L T t (Z.of_nat n) + 1).
  { induction n as [|n IH]; intros Hn; [change (Z.of_nat 0) with 0; rewrite OO32_0; unfold O132; rewrite sumf_empty; lia|].
    replace (Z.of_nat (S n)) with (Z.of_nat n + 1) in * by lia. rewrite O132_succ, OO32_succ by lia. specialize (IH ltac:(lia)).
    pose proof (most32 L T t (Z.of_nat n) HL HT ltac:(lia)) as M. rewrite (proj2 (full_iff L t (Z.of_nat n) ltac:(lia) ltac:(lia)) ltac:(left; lia)) in M.
    destruct n as [|n]; [change (Z.of_nat 0) with 0 in *; cbn [Z.eqb] in M; rewrite OO32_0 in *; unfold O132 in *; rewrite sumf_empty in * by lia; lia|].
    replace (Z.of_nat (S n) =? 0) with false in M by lia. lia. }
  specialize (G (Z.to_nat (nbk L t - 1)) ltac:(lia)). replace (Z.of_nat (Z.to_nat (nbk L t - 1))) with (nbk L t - 1) in G by lia.
  replace (nbk L t) with (nbk L t - 1 + 1) by lia. rewrite O132_succ, OO32_succ by lia.
  pose proof (most32 L T t (nbk L t - 1) HL HT ltac:(lia)) as M. pose proof (DD_le L t (nbk L t - 1) ltac:(lia) ltac:(lia)).
  pose proof (DD_pos L t (nbk L t - 1) ltac:(lia) ltac:(lia)). pose proof (up8_bound (DD L t (nbk L t - 1)) ltac:(lia)). pose proof (up8_bound T ltac:(lia)).
  destruct (fullb L t (nbk L t - 1)); destruct (nbk L t - 1 =? 0); destruct (DD L t (nbk L t - 1) =? L); lia.
Qed.

Lemma overflow32_iff L T t a : 1 <= L < T -> 1 <= K t -> (OO32 L T t (nbk L t) <=? O132 L T t (nbk L t) + room_of a) = negb (overflows32 L T (room_of a) (text_bits t)).
Proof.
  intros HL HK. pose proof (room_bound a). unfold overflows32. rewrite <- K_ones. fold (P t (K t)). rewrite <- up8_div by lia.
  destruct (tight L T t) eqn:E.
  - destruct (tight_sizes32 L T t HL E) as (-> & -> & ->). unfold tight in E. replace (1 <=? K t) with true by lia. replace (K t <? L) with true by lia.
    replace (P t (K t) =? T) with true by lia. cbn [andb]. lia.
  - pose proof (fits_all32 L T t HL E (nbk L t) ltac:(pose proof (nbk_pos L t ltac:(lia)); lia)). unfold tight in E.
    replace (OO32 L T t (nbk L t) <=? O132 L T t (nbk L t) + room_of a) with true by lia.
    destruct ((1 <=? K t) && (K t <? L) && (P t (K t) =? T)) eqn:E2; [lia|]. reflexivity.
Qed.
