(** The second pass of the build of SelectBasic32. *)
From Coq Require Import ZifyBool.
From Verif Require Import Base BaseFacts Mem MemFacts Words WordFacts BlockFacts NodeFacts Trees TreeBuild Spec BitmapFacts KernelFacts SpecPoppy PoppyFacts PoppyFacts2 SpecText MrRank MrRankFacts MrSelect MrSelectFacts MrSelectFacts2 MrSelectFacts3 MrSelect32 MrSelect32Facts MrSelect32Facts2.
Ltac Zify.zify_post_hook ::= Z.div_mod_to_equations.

Lemma store_or32 l i v : 0 <= i -> (i + 4 <= zlen l /\ store 4 l i v = Ok (wr 4 l i v)) \/ (zlen l < i + 4 /\ store 4 l i v = Ub UB_bounds).
Proof. intros. unfold store, in_bounds. destruct ((0 <=? i) && (i + Z.of_nat 4 <=? zlen l)) eqn:E; [left|right]; split; auto; lia. Qed.

Definition payload32 (L T : Z) (t bits : list Z) (c : Z) : Prop :=
  (sp L T t c = true -> forall k, 1 <= k <= ones_in L t c -> rd 4 bits (OO32 L T t c + 4 * (k - 1)) = P t (c * L + k)) /\
  (sp L T t c = false -> mo L T t c = false -> forall j, 0 <= j < up8 (ee L t c) ->
     zn 0 bits (OO32 L T t c + j) = bpart t (SS L t c + 8 * j) (Z.min 8 (ee L t c - 8 * j))).

Definition partial32 (L T : Z) (t : list Z) (c x : Z) (bits : list Z) (bc byte pos : Z) : Prop :=
  (sp L T t c = true -> bc = OO32 L T t c + 4 * ts t (SS L t c) (SS L t c + x) /\
     forall k, 1 <= k <= ts t (SS L t c) (SS L t c + x) -> rd 4 bits (OO32 L T t c + 4 * (k - 1)) = P t (c * L + k)) /\
  (mo L T t c = true -> bc = OO32 L T t c) /\
  (sp L T t c = false -> mo L T t c = false -> bc = OO32 L T t c + x / 8 /\ byte = bpart t (SS L t c + 8 * (x / 8)) (x mod 8) /\ pos = 7 - x mod 8 /\
     forall j, 0 <= j < x / 8 -> zn 0 bits (OO32 L T t c + j) = bpart t (SS L t c + 8 * j) 8).

Lemma payload_agree32 L T t bits bits' c : (forall k, OO32 L T t c <= k < OO32 L T t c + ww32 L T t c -> zn 0 bits k = zn 0 bits' k) ->
  payload32 L T t bits c -> payload32 L T t bits' c.
Proof.
  intros A [P1 P2]. split.
  - intros S1 k Hk. rewrite <- (P1 S1 k Hk). apply rd_agree. intros i Hi. symmetry. apply A.
    unfold ww32. unfold sp in S1. rewrite S1. fold (ones_in L t c). lia.
  - intros S1 S2 j Hj. rewrite <- (P2 S1 S2 j Hj). symmetry. apply A.
    unfold ww32. unfold mo, sp in *. rewrite S1 in *. cbn in S2. rewrite S2. lia.
Qed.

(** The headers after block [c] was entered. *)
Definition arrP32 (L T : Z) (t arr0 arr : list Z) (c : Z) : Prop :=
  zlen arr = zlen arr0 /\ (forall c', 0 <= c' <= nbk L t -> zn 0 arr (2 * c') = raw L t c') /\
  (forall c', 0 <= c' <= c -> zn 0 arr (2 * c' + 1) = OO32 L T t c').

Definition run32 (L T : Z) (t arr0 : list Z) (cap c q : Z) (st : scan2) : Prop :=
  arrP32 L T t arr0 (s_arr st) c /\ zlen (s_bits st) = cap /\ s_sc st = 2 * c /\ 0 <= s_bc st <= cap /\ s_upto st = SS L t (c + 1) - 1 /\
  s_sparse st = sp L T t c /\ s_mono st = mo L T t c /\ s_done st = false /\
  (forall c', 0 <= c' < c -> payload32 L T t (s_bits st) c') /\
  partial32 L T t c (q - SS L t c) (s_bits st) (s_bc st) (s_byte st) (s_pos st).

Definition finished32 (L T : Z) (t arr0 : list Z) (cap : Z) (st : scan2) : Prop :=
  s_done st = true /\ arrP32 L T t arr0 (s_arr st) (nbk L t - 1) /\ zlen (s_bits st) = cap /\ OO32 L T t (nbk L t) <= cap /\
  (forall c, 0 <= c < nbk L t -> payload32 L T t (s_bits st) c).

Definition secondP32 (L T : Z) (t arr0 : list Z) (cap q : Z) (st : scan2) : Prop :=
  (exists c, 0 <= c < nbk L t /\ SS L t c <= q < SS L t (c + 1) /\ run32 L T t arr0 cap c q st) \/
  (SS L t (nbk L t) <= q /\ finished32 L T t arr0 cap st).

(** Earlier payloads survive writes from [OO32 c] on. *)
Lemma keep_payload32 L T t bits bits' c : 1 <= L -> 0 <= c <= nbk L t -> (forall k, 0 <= k < OO32 L T t c -> zn 0 bits' k = zn 0 bits k) ->
  (forall c', 0 <= c' < c -> payload32 L T t bits c') -> forall c', 0 <= c' < c -> payload32 L T t bits' c'.
Proof.
  intros HL Hc A PL c' Hc'. apply (payload_agree32 L T t bits); [|apply PL; lia]. intros k Hk. symmetry. apply A.
  pose proof (OO32_nonneg L T t c' HL ltac:(lia)). pose proof (OO32_mono L T t (c' + 1) c HL ltac:(lia) ltac:(lia)). rewrite OO32_succ in * by lia. lia.
Qed.

Lemma room32 L T t c : 1 <= L -> 0 <= c < nbk L t -> OO32 L T t c + ww32 L T t c <= OO32 L T t (nbk L t).
Proof. intros HL Hc. rewrite <- OO32_succ by lia. apply OO32_mono; lia. Qed.
Lemma ww_sp32 L T t c : sp L T t c = true -> ww32 L T t c = 4 * ones_in L t c.
Proof. intros S1. unfold ww32, sp, ones_in in *. rewrite S1. reflexivity. Qed.
Lemma ww_de32 L T t c : sp L T t c = false -> mo L T t c = false -> ww32 L T t c = up8 (ee L t c).
Proof. intros S1 S2. unfold ww32, mo, sp in *. rewrite S1 in *. cbn in S2. rewrite S2. reflexivity. Qed.
Lemma ww_mo32 L T t c : mo L T t c = true -> ww32 L T t c = 0.
Proof. intros S2. unfold ww32, mo, sp in *. destruct (DD L t c >? T); [discriminate|]. cbn in S2. rewrite S2. reflexivity. Qed.
Lemma zn_wr_below32 m off v k : 0 <= off -> off + 4 <= zlen m -> 0 <= k < off -> zn 0 (wr 4 m off v) k = zn 0 m k.
Proof. intros. apply zn_wr_other; try (cbn; lia). Qed.

(** A position appended to a sparse block. *)
Lemma sparse_store32 L T t c q bits bc : 1 <= L -> zlen t < 2 ^ 29 -> 0 <= c < nbk L t -> SS L t c <= q < SS L t (c + 1) -> tb t q = 1 ->
  bc = OO32 L T t c + 4 * ts t (SS L t c) q -> bc + 4 <= zlen bits ->
  (forall k, 1 <= k <= ts t (SS L t c) q -> rd 4 bits (OO32 L T t c + 4 * (k - 1)) = P t (c * L + k)) ->
  forall k, 1 <= k <= ts t (SS L t c) q + 1 -> rd 4 (wr 4 bits bc q) (OO32 L T t c + 4 * (k - 1)) = P t (c * L + k).
Proof.
  intros HL Hl Hc Hq E Eb Hb R k Hk. pose proof (OO32_nonneg L T t c HL ltac:(lia)). pose proof (ts_bound t (SS L t c) q ltac:(lia)).
  pose proof (SS_bound L t c HL ltac:(lia)). pose proof (SS_bound L t (c + 1) HL ltac:(lia)).
  destruct (Z.eq_dec k (ts t (SS L t c) q + 1)) as [->|NE].
  - replace (OO32 L T t c + 4 * (ts t (SS L t c) q + 1 - 1)) with bc by lia. rewrite rd_wr_same_w by (cbn; lia).
    rewrite <- (P_in L t c q) by auto. apply Z.mod_small. change (8 * Z.of_nat 4) with 32. lia.
  - rewrite <- R by lia. apply rd_agree. intros i Hi. apply zn_wr_below32; lia.
Qed.

Lemma inner_ok32 L T t arr0 cap c q st : 1 <= L < T -> text_ok t -> zlen t < 2 ^ 29 -> 0 <= c < nbk L t ->
  SS L t c <= q < SS L t (c + 1) - 1 -> run32 L T t arr0 cap c q st ->
  (exists st', inner_bit32 t st q = Ok st' /\ run32 L T t arr0 cap c (q + 1) st') \/ (inner_bit32 t st q = Ub UB_bounds /\ cap < OO32 L T t (nbk L t)).
Proof.
  intros HL H Hl Hc Hq (R1 & R2 & R3 & R4 & R5 & R6 & R7 & R8 & R9 & R10 & R11 & R12).
  pose proof (SS_bound L t c ltac:(lia) ltac:(lia)) as SB. pose proof (SS_bound L t (c + 1) ltac:(lia) ltac:(lia)) as SB1.
  pose proof (OO32_nonneg L T t c ltac:(lia) ltac:(lia)) as ON. pose proof (room32 L T t c ltac:(lia) Hc) as RM.
  assert (XE : q + 1 - SS L t c <= ee L t c) by (unfold ee, DD; destruct (fullb L t c); lia).
  unfold inner_bit32. rewrite R7, R6. destruct (mo L T t c) eqn:EM.
  - left. eexists. split; [reflexivity|]. unfold run32. rewrite R6, R7, EM. repeat (split; [auto; fail|]). split; [|split].
    + intros S1. unfold mo in EM. rewrite S1 in EM. discriminate.
    + intros _; apply R11; reflexivity.
    + intros _ X. congruence.
  - rewrite text_bit_ok by lia. cbn [bind]. destruct (sp L T t c) eqn:ES.
    + destruct (R10 eq_refl) as [Bc Rd]. replace (SS L t c + (q - SS L t c)) with q in * by lia. rewrite (wrap_small 32 q) by lia.
      pose proof (ones_le L t c (q + 1 - SS L t c) ltac:(lia) Hc ltac:(lia)) as OL. replace (SS L t c + (q + 1 - SS L t c)) with (q + 1) in OL by lia.
      pose proof (ts_succ t (SS L t c) q ltac:(lia)) as TS. pose proof (ts_bound t (SS L t c) q ltac:(lia)) as TB.
      pose proof (ww_sp32 L T t c ES) as WW. destruct (tb_cases t q) as [E|E]; rewrite E; cbn [Z.eqb Pos.eqb].
      * left. eexists. split; [reflexivity|]. unfold run32. rewrite R6, R7, EM. repeat (split; [auto; fail|]). unfold partial32.
        replace (SS L t c + (q + 1 - SS L t c)) with (q + 1) by lia. rewrite TS, E, Z.add_0_r. split; [auto|]. split; intros; congruence.
      * destruct (store_or32 (s_bits st) (s_bc st) q ltac:(lia)) as [[S1 ->]|[S1 ->]]; cbn [bind].
        -- left. eexists. split; [reflexivity|]. unfold run32. cbn [s_arr s_bits s_sc s_bc s_byte s_pos s_upto s_sparse s_mono s_done].
           rewrite zlen_wr. split; [auto|]. split; [auto|]. split; [auto|]. split; [lia|]. split; [auto|]. split; [auto|]. split; [auto|]. split; [auto|]. split.
           ++ apply (keep_payload32 L T t (s_bits st)); [lia|lia| |auto]. intros k Hk. apply zn_wr_below32; lia.
           ++ unfold partial32. replace (SS L t c + (q + 1 - SS L t c)) with (q + 1) by lia. split; [|split; intros; congruence].
              intros _. rewrite TS, E. split; [lia|]. apply sparse_store32; auto; lia.
        -- right. split; [reflexivity|]. lia.
    + destruct (R12 eq_refl eq_refl) as (Bc & By & Bp & Rd). set (x := q - SS L t c) in *. assert (X0 : 0 <= x) by lia.
      pose proof (ww_de32 L T t c ES EM) as WW. pose proof (up8_gt x (ee L t c) ltac:(lia)) as UG.
      replace (q + 1 - SS L t c) with (x + 1) in * by lia.
      pose proof (byte_step t (SS L t c + 8 * (x / 8)) (x mod 8) ltac:(lia)) as BS. replace (SS L t c + 8 * (x / 8) + x mod 8) with q in BS by lia.
      rewrite By, Bp, BS. destruct (7 - x mod 8 =? 0) eqn:E7.
      * destruct (seti_or (s_bits st) (s_bc st) (bpart t (SS L t c + 8 * (x / 8)) (x mod 8 + 1)) ltac:(lia)) as [[S1 ->]|[S1 ->]]; cbn [bind].
        -- left. eexists. split; [reflexivity|]. unfold run32. cbn [s_arr s_bits s_sc s_bc s_byte s_pos s_upto s_sparse s_mono s_done].
           rewrite zlen_upd. split; [auto|]. split; [auto|]. split; [auto|]. split; [lia|]. split; [auto|]. split; [auto|]. split; [auto|]. split; [auto|]. split.
           ++ apply (keep_payload32 L T t (s_bits st)); [lia|lia| |auto]. intros k Hk. rewrite zn_upd by lia. replace (k =? s_bc st) with false by lia. reflexivity.
           ++ unfold partial32. replace (q + 1 - SS L t c) with (x + 1) by lia. split; [intros; congruence|]. split; [intros; congruence|]. intros _ _.
              replace ((x + 1) mod 8) with 0 by lia. replace ((x + 1) / 8) with (x / 8 + 1) by lia. rewrite bpart_0.
              split; [lia|]. split; [reflexivity|]. split; [lia|]. intros j Hj. rewrite zn_upd by lia.
              destruct (OO32 L T t c + j =? s_bc st) eqn:EJ.
              ** replace j with (x / 8) by lia. f_equal. lia.
              ** apply Rd. lia.
        -- right. split; [reflexivity|]. lia.
      * left. eexists. split; [reflexivity|]. unfold run32. cbn [s_arr s_bits s_sc s_bc s_byte s_pos s_upto s_sparse s_mono s_done].
        repeat (split; [auto; fail|]). unfold partial32. replace (q + 1 - SS L t c) with (x + 1) by lia. split; [intros; congruence|]. split; [intros; congruence|]. intros _ _.
        replace ((x + 1) mod 8) with (x mod 8 + 1) by lia. replace ((x + 1) / 8) with (x / 8) by lia. split; [lia|]. split; [reflexivity|]. split; [lia|]. exact Rd.
Qed.

(** ** The end of a block *)
Lemma flush_ok32 L T t arr0 cap c st : 1 <= L < T -> text_ok t -> zlen t < 2 ^ 29 -> 0 <= c < nbk L t -> fullb L t c = true ->
  run32 L T t arr0 cap c (SS L t (c + 1) - 1) st ->
  (exists bits bc, flush st = Ok (bits, bc) /\ zlen bits = cap /\ bc = OO32 L T t (c + 1) /\ bc <= cap /\ forall c', 0 <= c' <= c -> payload32 L T t bits c') \/
  (flush st = Ub UB_bounds /\ cap < OO32 L T t (nbk L t)).
Proof.
  intros HL H Hl Hc F (R1 & R2 & R3 & R4 & R5 & R6 & R7 & R8 & R9 & R10 & R11 & R12).
  pose proof (OO32_nonneg L T t c ltac:(lia) ltac:(lia)) as ON. pose proof (room32 L T t c ltac:(lia) Hc) as RM.
  assert (EE : SS L t (c + 1) - 1 - SS L t c = ee L t c) by (unfold ee, DD; rewrite F; lia). rewrite EE in *.
  pose proof (ee_bound L t c ltac:(lia) Hc) as EB. rewrite OO32_succ by lia. unfold flush. rewrite R6, R7. destruct (mo L T t c) eqn:EM.
  - left. do 2 eexists. split; [reflexivity|]. rewrite (ww_mo32 L T t c EM). split; [auto|]. split; [rewrite R11; lia|]. split; [lia|].
    intros c' Hc'. destruct (Z.eq_dec c' c) as [->|]; [|apply R9; lia]. split; [|intros; congruence].
    intros S1. unfold mo in EM. rewrite S1 in EM. discriminate.
  - destruct (sp L T t c) eqn:ES.
    + cbn [negb andb]. left. do 2 eexists. split; [reflexivity|]. destruct (R10 eq_refl) as [Bc Rd].
      rewrite ee_ones in * by (auto; lia). fold (ones_in L t c) in *. rewrite (ww_sp32 L T t c ES). split; [auto|]. split; [lia|]. split; [lia|].
      intros c' Hc'. destruct (Z.eq_dec c' c) as [->|]; [|apply R9; lia]. split; [intros _; exact Rd|intros; congruence].
    + cbn [negb andb]. destruct (R12 eq_refl eq_refl) as (Bc & By & Bp & Rd). set (x := ee L t c) in *. assert (X0 : 0 <= x) by lia.
      pose proof (ww_de32 L T t c ES EM) as WW. fold x in WW. destruct (s_pos st =? 7) eqn:E7; cbn [negb].
      * assert (X8 : x mod 8 = 0) by lia. assert (UX : up8 x = x / 8) by (unfold up8; rewrite X8; cbn; lia).
        left. do 2 eexists. split; [reflexivity|]. split; [auto|]. split; [lia|]. split; [lia|].
        intros c' Hc'. destruct (Z.eq_dec c' c) as [->|]; [|apply R9; lia]. split; [intros; congruence|]. intros _ _ j Hj. fold x in Hj. fold x.
        rewrite UX in Hj. rewrite Rd by lia. f_equal. lia.
      * assert (X8 : x mod 8 > 0) by lia. assert (UX : up8 x = x / 8 + 1) by (unfold up8; replace (x mod 8 >? 0) with true by lia; lia).
        destruct (seti_or (s_bits st) (s_bc st) (s_byte st) ltac:(lia)) as [[S1 ->]|[S1 ->]]; cbn [bind].
        -- left. do 2 eexists. split; [reflexivity|]. rewrite zlen_upd. split; [auto|]. split; [lia|]. split; [lia|].
           intros c' Hc'. destruct (Z.eq_dec c' c) as [->|].
           ++ split; [intros; congruence|]. intros _ _ j Hj. fold x in Hj. fold x. rewrite zn_upd by lia. destruct (OO32 L T t c + j =? s_bc st) eqn:EJ.
              ** replace j with (x / 8) by lia. rewrite By. f_equal. lia.
              ** rewrite Rd by lia. f_equal. lia.
           ++ apply (keep_payload32 L T t (s_bits st) _ c); [lia|lia| |auto|lia]. intros k Hk. rewrite zn_upd by lia. replace (k =? s_bc st) with false by lia. reflexivity.
        -- right. split; [reflexivity|]. lia.
Qed.

Lemma enter_run32 L T t arr0 arr bits cap c : 1 <= L < T -> 0 <= c < nbk L t -> arrP32 L T t arr0 arr c -> zlen bits = cap -> OO32 L T t c <= cap ->
  (forall c', 0 <= c' < c -> payload32 L T t bits c') ->
  run32 L T t arr0 cap c (SS L t c) (enter L T arr bits (2 * c) (OO32 L T t c) (SS L t (c + 1) - 1) (DD L t c)).
Proof.
  intros HL Hc A Z1 OC PL. pose proof (OO32_nonneg L T t c ltac:(lia) ltac:(lia)).
  unfold run32, enter. cbn [s_arr s_bits s_sc s_bc s_byte s_pos s_upto s_sparse s_mono s_done].
  split; [auto|]. split; [auto|]. split; [auto|]. split; [lia|]. split; [auto|]. split; [reflexivity|]. split; [reflexivity|]. split; [auto|]. split; [auto|].
  unfold partial32. replace (SS L t c - SS L t c) with 0 by lia. rewrite Z.add_0_r, ts_empty. change (0 / 8) with 0. change (0 mod 8) with 0. rewrite bpart_0.
  split; [intros _; split; [lia|intros; lia]|]. split; [auto|]. intros _ _. split; [lia|]. split; [auto|]. split; [lia|]. intros; lia.
Qed.

Lemma next_ok32 L T t arr0 cap c st : 1 <= L < T -> text_ok t -> zlen t < 2 ^ 29 -> 2 * nbk L t + 2 <= zlen arr0 -> 0 <= c -> c + 1 < nbk L t ->
  run32 L T t arr0 cap c (SS L t (c + 1) - 1) st ->
  (exists st', next_block32 L T st = Ok st' /\ run32 L T t arr0 cap (c + 1) (SS L t (c + 1)) st') \/ (next_block32 L T st = Ub UB_bounds /\ cap < OO32 L T t (nbk L t)).
Proof.
  intros HL H Hl Ha Hc Hn R. assert (F : fullb L t c = true) by (apply full_iff; lia). unfold next_block32.
  destruct (flush_ok32 L T t arr0 cap c st HL H Hl ltac:(lia) F R) as [(bits & bc & -> & B1 & B2 & B3 & B4)|[-> B]]; cbn [bind]; [left|auto].
  destruct R as ((A1 & A2 & A3) & R2 & R3 & _). rewrite R3. replace (2 * c + 2) with (2 * (c + 1)) by lia. rewrite seti_ok by lia. cbn [bind].
  rewrite !geti_ok by (rewrite zlen_upd; lia). cbn [bind]. rewrite !zn_upd by lia. replace (2 * (c + 1) + 2 =? 2 * (c + 1) + 1) with false by lia.
  replace (2 * (c + 1) =? 2 * (c + 1) + 1) with false by lia. replace (2 * (c + 1) + 2) with (2 * (c + 1 + 1)) by lia.
  rewrite !A2 by lia. rewrite raw_diff by lia. replace (c + 1 =? 0) with false by lia.
  pose proof (DD_pos L t (c + 1) ltac:(lia) ltac:(lia)). pose proof (DD_le L t (c + 1) ltac:(lia) ltac:(lia)). rewrite wrap_small by lia.
  eexists. split; [reflexivity|]. subst bc. rewrite raw_pos by lia. apply enter_run32; auto; try lia.
  - split; [rewrite zlen_upd; lia|]. split.
    + intros c' Hc'. rewrite zn_upd by lia. replace (2 * c' =? 2 * (c + 1) + 1) with false by lia. apply A2. lia.
    + intros c' Hc'. rewrite zn_upd by lia. destruct (2 * c' + 1 =? 2 * (c + 1) + 1) eqn:E; [f_equal; lia|]. apply A3. lia.
  - intros c' Hc'. apply B4. lia.
Qed.

Lemma last_ok32 L T t arr0 cap c st : 1 <= L < T -> text_ok t -> zlen t < 2 ^ 29 -> 0 <= c -> c + 1 = nbk L t ->
  run32 L T t arr0 cap c (SS L t (c + 1) - 1) st ->
  (exists st', last_one32 L t (K t) st (SS L t (c + 1) - 1) = Ok st' /\ finished32 L T t arr0 cap st') \/
  (last_one32 L t (K t) st (SS L t (c + 1) - 1) = Ub UB_bounds /\ cap < OO32 L T t (nbk L t)).
Proof.
  intros HL H Hl Hc Hn R. unfold last_one32. destruct (K t mod L >? 0) eqn:EK.
  - assert (F : fullb L t c = false).
    { destruct (fullb L t c) eqn:F; [|reflexivity]. apply full_iff in F; lia. }
    assert (Hcc : 0 <= c < nbk L t) by lia. set (q := SS L t (c + 1) - 1) in *.
    destruct R as (R1 & R2 & R3 & R4 & R5 & R6 & R7 & R8 & R9 & R10 & R11 & R12).
    pose proof (OO32_nonneg L T t c ltac:(lia) ltac:(lia)) as ON. pose proof (SS_step L t c ltac:(lia) Hcc) as SST.
    pose proof (SS_bound L t c ltac:(lia) ltac:(lia)) as SB. pose proof (SS_bound L t (c + 1) ltac:(lia) ltac:(lia)) as SB1.
    assert (EE : ee L t c = q + 1 - SS L t c) by (unfold ee, DD; rewrite F; lia).
    pose proof (K_bound t) as KB. pose proof (proj1 (blk_lt L t c ltac:(lia) ltac:(lia)) ltac:(lia)) as CK.
    assert (B : tb t q = 1).
    { unfold q. rewrite SS_end by lia. destruct (P_spec t (Z.min ((c + 1) * L) (K t)) ltac:(nia)) as (_ & X & _). exact X. }
    rewrite text_bit_ok by lia. rewrite B, R6, R7. cbn [bind Z.eqb Pos.eqb].
    assert (ON1 : OO32 L T t (nbk L t) = OO32 L T t c + ww32 L T t c) by (rewrite <- Hn, OO32_succ by lia; reflexivity).
    destruct (sp L T t c) eqn:ES; cbn [andb negb].
    + destruct (R10 eq_refl) as [Bc Rd]. pose proof (ww_sp32 L T t c ES) as WW. replace (SS L t c + (q - SS L t c)) with q in * by lia. rewrite (wrap_small 32 q) by lia.
      pose proof (ee_ones L t c ltac:(lia) Hcc) as EO. fold (ones_in L t c) in EO. rewrite EE in EO. replace (SS L t c + (q + 1 - SS L t c)) with (q + 1) in EO by lia.
      rewrite ts_succ in EO by lia. rewrite B in EO. pose proof (ts_bound t (SS L t c) q ltac:(lia)) as TB.
      destruct (store_or32 (s_bits st) (s_bc st) q ltac:(lia)) as [[S1 ->]|[S1 ->]]; cbn [bind]; [left|right; split; [reflexivity|lia]].
      eexists. split; [reflexivity|]. unfold finished32. cbn [s_arr s_bits s_done]. rewrite zlen_wr. replace (nbk L t - 1) with c by lia.
      split; [auto|]. split; [auto|]. split; [auto|]. split; [lia|].
      intros c' Hc'. destruct (Z.eq_dec c' c) as [->|].
      * split; [|intros; congruence]. intros _. rewrite <- EO. apply sparse_store32; auto; lia.
      * apply (keep_payload32 L T t (s_bits st) _ c); [lia|lia| |auto|lia]. intros k Hk. apply zn_wr_below32; lia.
    + destruct (mo L T t c) eqn:EM; cbn [negb].
      * cbn [bind]. left. eexists. split; [reflexivity|]. unfold finished32. cbn [s_arr s_bits s_done]. rewrite ON1, (ww_mo32 L T t c EM). replace (nbk L t - 1) with c by lia.
        split; [auto|]. split; [auto|]. split; [auto|]. split; [rewrite R11 in R4 by auto; lia|].
        intros c' Hc'. destruct (Z.eq_dec c' c) as [->|]; [|apply R9; lia]. split; intros; congruence.
      * destruct (R12 eq_refl eq_refl) as (Bc & By & Bp & Rd). set (x := q - SS L t c) in *. assert (X0 : 0 <= x) by lia.
        assert (EX : ee L t c = x + 1) by lia. pose proof (ww_de32 L T t c ES EM) as WW. rewrite EX in WW.
        assert (UX : up8 (x + 1) = x / 8 + 1) by (unfold up8; destruct ((x + 1) mod 8 >? 0) eqn:E; lia).
        pose proof (byte_step t (SS L t c + 8 * (x / 8)) (x mod 8) ltac:(lia)) as BS. replace (SS L t c + 8 * (x / 8) + x mod 8) with q in BS by lia.
        rewrite B in BS. cbn [Z.eqb Pos.eqb] in BS. rewrite By, Bp, BS.
        destruct (seti_or (s_bits st) (s_bc st) (bpart t (SS L t c + 8 * (x / 8)) (x mod 8 + 1)) ltac:(lia)) as [[S1 ->]|[S1 ->]]; cbn [bind]; [left|right; split; [reflexivity|lia]].
        eexists. split; [reflexivity|]. unfold finished32. cbn [s_arr s_bits s_done]. rewrite zlen_upd. replace (nbk L t - 1) with c by lia.
        split; [auto|]. split; [auto|]. split; [auto|]. split; [lia|].
        intros c' Hc'. destruct (Z.eq_dec c' c) as [->|].
        -- split; [intros; congruence|]. intros _ _ j Hj. rewrite EX in *. rewrite zn_upd by lia. destruct (OO32 L T t c + j =? s_bc st) eqn:EJ.
           ++ replace j with (x / 8) by lia. f_equal. lia.
           ++ rewrite Rd by lia. f_equal. lia.
        -- apply (keep_payload32 L T t (s_bits st) _ c); [lia|lia| |auto|lia]. intros k Hk. rewrite zn_upd by lia. replace (k =? s_bc st) with false by lia. reflexivity.
  - assert (F : fullb L t c = true) by (apply full_iff; [lia|lia|]; pose proof (Z.mod_pos_bound (K t) L ltac:(lia)); lia).
    destruct (flush_ok32 L T t arr0 cap c st HL H Hl ltac:(lia) F R) as [(bits & bc & -> & B1 & B2 & B3 & B4)|[-> B]]; cbn [bind]; [left|auto].
    destruct R as (A1 & _). eexists. split; [reflexivity|]. unfold finished32. cbn [s_arr s_bits s_done]. rewrite <- Hn. replace (c + 1 - 1) with c by lia.
    split; [auto|]. split; [auto|]. split; [auto|]. split; [lia|]. intros c' Hc'. apply B4. lia.
Qed.

Lemma second_step32_ok L T t arr0 cap q st : 1 <= L < T -> text_ok t -> zlen t < 2 ^ 29 -> 2 * nbk L t + 2 <= zlen arr0 -> 
  0 <= q < 8 * zlen t -> secondP32 L T t arr0 cap q st ->
  (exists st', second_step32 L T t (K t) (2 * nbk L t) st q = Ok st' /\ secondP32 L T t arr0 cap (q + 1) st') \/
  (second_step32 L T t (K t) (2 * nbk L t) st q = Ub UB_bounds /\ cap < OO32 L T t (nbk L t)).
Proof.
  intros HL H Hl Ha Hq [(c & Hc & Hs & R)|[Hs Fi]]; unfold second_step32; rewrite (wrap_small 32 q) by lia.
  - assert (R' := R). destruct R' as (A1 & R2 & R3 & R4 & R5 & R6 & R7 & R8 & _). rewrite R8, R5, R3. destruct (q =? SS L t (c + 1) - 1) eqn:EQ.
    + assert (q = SS L t (c + 1) - 1) by lia. subst q. destruct (2 * c + 2 =? 2 * nbk L t) eqn:EN.
      * destruct (last_ok32 L T t arr0 cap c st HL H Hl ltac:(lia) ltac:(lia) R) as [(st' & E & Fi)|X]; [left|auto].
        exists st'. split; [exact E|]. right. split; [|exact Fi]. replace (nbk L t) with (c + 1) by lia. lia.
      * destruct (next_ok32 L T t arr0 cap c st HL H Hl Ha ltac:(lia) ltac:(lia) R) as [(st' & E & R'')|X]; [left|auto].
        exists st'. split; [exact E|]. left. exists (c + 1). replace (SS L t (c + 1) - 1 + 1) with (SS L t (c + 1)) by lia.
        pose proof (SS_step L t (c + 1) ltac:(lia) ltac:(lia)). split; [lia|]. split; [lia|]. exact R''.
    + destruct (inner_ok32 L T t arr0 cap c q st HL H Hl Hc ltac:(lia) R) as [(st' & E & R'')|X]; [left|auto].
      exists st'. split; [exact E|]. left. exists c. split; [lia|]. split; [lia|]. exact R''.
  - left. assert (F' := Fi). destruct F' as (D & _). rewrite D. exists st. split; [reflexivity|]. right. split; [lia|exact Fi].
Qed.

(** The result of both passes. *)
Definition built32 (L T : Z) (t arr0 arr bits : list Z) : Prop :=
  zlen arr = zlen arr0 /\ (forall c, 0 <= c <= nbk L t -> zn 0 arr (2 * c) = SS L t c) /\
  (forall c, 0 <= c < nbk L t -> zn 0 arr (2 * c + 1) = OO32 L T t c) /\
  (forall c, 0 <= c < nbk L t -> payload32 L T t bits c).

Lemma incr_ok32 L t len arr : 1 <= L -> zlen t < 2 ^ 29 -> len = 2 * nbk L t + 2 -> len <= zlen arr -> (forall c, 0 <= c <= nbk L t -> zn 0 arr (2 * c) = raw L t c) ->
  exists arr', foldM (fun arr i => let* x := geti arr (2 * i) in seti arr (2 * i) (u32 (x + 1))) (zrange 1 (Z.to_nat ((len + 1) / 2 - 1))) arr = Ok arr' /\
  zlen arr' = zlen arr /\ (forall c, 0 <= c <= nbk L t -> zn 0 arr' (2 * c) = SS L t c) /\ (forall c, 0 <= c -> zn 0 arr' (2 * c + 1) = zn 0 arr (2 * c + 1)).
Proof.
  intros HL Hl E Ha A. pose proof (nbk_pos L t HL). replace ((len + 1) / 2 - 1) with (nbk L t) by lia.
  destruct (foldM_inv (fun arr i => let* x := geti arr (2 * i) in seti arr (2 * i) (u32 (x + 1)))
    (fun i a => zlen a = zlen arr /\ (forall c, 0 <= c <= nbk L t -> zn 0 a (2 * c) = if c <? i then SS L t c else raw L t c) /\
                (forall c, 0 <= c -> zn 0 a (2 * c + 1) = zn 0 arr (2 * c + 1)))
    (Z.to_nat (nbk L t)) 1 arr) as (a & F & I1 & I2 & I3).
  - split; [auto|]. split; [|auto]. intros c Hc. rewrite A by lia. destruct (c <? 1) eqn:E1; [|reflexivity]. replace c with 0 by lia. reflexivity.
  - intros i a Hi (I1 & I2 & I3). rewrite geti_ok by lia. cbn [bind]. rewrite seti_ok by lia. rewrite I2 by lia. replace (i <? i) with false by lia.
    pose proof (raw_bound L t i HL ltac:(lia)). rewrite wrap_small by lia. eexists. split; [reflexivity|]. split; [rewrite zlen_upd; auto|]. split.
    + intros c Hc. rewrite zn_upd by lia. destruct (2 * c =? 2 * i) eqn:E1.
      * assert (c = i) by lia. subst c. replace (i <? i + 1) with true by lia. rewrite raw_pos by lia. lia.
      * rewrite I2 by lia. replace (c <? i + 1) with (c <? i) by lia. reflexivity.
    + intros c Hc. rewrite zn_upd by lia. replace (2 * c + 1 =? 2 * i) with false by lia. apply I3. lia.
  - exists a. split; [exact F|]. split; [auto|]. split; [|exact I3]. intros c Hc. rewrite I2 by lia. replace (c <? 1 + Z.of_nat (Z.to_nat (nbk L t))) with true by lia. reflexivity.
Qed.

Lemma second_pass32_ok L T t arr0 bits : 1 <= L < T -> T < 2 ^ 32 -> text_ok t -> zlen t < 2 ^ 29 -> 2 * nbk L t + 2 <= zlen arr0 -> 1 <= K t ->
  first_done L t arr0 arr0 ->
  if OO32 L T t (nbk L t) <=? zlen bits
  then exists arr bits', second_pass32 L T t (K t) (2 * nbk L t) (2 * nbk L t + 2) arr0 bits = Ok (arr, bits') /\ built32 L T t arr0 arr bits' /\ zlen bits' = zlen bits
  else second_pass32 L T t (K t) (2 * nbk L t) (2 * nbk L t + 2) arr0 bits = Ub UB_bounds.
Proof.
  intros HL HT H Hl Ha HK [_ FD]. unfold second_pass32. assert (N1 : 0 < nbk L t) by (apply blk_lt; lia).
  pose proof (SS_bound L t 1 ltac:(lia) ltac:(lia)) as SB1. pose proof (SS_step L t 0 ltac:(lia) ltac:(lia)) as SST. change (0 + 1) with 1 in SST.
  destruct (FD 1 ltac:(lia)) as [FD1 _]. destruct (FD 0 ltac:(lia)) as [FD0 FD0']. change (2 * 1) with 2 in FD1. change (2 * 0) with 0 in FD0, FD0'.
  rewrite !geti_ok by lia. cbn [bind]. rewrite FD1, FD0. pose proof (raw_diff L t 0 ltac:(lia) ltac:(lia)) as RD. change (0 + 1) with 1 in RD. cbn [Z.eqb] in RD. rewrite RD.
  pose proof (DD_pos L t 0 ltac:(lia) ltac:(lia)). pose proof (DD_le L t 0 ltac:(lia) ltac:(lia)). rewrite (wrap_small 32 (DD L t 0 - 1)) by lia.
  replace (DD L t 0 - 1 + 1) with (DD L t 0) by lia. rewrite wrap_small by lia. rewrite raw_pos by lia.
  set (st0 := enter _ _ _ _ _ _ _ _).
  assert (I0 : secondP32 L T t arr0 (zlen bits) 0 st0).
  { left. exists 0. rewrite SS_0 in *. change (0 + 1) with 1. split; [lia|]. split; [lia|]. rewrite <- (SS_0 L t) at 1. unfold st0. change 0 with (2 * 0) at 3.
    rewrite <- (OO32_0 L T t) at 2. change 1 with (0 + 1). apply enter_run32; auto; try lia.
    - split; [auto|]. split; [intros c' Hc'; apply FD; lia|]. intros c' Hc'. replace c' with 0 by lia. exact FD0'.
    - rewrite OO32_0. apply zlen_nonneg. }
  destruct (foldM_inv_or (second_step32 L T t (K t) (2 * nbk L t)) (secondP32 L T t arr0 (zlen bits)) UB_bounds (zlen bits < OO32 L T t (nbk L t)) (Z.to_nat (8 * zlen t)) 0 st0 I0)
    as [(st & E & I)|[E B]].
  - intros q st Hq I. apply second_step32_ok; auto. lia.
  - rewrite E. cbn [bind]. replace (0 + Z.of_nat (Z.to_nat (8 * zlen t))) with (8 * zlen t) in I by (pose proof (zlen_nonneg t); lia).
    assert (Fi : finished32 L T t arr0 (zlen bits) st).
    { destruct I as [(c & Hc & Hs & _)|[_ Fi]]; [|exact Fi]. pose proof (SS_bound L t (c + 1) ltac:(lia) ltac:(lia)). lia. }
    destruct Fi as (_ & (A1 & A2 & A3) & Z1 & OC & PL). replace (OO32 L T t (nbk L t) <=? zlen bits) with true by lia.
    destruct (incr_ok32 L t (2 * nbk L t + 2) (s_arr st) ltac:(lia) Hl eq_refl ltac:(lia) A2) as (arr & -> & I1 & I2 & I3). cbn [bind].
    exists arr, (s_bits st). split; [reflexivity|]. split; [|exact Z1]. split; [lia|]. split; [exact I2|]. split; [|exact PL].
    intros c Hc. rewrite I3 by lia. apply A3. lia.
  - rewrite E. cbn [bind]. replace (OO32 L T t (nbk L t) <=? zlen bits) with false by lia. reflexivity.
Qed.
