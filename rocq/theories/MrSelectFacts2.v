(** The first pass of the build of SelectBasic64. *)
From Coq Require Import ZifyBool.
From Verif Require Import Base BaseFacts Mem MemFacts Words WordFacts BlockFacts NodeFacts Trees TreeBuild Spec BitmapFacts KernelFacts SpecPoppy PoppyFacts PoppyFacts2 SpecText MrRank MrRankFacts MrSelect MrSelectFacts.
Ltac Zify.zify_post_hook ::= Z.div_mod_to_equations.

Definition raw (L : Z) (t : list Z) (c : Z) : Z := if c =? 0 then 0 else SS L t c - 1.
Lemma raw_0 L t : raw L t 0 = 0.
Proof. reflexivity. Qed.
Lemma raw_pos L t c : 1 <= c -> raw L t c = SS L t c - 1.
Proof. intros. unfold raw. replace (c =? 0) with false by lia. reflexivity. Qed.
Lemma raw_bound L t c : 1 <= L -> 0 <= c <= nbk L t -> 0 <= raw L t c <= 8 * zlen t.
Proof.
  intros HL Hc. pose proof (SS_bound L t c HL Hc). destruct (Z.eq_dec c 0) as [->|C]; [rewrite raw_0; lia|].
  rewrite raw_pos by lia. pose proof (SS_step L t (c - 1) HL ltac:(lia)) as X. replace (c - 1 + 1) with c in X by lia.
  pose proof (SS_bound L t (c - 1) HL ltac:(lia)). lia.
Qed.
(** Distances of the entries. *)
Lemma raw_diff L t c : 1 <= L -> 0 <= c < nbk L t -> raw L t (c + 1) - raw L t c = if c =? 0 then DD L t c - 1 else DD L t c.
Proof.
  intros HL Hc. rewrite (raw_pos L t (c + 1)) by lia. unfold DD. destruct (c =? 0) eqn:E.
  - assert (c = 0) by lia. subst. rewrite raw_0, SS_0. lia.
  - rewrite raw_pos by lia. lia.
Qed.

Definition firstP (L T : Z) (t arr0 : list Z) (q : Z) (st : list Z * Z * Z * Z * Z) : Prop :=
  let '(arr, sc, sel, last, blen) := st in
  zlen arr = zlen arr0 /\ sel = ts t 0 q /\ sc = 2 * (sel / L) + 2 /\ last = (if sel =? 0 then 0 else P t sel) /\ blen = O1 L T t (sel / L) /\
  forall c, 0 <= c <= sel / L -> zn 0 arr (2 * c) = raw L t c /\ zn 0 arr (2 * c + 1) = 0.

Lemma div_step s L : 1 <= L -> 0 <= s -> (s + 1) mod L <> 0 -> (s + 1) / L = s / L.
Proof.
  intros HL Hs H. pose proof (Z.div_mod (s + 1) L ltac:(lia)). pose proof (Z.mod_pos_bound (s + 1) L ltac:(lia)).
  apply (Z.div_unique _ _ _ ((s + 1) mod L - 1)); lia.
Qed.
Lemma div_full s L : 1 <= L -> 0 <= s -> (s + 1) mod L = 0 -> (s + 1) / L = s / L + 1 /\ (s / L + 1) * L = s + 1.
Proof.
  intros HL Hs H. pose proof (Z.div_mod (s + 1) L ltac:(lia)) as E. rewrite H in E. set (c := (s + 1) / L) in *. clearbody c.
  assert (c - 1 = s / L) by (apply (Z.div_unique _ _ _ (L - 1)); nia). nia.
Qed.

Lemma first_step_ok L T t arr0 q st : 1 <= L < T -> T < 2 ^ 32 -> text_ok t -> zlen t < 2 ^ 58 -> 2 * nbk L t + 2 <= zlen arr0 ->
  0 <= q < 8 * zlen t -> firstP L T t arr0 q st -> exists st', first_step L T t st q = Ok st' /\ firstP L T t arr0 (q + 1) st'.
Proof.
  intros HL HT H Hl Ha Hq I. destruct st as [[[[arr sc] sel] last] blen]. destruct I as (I1 & I2 & I3 & I4 & I5 & I6).
  unfold first_step. rewrite text_bit_ok by lia. cbn [bind]. pose proof (ts_bound t 0 q ltac:(lia)) as B0.
  pose proof (ts_succ t 0 q ltac:(lia)) as TS. pose proof (ts_mono t (q + 1) (8 * zlen t) ltac:(lia)) as TM. fold (K t) in TM. pose proof (K_bound t).
  destruct (tb_cases t q) as [E|E]; rewrite E; cbn [Z.eqb Pos.eqb].
  - eexists. split; [reflexivity|]. unfold firstP. rewrite TS, E, Z.add_0_r. auto 10.
  - assert (EU : u64 (sel + 1) = sel + 1) by (apply wrap_small; lia). rewrite EU.
    assert (QP : q = P t (sel + 1)) by (apply P_uniq; lia).
    destruct ((sel + 1) mod L =? 0) eqn:EM.
    + destruct (div_full sel L ltac:(lia) ltac:(lia) ltac:(lia)) as [D1 D2]. set (c := sel / L) in *.
      assert (C0 : 0 <= c) by (apply Z.div_pos; lia). clearbody c.
      assert (CN : c < nbk L t) by (apply blk_lt; nia).
      assert (F : fullb L t c = true) by (unfold fullb; lia).
      assert (RC : raw L t (c + 1) = q).
      { rewrite raw_pos by lia. rewrite SS_end by lia. rewrite QP. f_equal. lia. }
      rewrite seti_ok by lia. cbn [bind]. rewrite seti_ok by (rewrite zlen_upd; lia). cbn [bind].
      assert (ZL : zlen (upd (upd arr sc q) (sc + 1) 0) = zlen arr) by (rewrite !zlen_upd; reflexivity).
      rewrite !geti_ok by lia. cbn [bind].
      rewrite !zn_upd by (rewrite ?zlen_upd; lia). replace (sc + 2 - 2 =? sc + 1) with false by lia. replace (sc + 2 - 2 =? sc) with true by lia.
      replace (sc + 2 - 4 =? sc + 1) with false by lia. replace (sc + 2 - 4 =? sc) with false by lia.
      replace (sc + 2 - 4) with (2 * c) by lia. destruct (I6 c ltac:(lia)) as [I6c _]. rewrite I6c.
      pose proof (raw_diff L t c ltac:(lia) ltac:(lia)) as RD. rewrite RC in RD.
      pose proof (DD_pos L t c ltac:(lia) ltac:(lia)) as DP. pose proof (DD_le L t c ltac:(lia) ltac:(lia)) as DL.
      assert (ED : (if sc + 2 =? 4 then u64 (u64 (q - raw L t c) + 1) else u64 (q - raw L t c)) = DD L t c).
      { rewrite RD. destruct (c =? 0) eqn:EC.
        - replace (sc + 2 =? 4) with true by lia. rewrite (wrap_small 64 (DD L t c - 1)) by lia. rewrite wrap_small; lia.
        - replace (sc + 2 =? 4) with false by lia. rewrite wrap_small; lia. }
      rewrite ED. eexists. split; [reflexivity|]. unfold firstP. rewrite TS, E, D1.
      split; [congruence|]. split; [lia|]. split; [lia|]. split; [replace (sel + 1 =? 0) with false by lia; exact QP|]. split.
      * rewrite O1_succ by lia. pose proof (O1_bound L T t c HL ltac:(lia)) as OB. pose proof (w1_bound L T t c HL ltac:(lia)) as WB.
        pose proof (SS_bound L t (c + 1) ltac:(lia) ltac:(lia)). assert (O1 L T t c + w1 L T t c < 2 ^ 64) by (unfold DD in *; lia).
        rewrite I5. unfold w1 in *. rewrite F in *. replace (sc + 2 =? 4) with (c =? 0) by lia.
        rewrite (wrap_small 64 (DD L t c - 1)) by lia.
        destruct (DD L t c >? T); [apply wrap_small; lia|]. destruct (DD L t c >? L); [|lia]. apply wrap_small; lia.
      * intros c' Hc'. rewrite !zn_upd by (rewrite ?zlen_upd; lia). destruct (Z.eq_dec c' (c + 1)) as [->|NE].
        -- replace (2 * (c + 1) =? sc + 1) with false by lia. replace (2 * (c + 1) =? sc) with true by lia.
           replace (2 * (c + 1) + 1 =? sc + 1) with true by lia. auto.
        -- replace (2 * c' =? sc + 1) with false by lia. replace (2 * c' =? sc) with false by lia.
           replace (2 * c' + 1 =? sc + 1) with false by lia. replace (2 * c' + 1 =? sc) with false by lia. apply I6. lia.
    + eexists. split; [reflexivity|]. unfold firstP. rewrite TS, E. rewrite div_step by lia.
      replace (sel + 1 =? 0) with false by lia. split; [auto|]. split; [lia|]. auto 10.
Qed.

(** After the first pass. *)
Definition first_done (L : Z) (t arr0 arr : list Z) : Prop :=
  zlen arr = zlen arr0 /\ forall c, 0 <= c <= nbk L t -> zn 0 arr (2 * c) = raw L t c /\ zn 0 arr (2 * c + 1) = 0.

Lemma first_pass_ok L T t arr0 : 1 <= L < T -> T < 2 ^ 32 -> text_ok t -> zlen t < 2 ^ 58 -> 2 * nbk L t + 2 <= zlen arr0 ->
  exists arr, first_pass L T t (K t) arr0 = Ok (arr, 2 * nbk L t + 2, O1 L T t (nbk L t)) /\ first_done L t arr0 arr.
Proof.
  intros HL HT H Hl Ha. unfold first_pass. pose proof (nbk_pos L t ltac:(lia)) as NP. pose proof (zlen_nonneg t) as ZN. pose proof (K_bound t) as KB.
  rewrite seti_ok by lia. cbn [bind]. rewrite seti_ok by (rewrite zlen_upd; lia). cbn [bind].
  destruct (foldM_inv (first_step L T t) (firstP L T t arr0) (Z.to_nat (8 * zlen t)) 0 (upd (upd arr0 0 0) 1 0, 2, 0, 0, 0)) as (st & E & I).
  - unfold firstP. rewrite ts_empty, Z.div_0_l by lia. rewrite !zlen_upd. split; [auto|]. split; [auto|]. split; [auto|]. split; [auto|].
    split; [unfold O1; rewrite sumf_empty; lia|]. intros c Hc. assert (c = 0) by lia. subst c. rewrite !zn_upd by (rewrite ?zlen_upd; lia). cbn. auto.
  - intros q st Hq I. apply first_step_ok; auto. lia.
  - rewrite E. cbn [bind]. destruct st as [[[[arr sc] sel] last] blen]. replace (0 + Z.of_nat (Z.to_nat (8 * zlen t))) with (8 * zlen t) in I by lia.
    destruct I as (I1 & I2 & I3 & I4 & I5 & I6). fold (K t) in I2. subst sel. pose proof (nbk_up L t ltac:(lia)) as NU.
    destruct (K t mod L >? 0) eqn:EM.
    + set (c := K t / L) in *. assert (C0 : 0 <= c) by (apply Z.div_pos; lia). assert (CL : c < nbk L t) by lia.
      pose proof (Z.div_mod (K t) L ltac:(lia)) as DM. pose proof (Z.mod_pos_bound (K t) L ltac:(lia)) as MB. fold c in DM. clearbody c.
      assert (F : fullb L t c = false) by (unfold fullb; nia). assert (KP : 1 <= K t) by nia.
      assert (RC : raw L t (c + 1) = P t (K t)).
      { rewrite raw_pos by lia. rewrite SS_end by lia. f_equal. nia. }
      replace (K t =? 0) with false in I4 by lia. subst last.
      rewrite seti_ok by lia. cbn [bind]. rewrite seti_ok by (rewrite zlen_upd; lia). cbn [bind].
      assert (ZL : zlen (upd (upd arr sc (P t (K t))) (sc + 1) 0) = zlen arr) by (rewrite !zlen_upd; reflexivity).
      rewrite !geti_ok by lia. cbn [bind].
      rewrite !zn_upd by (rewrite ?zlen_upd; lia). replace (sc + 2 - 2 =? sc + 1) with false by lia. replace (sc + 2 - 2 =? sc) with true by lia.
      replace (sc + 2 - 4 =? sc + 1) with false by lia. replace (sc + 2 - 4 =? sc) with false by lia.
      replace (sc + 2 - 4) with (2 * c) by lia. destruct (I6 c ltac:(lia)) as [I6c _]. rewrite I6c.
      pose proof (raw_diff L t c ltac:(lia) ltac:(lia)) as RD. rewrite RC in RD. rewrite RD.
      pose proof (DD_pos L t c ltac:(lia) ltac:(lia)) as DP. pose proof (DD_le L t c ltac:(lia) ltac:(lia)) as DL.
      rewrite (wrap_small 64 (if c =? 0 then _ else _)) by (destruct (c =? 0); lia).
      eexists. split.
      * f_equal. f_equal; [f_equal; lia|]. rewrite NU. rewrite O1_succ by lia. pose proof (O1_bound L T t c HL ltac:(lia)) as OB. pose proof (w1_bound L T t c HL ltac:(lia)) as WB.
        pose proof (SS_bound L t (c + 1) ltac:(lia) ltac:(lia)). assert (O1 L T t c + w1 L T t c < 2 ^ 64) by (unfold DD in *; lia).
        unfold w1 in *. rewrite F in *. cbv zeta in *. rewrite I5. destruct ((if c =? 0 then DD L t c - 1 else DD L t c) >? T); apply wrap_small; lia.
      * split; [lia|]. intros c' Hc'. rewrite !zn_upd by (rewrite ?zlen_upd; lia). destruct (Z.eq_dec c' (c + 1)) as [->|NE].
        -- replace (2 * (c + 1) =? sc + 1) with false by lia. replace (2 * (c + 1) =? sc) with true by lia.
           replace (2 * (c + 1) + 1 =? sc + 1) with true by lia. auto.
        -- replace (2 * c' =? sc + 1) with false by lia. replace (2 * c' =? sc) with false by lia.
           replace (2 * c' + 1 =? sc + 1) with false by lia. replace (2 * c' + 1 =? sc) with false by lia. apply I6. lia.
    + exists arr. rewrite Z.add_0_r in NU. rewrite NU. split; [congruence|]. split; [auto|]. rewrite NU. auto.
Qed.
