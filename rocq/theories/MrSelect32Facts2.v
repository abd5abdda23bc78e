(** The first pass of the build of SelectBasic32. *)
From Coq Require Import ZifyBool.
From Verif Require Import Base BaseFacts Mem MemFacts Words WordFacts BlockFacts NodeFacts Trees TreeBuild Spec BitmapFacts KernelFacts SpecPoppy PoppyFacts PoppyFacts2 SpecText MrRank MrRankFacts MrSelect MrSelectFacts MrSelectFacts2 MrSelect32 MrSelect32Facts.
Ltac Zify.zify_post_hook ::= Z.div_mod_to_equations.

Lemma wrap32_l a b : u32 (u32 a + b) = u32 (a + b).
Proof. unfold wrap. rewrite Zplus_mod_idemp_l. reflexivity. Qed.

Definition firstP32 (L T : Z) (t arr0 : list Z) (q : Z) (st : list Z * Z * Z * Z * Z) : Prop :=
  let '(arr, sc, sel, last, blen) := st in
  zlen arr = zlen arr0 /\ sel = ts t 0 q /\ sc = 2 * (sel / L) + 2 /\ last = (if sel =? 0 then 0 else P t sel) /\ blen = u32 (O132 L T t (sel / L)) /\
  forall c, 0 <= c <= sel / L -> zn 0 arr (2 * c) = raw L t c /\ zn 0 arr (2 * c + 1) = 0.

Lemma first_step32_ok L T t arr0 q st : 1 <= L < T -> T < 2 ^ 32 -> text_ok t -> zlen t < 2 ^ 29 -> 2 * nbk L t + 2 <= zlen arr0 ->
  0 <= q < 8 * zlen t -> firstP32 L T t arr0 q st -> exists st', first_step32 L T t st q = Ok st' /\ firstP32 L T t arr0 (q + 1) st'.
Proof.
  intros HL HT H Hl Ha Hq I. destruct st as [[[[arr sc] sel] last] blen]. destruct I as (I1 & I2 & I3 & I4 & I5 & I6).
  unfold first_step32. rewrite text_bit_ok by lia. cbn [bind]. pose proof (ts_bound t 0 q ltac:(lia)) as B0.
  pose proof (ts_succ t 0 q ltac:(lia)) as TS. pose proof (ts_mono t (q + 1) (8 * zlen t) ltac:(lia)) as TM. fold (K t) in TM. pose proof (K_bound t).
  destruct (tb_cases t q) as [E|E]; rewrite E; cbn [Z.eqb Pos.eqb].
  - eexists. split; [reflexivity|]. unfold firstP32. rewrite TS, E, Z.add_0_r. auto 10.
  - assert (EU : u32 (sel + 1) = sel + 1) by (apply wrap_small; lia). rewrite EU.
    assert (QP : q = P t (sel + 1)) by (apply P_uniq; lia). assert (QU : u32 q = q) by (apply wrap_small; lia). rewrite QU.
    destruct ((sel + 1) mod L =? 0) eqn:EM.
    + destruct (div_full sel L ltac:(lia) ltac:(lia) ltac:(lia)) as [D1 D2]. set (c := sel / L) in *.
      assert (C0 : 0 <= c) by (apply Z.div_pos; lia). clearbody c.
      assert (CN : c < nbk L t) by (apply blk_lt; nia).
      assert (F : fullb L t c = true) by (unfold fullb; lia).
      assert (RC : raw L t (c + 1) = q).
      { rewrite raw_pos by lia. rewrite SS_end by lia. rewrite QP. f_equal. lia. }
      rewrite seti_ok by lia. cbn [bind]. rewrite seti_ok by (rewrite zlen_upd; lia). cbn [bind].
      assert (ZL : zlen (upd (upd arr sc q) (sc + 1) 0) = zlen arr) by (rewrite !zlen_upd; reflexivity).
      rewrite !geti_ok by lia. cbn [bind].
      rewrite !zn_upd by (rewrite ?zlen_upd; lia). replace (sc + 2 - 2 =? sc + 1) with false by lia. replace (sc + 2 - 2 =? sc) with true by lia.
      replace (sc + 2 - 4 =? sc + 1) with false by lia. replace (sc + 2 - 4 =? sc) with false by lia.
      replace (sc + 2 - 4) with (2 * c) by lia. destruct (I6 c ltac:(lia)) as [I6c _]. rewrite I6c.
      pose proof (raw_diff L t c ltac:(lia) ltac:(lia)) as RD. rewrite RC in RD.
      pose proof (DD_pos L t c ltac:(lia) ltac:(lia)) as DP. pose proof (DD_le L t c ltac:(lia) ltac:(lia)) as DL.
      assert (ED : (if sc + 2 =? 4 then u32 (u32 (q - raw L t c) + 1) else u32 (q - raw L t c)) = DD L t c).
      { rewrite RD. destruct (c =? 0) eqn:EC.
        - replace (sc + 2 =? 4) with true by lia. rewrite (wrap_small 32 (DD L t c - 1)) by lia. rewrite wrap_small; lia.
        - replace (sc + 2 =? 4) with false by lia. rewrite wrap_small; lia. }
      rewrite ED. eexists. split; [reflexivity|]. unfold firstP32. rewrite TS, E, D1.
      split; [congruence|]. split; [lia|]. split; [lia|]. split; [replace (sel + 1 =? 0) with false by lia; exact QP|]. split.
      * rewrite O132_succ by lia. rewrite I5. unfold w132. rewrite F. replace (sc + 2 =? 4) with (c =? 0) by lia.
        rewrite (wrap_small 32 (DD L t c - 1)) by lia.
        destruct (DD L t c >? T); [apply wrap32_l|]. destruct (DD L t c >? L); [apply wrap32_l|rewrite Z.add_0_r; reflexivity].
      * intros c' Hc'. rewrite !zn_upd by (rewrite ?zlen_upd; lia). destruct (Z.eq_dec c' (c + 1)) as [->|NE].
        -- replace (2 * (c + 1) =? sc + 1) with false by lia. replace (2 * (c + 1) =? sc) with true by lia.
           replace (2 * (c + 1) + 1 =? sc + 1) with true by lia. auto.
        -- replace (2 * c' =? sc + 1) with false by lia. replace (2 * c' =? sc) with false by lia.
           replace (2 * c' + 1 =? sc + 1) with false by lia. replace (2 * c' + 1 =? sc) with false by lia. apply I6. lia.
    + eexists. split; [reflexivity|]. unfold firstP32. rewrite TS, E. rewrite div_step by lia.
      replace (sel + 1 =? 0) with false by lia. split; [auto|]. split; [lia|]. auto 10.
Qed.

Lemma first_pass32_ok L T t arr0 : 1 <= L < T -> T < 2 ^ 32 -> text_ok t -> zlen t < 2 ^ 29 -> 2 * nbk L t + 2 <= zlen arr0 ->
  exists arr, first_pass32 L T t (K t) arr0 = Ok (arr, 2 * nbk L t + 2, u32 (O132 L T t (nbk L t))) /\ first_done L t arr0 arr.
Proof.
  intros HL HT H Hl Ha. unfold first_pass32. pose proof (nbk_pos L t ltac:(lia)) as NP. pose proof (zlen_nonneg t) as ZN. pose proof (K_bound t) as KB.
  rewrite seti_ok by lia. cbn [bind]. rewrite seti_ok by (rewrite zlen_upd; lia). cbn [bind].
  destruct (foldM_inv (first_step32 L T t) (firstP32 L T t arr0) (Z.to_nat (8 * zlen t)) 0 (upd (upd arr0 0 0) 1 0, 2, 0, 0, 0)) as (st & E & I).
  - unfold firstP32. rewrite ts_empty, Z.div_0_l by lia. rewrite !zlen_upd. split; [auto|]. split; [auto|]. split; [auto|]. split; [auto|].
    split; [unfold O132; rewrite sumf_empty by lia; reflexivity|]. intros c Hc. assert (c = 0) by lia. subst c. rewrite !zn_upd by (rewrite ?zlen_upd; lia). cbn. auto.
  - intros q st Hq I. apply first_step32_ok; auto. lia.
  - rewrite E. cbn [bind]. destruct st as [[[[arr sc] sel] last] blen]. replace (0 + Z.of_nat (Z.to_nat (8 * zlen t))) with (8 * zlen t) in I by lia.
    destruct I as (I1 & I2 & I3 & I4 & I5 & I6). fold (K t) in I2. subst sel. pose proof (nbk_up L t ltac:(lia)) as NU.
    destruct (K t mod L >? 0) eqn:EM.
    + set (c := K t / L) in *. assert (C0 : 0 <= c) by (apply Z.div_pos; lia). assert (CL : c < nbk L t) by lia.
      pose proof (Z.div_mod (K t) L ltac:(lia)) as DM. pose proof (Z.mod_pos_bound (K t) L ltac:(lia)) as MB. fold c in DM. clearbody c.
      assert (F : fullb L t c = false) by (unfold fullb; nia). assert (KP : 1 <= K t) by nia.
      assert (RC : raw L t (c + 1) = P t (K t)).
      { rewrite raw_pos by lia. rewrite SS_end by lia. f_equal. nia. }
      replace (K t =? 0) with false in I4 by lia. subst last.
      rewrite seti_ok by lia. cbn [bind]. rewrite seti_ok by (rewrite zlen_upd; lia). cbn [bind].
      assert (ZL : zlen (upd (upd arr sc (P t (K t))) (sc + 1) 0) = zlen arr) by (rewrite !zlen_upd; reflexivity).
      rewrite !geti_ok by lia. cbn [bind].
      rewrite !zn_upd by (rewrite ?zlen_upd; lia). replace (sc + 2 - 2 =? sc + 1) with false by lia. replace (sc + 2 - 2 =? sc) with true by lia.
      replace (sc + 2 - 4 =? sc + 1) with false by lia. replace (sc + 2 - 4 =? sc) with false by lia.
      replace (sc + 2 - 4) with (2 * c) by lia. destruct (I6 c ltac:(lia)) as [I6c _]. rewrite I6c.
      pose proof (raw_diff L t c ltac:(lia) ltac:(lia)) as RD. rewrite RC in RD. rewrite RD.
      pose proof (DD_pos L t c ltac:(lia) ltac:(lia)) as DP. pose proof (DD_le L t c ltac:(lia) ltac:(lia)) as DL.
      rewrite (wrap_small 32 (if c =? 0 then _ else _)) by (destruct (c =? 0); lia).
      eexists. split.
      * f_equal. f_equal; [f_equal; lia|]. rewrite NU. rewrite O132_succ by lia. unfold w132. rewrite F. cbv zeta. rewrite I5.
        destruct ((if c =? 0 then DD L t c - 1 else DD L t c) >? T); apply wrap32_l.
      * split; [lia|]. intros c' Hc'. rewrite !zn_upd by (rewrite ?zlen_upd; lia). destruct (Z.eq_dec c' (c + 1)) as [->|NE].
        -- replace (2 * (c + 1) =? sc + 1) with false by lia. replace (2 * (c + 1) =? sc) with true by lia.
           replace (2 * (c + 1) + 1 =? sc + 1) with true by lia. auto.
        -- replace (2 * c' =? sc + 1) with false by lia. replace (2 * c' =? sc) with false by lia.
           replace (2 * c' + 1 =? sc + 1) with false by lia. replace (2 * c' + 1 =? sc) with false by lia. apply I6. lia.
    + exists arr. rewrite Z.add_0_r in NU. rewrite NU. split; [congruence|]. split; [auto|]. rewrite NU. auto.
Qed.
