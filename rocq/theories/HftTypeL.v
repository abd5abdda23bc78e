(** TypeL cannot search sequences of the sizes that [can_search] excludes. *)
From Coq Require Import ZifyBool.
From Verif Require Import Base BaseFacts Mem MemFacts SpecHft Hft HftFacts HftMem HftBuild HftStore HftLayF HftLayL HftOps HftClient.
Ltac Zify.zify_post_hook ::= Z.div_mod_to_equations.

(** The counterexample: a one followed by zeros. *)
Definition one_zeros (n : Z) : list Z := 1 :: repeat 0 (Z.to_nat (n - 1)).

Lemma zlen_oz n : 1 <= n -> zlen (one_zeros n) = n.
Proof. intros H. unfold one_zeros, zlen. cbn [length]. rewrite repeat_length. lia. Qed.

Lemma elem_oz n k : 1 <= k -> elem (one_zeros n) k = if k =? 1 then 1 else 0.
Proof.
  intros Hk. unfold elem, zn, one_zeros. destruct (Z.eqb_spec k 1) as [->|]; [reflexivity|].
  replace (Z.to_nat (k - 1)) with (S (Z.to_nat (k - 2))) by lia. cbn [nth]. apply nth_repeat.
Qed.

Lemma sum_oz n lo hi : 1 <= lo <= hi -> sumf (elem (one_zeros n)) lo hi = if (lo =? 1) && (1 <? hi) then 1 else 0.
Proof.
  intros H. destruct (Z.eqb_spec lo 1) as [->|].
  - cbn [andb]. destruct (Z.ltb_spec 1 hi); [|apply sumf_empty; lia]. rewrite sumf_first by lia. rewrite elem_oz by lia. cbn [Z.eqb Pos.eqb].
    rewrite sumf_const0; [reflexivity|]. intros i Hi. rewrite elem_oz by lia. destruct (Z.eqb_spec i 1); lia.
  - cbn [andb]. apply sumf_const0. intros i Hi. rewrite elem_oz by lia. destruct (Z.eqb_spec i 1); lia.
Qed.

Lemma node_oz n h i : 0 <= h -> 0 <= i -> node (elem (one_zeros n)) ((2 * i + 1) * 2 ^ h) = if i =? 0 then 1 else 0.
Proof.
  intros Hh Hi. destruct (pos_ht h i Hh Hi) as (H1 & H2 & _). unfold node, low. rewrite H2. assert (0 < 2 ^ h) by (apply Z.pow_pos_nonneg; lia).
  rewrite sum_oz by nia. destruct (Z.eqb_spec i 0) as [->|].
  - replace ((2 * 0 + 1) * 2 ^ h - 2 ^ h + 1 =? 1) with true by lia. replace (1 <? (2 * 0 + 1) * 2 ^ h + 1) with true by lia. reflexivity.
  - replace ((2 * i + 1) * 2 ^ h - 2 ^ h + 1 =? 1) with false; [reflexivity|]. symmetry. apply Z.eqb_neq. nia.
Qed.

Lemma seq_sum_oz n k : 1 <= n -> 0 <= k <= n -> seq_sum (one_zeros n) k <= 1.
Proof. intros Hn Hk. rewrite seq_sum_S1 by (rewrite zlen_oz; lia). unfold S1. rewrite sum_oz by lia. destruct (_ && _); lia. Qed.

(** What is left of the searched number never grows. *)

Lemma rest_falls t : ft_lay t = TypeL -> (forall k, bytes_ok (arr t k)) -> forall l k i v k' i' v',
  foldM (find_l_step false t) l (k, i, v) = Ok (k', i', v') -> v' <= v.
Proof.
  intros EL HB. induction l as [|h r IH]; intros k i v k' i' v' E; cbn [foldM] in E; [inversion E; lia|].
  destruct (find_l_step false t (k, i, v) h) as [[[k1 i1] v1]| |] eqn:E1; cbn [bind] in E; try discriminate. apply IH in E. assert (v1 <= v); [|lia]. clear E.
  unfold find_l_step in E1. destruct (l_present t h i) as [b| |]; cbn [bind] in E1; try discriminate. destruct b; [|inversion E1; lia].
  destruct (lget t h i) as [x| |] eqn:EX; cbn [bind complement] in E1; try discriminate.
  assert (0 <= x).
  { unfold lget in EX. rewrite EL in EX. destruct (geti _ _); cbn [bind] in EX; try discriminate. unfold load in EX. destruct (in_bounds _ _ _) eqn:IB; [|discriminate]. inversion EX.
    unfold in_bounds in IB. rewrite rd_field by (auto; lia). unfold field. apply Z.mod_pos_bound. apply Z.pow_pos_nonneg; lia. }
  destruct (x <=? v); [|inversion E1; lia]. destruct (shl 1 h); cbn [bind] in E1; try discriminate. inversion E1. lia.
Qed.

(** The position of a node in the arrays of TypeL, and the test for its existence. *)
Lemma present_t B n t : fits TypeL B n -> shape TypeL B n (lvl_t (bound_size B) n) (lens_t (bound_size B) n) t -> 0 < n ->
  forall h i, 0 <= h <= Z.log2 n -> 0 <= i <= 2 ^ 48 -> let bs := bound_size B in
  l_present t h i = Ok (Lt bs n h + i <? En bs n (cz bs h) (hts n)).
Proof.
  intros (HB & Hn & HL) HS N0 h i Hh Hi bs. rewrite (width_bs B HB) in HL. destruct (bound_size_ok B HB) as (_ & Hb & _). fold bs in HL, Hb. pose proof HS as (E1 & E2 & _ & E4 & _).
  destruct (hts_range n Hn) as (HR & H1). specialize (H1 N0).
  destruct (type_class bs h ltac:(lia) ltac:(lia) ltac:(lia)) as (C1 & C2 & C3). unfold l_present. rewrite E1, E2, E4. fold bs. rewrite geti_lvl_t by lia. cbn [bind]. f_equal.
  rewrite C1, C2. rewrite (len_t bs n B _ t (cz bs h) HS C3). assert (W : 1 <= cwz (cz bs h)) by (unfold cwz; destruct (cz bs h =? 0), (cz bs h =? 1); lia).
  rewrite Z.mul_comm, Z.div_mul by lia. pose proof (En_bound bs n (cz bs h) h Hn ltac:(lia)) as EB. fold (Lt bs n h) in EB. rewrite wrap_small by lia. reflexivity.
Qed.

(** A level with a missing node whose successor is in the same array. *)
Definition bad (B n h : Z) : Prop := 0 <= h < Z.log2 n /\ Z.testbit n h = false /\ width B + h <> 8 /\ width B + h <> 16.

Lemma bad_dec B n h : {bad B n h} + {~ bad B n h}.
Proof.
  unfold bad. destruct (Z_le_dec 0 h); [|right; lia]. destruct (Z_lt_dec h (Z.log2 n)); [|right; lia].
  destruct (Bool.bool_dec (Z.testbit n h) false); [|right; tauto]. destruct (Z.eq_dec (width B + h) 8); [right; lia|]. destruct (Z.eq_dec (width B + h) 16); [right; lia|]. left. auto.
Qed.

Lemma highest_bad B n h : bad B n h -> exists h0, bad B n h0 /\ forall j, h0 < j -> ~ bad B n j.
Proof.
  intros H. assert (IN : forall k h, bad B n h -> Z.log2 n - h <= Z.of_nat k -> exists h0, bad B n h0 /\ forall j, h0 < j -> ~ bad B n j).
  { clear h H. induction k as [|k IH]; intros h H Hk; [destruct H; lia|].
    assert (D : forall m, (exists j, h < j <= h + Z.of_nat m /\ bad B n j) \/ forall j, h < j <= h + Z.of_nat m -> ~ bad B n j).
    { induction m as [|m [(j & Hj & Bj)|IHm]]; [right; intros; lia|left; exists j; split; auto; lia|].
      destruct (bad_dec B n (h + Z.of_nat (S m))) as [Y|N]; [left; exists (h + Z.of_nat (S m)); split; auto; lia|].
      right. intros j Hj. destruct (Z.eq_dec j (h + Z.of_nat (S m))) as [->|]; auto. apply IHm. lia. }
    destruct (D (Z.to_nat (Z.log2 n))) as [(j & Hj & Bj)|N].
    - apply (IH j Bj). lia.
    - exists h. split; auto. intros j Hj Bj. apply (N j); auto. destruct H as (H & _). destruct Bj as (Bj & _). lia. }
  apply (IN (Z.to_nat (Z.log2 n)) h H). destruct H. lia.
Qed.

Lemma same_class bs h : bs + h <> 8 -> bs + h <> 16 -> cz bs (h + 1) = cz bs h.
Proof. intros H1 H2. unfold cz. destruct (Z.leb_spec (bs + (h + 1)) 8), (Z.leb_spec (bs + (h + 1)) 16), (Z.leb_spec (bs + h) 8), (Z.leb_spec (bs + h) 16); lia. Qed.

Lemma other_class bs n h : bs + h = 8 \/ bs + h = 16 -> 0 <= h < hts n -> En bs n (cz bs h) (hts n) = En bs n (cz bs h) (h + 1).
Proof.
  intros H Hh. unfold En. rewrite (sumf_split _ 0 (h + 1) (hts n)) by lia.
  rewrite <- (Z.add_0_r (sumf _ 0 (h + 1))) at 2. f_equal. apply sumf_const0. intros j Hj. destruct (Z.eqb_spec (cz bs j) (cz bs h)) as [E|]; [|reflexivity]. exfalso. revert E. unfold cz.
  destruct (Z.leb_spec (bs + j) 8), (Z.leb_spec (bs + j) 16), (Z.leb_spec (bs + h) 8), (Z.leb_spec (bs + h) 16); lia.
Qed.

Lemma half_bit n h : 0 <= h -> 0 <= n -> n / 2 ^ h = 2 * (n / 2 ^ (h + 1)) + (if Z.testbit n h then 1 else 0).
Proof.
  intros Hh Hn. rewrite Z.pow_add_r by lia. change (2 ^ 1) with 2. rewrite <- Z.div_div by lia. rewrite Z.testbit_eqb by lia. set (x := n / 2 ^ h). clearbody x. destruct (Z.eqb_spec (x mod 2) 1); lia.
Qed.

Lemma bit_facts n h i : 0 <= h -> 0 < n -> i = n / 2 ^ (h + 1) ->
  0 <= i <= n /\ (Z.testbit n h = true -> (2 * i + 1) * 2 ^ h <= n) /\ (Z.testbit n h = false -> n < (2 * i + 1) * 2 ^ h /\ 2 * i * 2 ^ h <= n) /\ (h = Z.log2 n -> i = 0 /\ Z.testbit n h = true) /\ (h < Z.log2 n -> i <> 0)
  /\ (if Z.testbit n h then 2 * i + 1 else 2 * i) = n / 2 ^ h.
Proof.
  intros Hh Hn Ei. pose proof (half_bit n h Hh ltac:(lia)) as HB. assert (P2 : 0 < 2 ^ h) by (apply Z.pow_pos_nonneg; lia).
  pose proof (Z.mul_div_le n (2 ^ h) P2) as D1. pose proof (Z.mul_succ_div_gt n (2 ^ h) P2) as D2. unfold Z.succ in D2.
  destruct (div_le_self (h + 1) n ltac:(lia) ltac:(lia)) as (D4 & D3).
  pose proof (Z.log2_spec n Hn) as LS. assert (D5 : h = Z.log2 n -> n / 2 ^ (h + 1) = 0) by (intros ->; apply Z.div_small; unfold Z.succ in LS; lia).
  assert (D6 : h < Z.log2 n -> n / 2 ^ (h + 1) <> 0).
  { intros L X. apply Z.div_small_iff in X; [|apply Z.pow_nonzero; lia]. assert (2 ^ (h + 1) <= 2 ^ Z.log2 n) by (apply Z.pow_le_mono_r; lia). lia. }
  assert (D7 : h = Z.log2 n -> Z.testbit n h = true) by (intros ->; apply Z.bit_log2; lia).
  rewrite <- Ei in D3, D4, D5, D6, HB. clear Ei. set (x := n / 2 ^ h) in *. clearbody x. split; [lia|]. split; [intros T; rewrite T in HB; cbv iota in HB; rewrite HB in D1; lia|].
  split; [intros T; rewrite T in HB; cbv iota in HB; rewrite HB in D1, D2; lia|]. split; [auto|]. split; [auto|]. rewrite HB. destruct (Z.testbit n h); lia.
Qed.

Lemma wrong_search (sh : bool) B n h0 : fits TypeL B n -> 0 < n -> 1 <= B -> bad B n h0 -> (forall j, h0 < j -> ~ bad B n j) ->
  forall t, st TypeL B n (lvl_t (bound_size B) n) (lens_t (bound_size B) n) (geo_typel (bound_size B) n) false t (node (elem (one_zeros n))) ->
  forall k rest, ft_find false t 2 = Ok (k, rest) -> rest <= 0.
Proof.
  intros HF N0 HB1 HBAD HTOP t HI k rest E. pose proof HF as (HB & Hn & HL). rewrite (width_bs B HB) in HL. destruct (bound_size_ok B HB) as (_ & Hb & _). set (bs := bound_size B) in *.
  destruct (hts_range n Hn) as (HR & H1). specialize (H1 N0). pose proof HI as (HS & HV). pose proof HS as (E1 & E2 & E3 & E4 & E5 & E6).
  destruct (acc_typel sh B n HB Hn HL) as (A & AL). fold bs in A, AL.
  assert (HG : forall h i, 0 <= h -> 0 <= i -> (2 * i + 1) * 2 ^ h <= n -> lget t h i = Ok (if i =? 0 then 1 else 0)).
  { intros h i Hh Hi Hp. rewrite (lb_get (acc_goodlb sh TypeL B n (lvl_t bs n) (lens_t bs n) (geo_typel bs n) false ltac:(intros X; discriminate X) A AL) t _ h i HI Hh Hi Hp).
    rewrite node_oz by auto. destruct (i =? 0); reflexivity. }
  pose proof (present_t B n t HF HS N0) as HP. fold bs in HP. pose proof HBAD as (Hh0 & TB0 & W8 & W16). rewrite (width_bs B HB) in W8, W16. fold bs in W8, W16.
  unfold ft_find in E. rewrite E1 in E. cbn [is_l] in E. unfold find_l in E. fold (find_l_step false t) in E.
  assert (EZ : zlen (ft_level t) = hts n + 1) by (rewrite E4; unfold lvl_t; rewrite zlen_map; unfold zlen; rewrite length_zrange; lia).
  rewrite EZ in E. replace (hts n + 1 - 1) with (hts n) in E by lia.
  assert (DESC : forall f h k i v, Z.of_nat f = h - h0 -> h <= Z.log2 n -> i = n / 2 ^ (h + 1) -> v = (if h =? Z.log2 n then 2 else 1) -> forall k' i' v',
     foldM (find_l_step false t) (rev (zrange 0 (S (Z.to_nat h)))) (k, i, v) = Ok (k', i', v') -> v' <= 0).
  { clear E k rest. induction f as [|f IH]; intros h k i v Hf Hh Ei Ev k' i' v' E.
    - assert (h = h0) by lia. subst h. replace (h0 =? Z.log2 n) with false in Ev by lia. rewrite zrange_snoc, rev_app_distr in E. cbn [rev app foldM] in E. replace (0 + Z.of_nat (Z.to_nat h0)) with h0 in E by lia.
      destruct (bit_facts n h0 i ltac:(lia) N0 Ei) as (BF1 & _ & BF2 & _). specialize (BF2 TB0). clear Ei. assert (Hi : 0 <= i <= 2 ^ 48) by lia.
      assert (CI : i = cnt n h0).
      { pose proof (cnt_iff n h0 i ltac:(lia) ltac:(lia)) as C1. pose proof (cnt_iff n h0 (i - 1) ltac:(lia)) as C2. pose proof (cnt_range n h0 ltac:(lia) ltac:(lia)) as C3. assert (P2 : 0 < 2 ^ h0) by (apply Z.pow_pos_nonneg; lia).
        assert (~ i < cnt n h0) by (intros X; apply C1 in X; lia). destruct (Z.eq_dec i 0) as [Z0|NZ]; [lia|]. assert (i - 1 < cnt n h0); [|lia]. apply C2; [lia|]. lia. }
      pose proof (En_succ bs n (cz bs h0) h0 ltac:(lia)) as ES. rewrite Z.eqb_refl in ES. fold (Lt bs n h0) in ES.
      pose proof (En_succ bs n (cz bs h0) (h0 + 1) ltac:(lia)) as ES2. rewrite (same_class bs h0 W8 W16), Z.eqb_refl in ES2.
      assert (P1 : (2 * 0 + 1) * 2 ^ (h0 + 1) <= n).
      { pose proof (Z.log2_spec n N0). assert (2 ^ (h0 + 1) <= 2 ^ Z.log2 n) by (apply Z.pow_le_mono_r; lia). lia. }
      assert (C1 : 1 <= cnt n (h0 + 1)) by (pose proof (proj2 (cnt_iff n (h0 + 1) 0 ltac:(lia) ltac:(lia)) P1); lia).
      pose proof (En_mono bs n (cz bs h0) (h0 + 1 + 1) (hts n) ltac:(lia) ltac:(lia) ltac:(lia)) as EM.
      assert (LG : lget t h0 i = Ok 1).
      { change (Ok 1) with (Ok (if 0 =? 0 then 1 else 0)). rewrite <- (HG (h0 + 1) 0 ltac:(lia) ltac:(lia) P1). destruct (type_class bs h0 ltac:(lia) ltac:(lia) ltac:(lia)) as (T1 & T2 & T3). destruct (type_class bs (h0 + 1) ltac:(lia) ltac:(lia) ltac:(lia)) as (U1 & U2 & U3).
        rewrite same_class in U1, U2 by auto. unfold lget. rewrite E1, E2, E4. fold bs. rewrite !geti_lvl_t by lia. cbn [bind]. rewrite T1, U1.
        assert (TW : type_width (bs + h0) = type_width (bs + (h0 + 1))) by lia. rewrite TW.
        destruct (Lt_succ bs n h0 ltac:(lia) Hb) as (LS & _). replace ((bs + h0 =? 8) || (bs + h0 =? 16)) with false in LS by lia. rewrite LS. do 3 f_equal. lia. }
      unfold find_l_step at 1 in E. rewrite (HP h0 i ltac:(lia) Hi) in E. cbn [bind] in E. replace (Lt bs n h0 + i <? En bs n (cz bs h0) (hts n)) with true in E by lia. rewrite LG in E. cbn [bind complement] in E.
      rewrite Ev in E. cbn [Z.leb Z.compare Pos.compare Pos.compare_cont] in E. rewrite shl_ok in E by lia. cbn [bind] in E. apply (rest_falls t E1 E6) in E. lia.
    - rewrite zrange_snoc, rev_app_distr in E. cbn [rev app foldM] in E. replace (0 + Z.of_nat (Z.to_nat h)) with h in E by lia.
      destruct (bit_facts n h i ltac:(lia) N0 Ei) as (BF1 & BF2 & BF3 & BF4 & BF5 & BF6). clear Ei. assert (Hi : 0 <= i <= 2 ^ 48) by lia. set (i2 := n / 2 ^ h) in *. assert (EI2 : i2 = n / 2 ^ h) by reflexivity. clearbody i2.
      replace (Z.to_nat h) with (S (Z.to_nat (h - 1))) in E by lia.
      assert (STEP : find_l_step false t (k, i, v) h = Ok (if Z.testbit n h then (u64 (k + 2 ^ h), 2 * i + 1, 1) else (k, 2 * i, v)) /\ (Z.testbit n h = false -> h <> Z.log2 n)).
      { clear IH E EI2. assert (P2 : 0 < 2 ^ h) by (apply Z.pow_pos_nonneg; lia).
        unfold find_l_step. rewrite (HP h i ltac:(lia) Hi). cbn [bind]. rewrite Z.shiftl_mul_pow2 by lia. change (2 ^ 1) with 2. rewrite (wrap_small 64 (i * 2)) by lia.
        pose proof (cnt_iff n h i ltac:(lia) ltac:(lia)) as C1. pose proof (En_succ bs n (cz bs h) h ltac:(lia)) as ES. rewrite Z.eqb_refl in ES. fold (Lt bs n h) in ES.
        pose proof (En_mono bs n (cz bs h) (h + 1) (hts n) ltac:(lia) ltac:(lia) ltac:(lia)) as EM.
        destruct (Z.testbit n h) eqn:TB.
        - split; [|discriminate]. specialize (BF2 eq_refl). assert (i < cnt n h) by (apply C1; exact BF2). replace (Lt bs n h + i <? En bs n (cz bs h) (hts n)) with true by lia.
          rewrite HG by lia. cbn [bind complement]. rewrite shl_ok by lia. cbn [bind]. rewrite Z.mul_1_l. assert (2 ^ h <= 2 ^ 48) by (apply Z.pow_le_mono_r; lia). rewrite (wrap_small 64 (2 ^ h)) by lia. rewrite (wrap_small 64 (i * 2 + 1)) by lia.
          rewrite Ev, (Z.mul_comm i 2). destruct (Z.eqb_spec h (Z.log2 n)) as [EQ|NEQ].
          + destruct (BF4 EQ) as (I0 & _). rewrite I0. reflexivity.
          + specialize (BF5 ltac:(lia)). replace (i =? 0) with false by lia. reflexivity.
        - assert (NL : h <> Z.log2 n) by (intros X; destruct (BF4 X); discriminate). specialize (BF3 eq_refl).
          split; [|auto]. assert (NB : bs + h = 8 \/ bs + h = 16).
          { destruct (Z.eq_dec (bs + h) 8); [auto|]. destruct (Z.eq_dec (bs + h) 16); [auto|]. exfalso. apply (HTOP h ltac:(lia)). split; [lia|]. split; [exact TB|]. rewrite (width_bs B HB). fold bs. auto. }
          rewrite (other_class bs n h NB ltac:(lia)). assert (~ i < cnt n h) by (intros X; apply C1 in X; lia). replace (Lt bs n h + i <? En bs n (cz bs h) (h + 1)) with false by lia. rewrite (Z.mul_comm i 2). reflexivity. }
      destruct STEP as (STEP & NLOG). rewrite STEP in E.
      destruct (Z.testbit n h) eqn:TB; cbn [bind] in E; (eapply (IH (h - 1)); [lia|lia| | |exact E]); try (replace (h - 1 + 1) with h by lia; rewrite <- EI2; exact BF6).
      + replace (h - 1 =? Z.log2 n) with false by lia. reflexivity.
      + specialize (NLOG eq_refl). replace (h - 1 =? Z.log2 n) with false by lia. replace (h =? Z.log2 n) with false in Ev by lia. exact Ev. }
  destruct (foldM (find_l_step false t) (rev (zrange 0 (Z.to_nat (hts n)))) (0, 0, 2)) as [[[k1 i1] v1]| |] eqn:EF; cbn [bind] in E; try discriminate. injection E. intros Er _. rewrite <- Er.
  replace (Z.to_nat (hts n)) with (S (Z.to_nat (Z.log2 n))) in EF by lia. eapply (DESC (Z.to_nat (Z.log2 n - h0)) (Z.log2 n) 0 0 2); [lia|lia| | |exact EF].
  - symmetry. apply Z.div_small. pose proof (Z.log2_spec n N0) as LS2. unfold Z.succ in LS2. lia.
  - rewrite Z.eqb_refl. reflexivity.
Qed.

Lemma typel_search_wrong sh B n h : fits TypeL B n -> 1 <= B -> bad B n h ->
  zlen (one_zeros n) = n /\ elems_ok B (one_zeros n) /\ exists t, ft_build sh TypeL B (one_zeros n) = Ok t /\
  forall k rest, ft_find false t 2 = Ok (k, rest) -> ~ found (one_zeros n) 2 k rest.
Proof.
  intros HF HB1 HBAD. pose proof HF as (HB & Hn & HL). assert (N0 : 0 < n).
  { destruct HBAD as (Hh & _). destruct (Z.eq_dec n 0) as [->|]; [cbn in Hh; lia|lia]. }
  split; [apply zlen_oz; lia|].
  assert (HE : elems_ok B (one_zeros n)).
  { constructor; [lia|]. apply Forall_forall. intros x Hx. apply repeat_spec in Hx. lia. }
  split; [exact HE|]. destruct (highest_bad B n h HBAD) as (h0 & B0 & BT).
  destruct (im_build (impl_typel sh B n HF) (one_zeros n) ltac:(symmetry; apply zlen_oz; lia)) as (t & E & HI); [eapply elems_u64; eauto|auto|].
  exists t. split; [exact E|]. intros k rest EF (F1 & F2 & F3 & _). pose proof (wrong_search sh B n h0 HF N0 HB1 B0 BT t HI k rest EF).
  rewrite zlen_oz in F1 by lia. pose proof (seq_sum_oz n k ltac:(lia) F1). lia.
Qed.

Lemma typel_search_iff sh B n : fits TypeL B n -> 1 <= B ->
  (forall A v, zlen A = n -> elems_ok B A -> 0 <= v < 2 ^ 64 -> exists k rest, ft_client sh TypeL B A [FFind v] = Ok [FPair k rest] /\ found A v k rest) <->
  (forall h, 0 <= h < Z.log2 n -> Z.testbit n h = false -> width B + h = 8 \/ width B + h = 16).
Proof.
  intros HF HB1. split.
  - intros H h Hh TB. destruct (Z.eq_dec (width B + h) 8) as [|N1]; [auto|]. destruct (Z.eq_dec (width B + h) 16) as [|N2]; [auto|]. exfalso.
    destruct (typel_search_wrong sh B n h HF HB1) as (H1 & H2 & t & E & W); [split; [exact Hh|split; auto]|].
    destruct (H (one_zeros n) 2 H1 H2 ltac:(lia)) as (k & rest & EC & F). unfold ft_client in EC. rewrite E in EC. cbn [bind ft_run ft_step] in EC.
    destruct (ft_find false t 2) as [[k2 r2]| |] eqn:EF; cbn [bind] in EC; try discriminate. inversion EC. subst. exact (W k rest eq_refl F).
  - intros H A v En HE Hv. destruct (client_ok sh TypeL B A [FFind v]) as (outs & E & F); auto; try discriminate; [rewrite En; exact HF|split; [exact Hv|exact Logic.I]| |].
    + intros _. rewrite En. split; [reflexivity|intros _; exact H].
    + destruct outs as [|o [|o2 r]]; cbn [fanswers] in F; [contradiction| |destruct F as (_ & F); contradiction].
      destruct F as (F & _). destruct o as [x|k rest|]; cbn [fop_answer] in F; try contradiction. eauto.
Qed.
