(** Every class implements the sequence of [SpecHft]. *)
From Coq Require Import ZifyBool.
From Verif Require Import Base BaseFacts Mem MemFacts SpecHft Hft HftFacts HftMem HftBuild HftStore HftLayF HftLayL.
Ltac Zify.zify_post_hook ::= Z.div_mod_to_equations.

(** What a class provides. *)
Record impl (sh : bool) (lay : layout) (B n : Z) (wide : bool) (P : Z -> Z -> Prop) (I : ftree -> (Z -> Z) -> Prop) : Prop := {
  im_good : good sh n P I;
  im_l : is_l lay = true -> can_search lay B n -> goodl n I;
  im_lay : forall t V, I t V -> ft_lay t = lay /\ ft_bound t = B;
  im_room : forall i v, 1 <= i <= n -> wide = true \/ 0 <= v < 2 ^ (width B + ht i) -> P i v;
  im_build : forall A, n = zlen A -> Forall (fun v => 0 <= v < 2 ^ 64) A -> wide = true \/ elems_ok B A ->
    exists t, ft_build sh lay B A = Ok t /\ I t (node (elem A)) }.
Arguments im_good {sh lay B n wide P I}. Arguments im_l {sh lay B n wide P I}. Arguments im_lay {sh lay B n wide P I}.
Arguments im_room {sh lay B n wide P I}. Arguments im_build {sh lay B n wide P I}.

(** Sums of elements below the bound. *)
Lemma sum_fits B a i m : 0 <= B < 2 ^ 64 -> 1 <= i -> 1 <= m <= low i -> (forall k, i - m < k <= i -> 0 <= a k <= B) -> 0 <= sumf a (i - m + 1) (i + 1) < 2 ^ (width B + ht i).
Proof.
  intros HB Hi Hm Ha. destruct (sumf_bound a B (i - m + 1) (i + 1) ltac:(lia) ltac:(intros k Hk; apply Ha; lia)) as (S1' & S2). split; [exact S1'|].
  assert (HW : B < 2 ^ width B).
  { unfold width. destruct (Z.eq_dec B 0) as [->|]; [reflexivity|]. apply (Z.log2_spec B). lia. }
  pose proof (ht_nonneg i). unfold low in Hm. assert (0 <= width B) by (unfold width; pose proof (Z.log2_nonneg B); lia). rewrite Z.pow_add_r by lia. replace (i + 1 - (i - m + 1)) with m in S2 by lia.
  apply Z.le_lt_trans with (B * 2 ^ ht i).
  - eapply Z.le_trans; [exact S2|]. apply Z.mul_le_mono_nonneg_l; lia.
  - apply Z.mul_lt_mono_pos_r; [apply Z.pow_pos_nonneg; lia|exact HW].
Qed.

Lemma elems_elem B A k : elems_ok B A -> 1 <= k <= zlen A -> 0 <= elem A k <= B.
Proof. intros H Hk. unfold elem. apply (proj1 (Forall_forall _ _) H). unfold zn. apply nth_In. unfold zlen in Hk. lia. Qed.

Lemma room_st wide g B n i v : (forall i, 1 <= i <= n -> width B + ht i <= pw g i) -> 1 <= i <= n -> (wide = true \/ 0 <= v < 2 ^ (width B + ht i)) -> room wide g i v.
Proof.
  intros HP Hi HV. unfold room. destruct wide; auto. destruct HV as [HV|HV]; [discriminate|]. specialize (HP i Hi). pose proof (ht_nonneg i).
  assert (2 ^ (width B + ht i) <= 2 ^ pw g i) by (apply Z.pow_le_mono_r; lia). lia.
Qed.

(** ** The F classes *)
Lemma typef_pos_nonneg bs i : 0 <= typef_pos bs i.
Proof. unfold typef_pos. unfold wrap; apply Z.mod_pos_bound; lia. Qed.

Lemma f_bytes_nonneg lay B n : 0 <= f_bytes lay B n.
Proof.
  unfold f_bytes. destruct lay; try apply typef_pos_nonneg; try (rewrite Z.shiftr_div_pow2 by lia);
    match goal with |- context [wrap 64 ?x] => pose proof (Z.mod_pos_bound x (2 ^ 64) ltac:(lia)) as MB; change (x mod 2 ^ 64) with (wrap 64 x) in MB end; try lia.
Qed.

Lemma impl_f sh lay B n wide g : is_l lay = false -> 0 <= B < 2 ^ 64 -> 0 <= n <= 2 ^ 48 -> all64 wide n g ->
  (wide = false -> forall i, 1 <= i <= n -> width B + ht i <= pw g i) ->
  acc sh lay B n [] [f_bytes lay B n] g -> accf sh lay B n [] [f_bytes lay B n] g ->
  impl sh lay B n wide (room wide g) (st lay B n [] [f_bytes lay B n] g wide).
Proof.
  intros HL HB Hn HW HP A AF.
  assert (HR : forall i v, 1 <= i <= n -> wide = true \/ 0 <= v < 2 ^ (width B + ht i) -> room wide g i v).
  { intros i v Hi HV. destruct wide; [exact Logic.I|]. eapply room_st; eauto. }
  split.
  - apply acc_good; auto.
  - congruence.
  - intros t V ((E1 & E2 & _) & _). auto.
  - exact HR.
  - intros C En HC HE. unfold ft_build. rewrite HL, <- En.
    apply (build_f_ok sh n _ _ (acc_goodf sh lay B n [] _ g wide HW A AF) lay B C En); auto.
    + apply st_zero; [|apply (ac_geo A)|].
      * split; [reflexivity|]. split; [reflexivity|]. split; [reflexivity|]. split; [reflexivity|]. split.
        -- cbn [empty_f ft_arr map]. unfold darray, zlen. rewrite repeat_length. pose proof (f_bytes_nonneg lay B n). f_equal. lia.
        -- intros k. unfold arr. cbn [empty_f ft_arr]. destruct k as [|[|k]]; cbn [nth]; try apply (zeros_ok 0). apply zeros_ok.
      * intros k. unfold arr. cbn [empty_f ft_arr]. destruct k as [|[|k]]; cbn [nth]; [eexists; reflexivity|exists 0%nat; reflexivity|exists 0%nat; reflexivity].
    + intros i m Hi Hm. apply HR; auto. destruct HE as [HE|HE]; [auto|right]. apply sum_fits; auto; [lia|]. intros k Hk. apply elems_elem; auto. pose proof (low_le i ltac:(lia)). lia.
Qed.

(** ** The L classes *)
Lemma impl_l sh lay B n wide g lvl lens t0 : is_l lay = true -> 0 <= B < 2 ^ 64 -> 0 <= n <= 2 ^ 48 -> all64 wide n g -> (lay = TypeL -> wide = false) ->
  (wide = false -> forall i, 1 <= i <= n -> width B + ht i <= pw g i) ->
  acc sh lay B n lvl lens g -> accl sh lay B n lvl lens g ->
  shape lay B n lvl lens t0 -> (forall k, exists c, arr t0 k = repeat 0 c) ->
  (lay = TypeL -> forall i, 1 <= i <= n -> pw g i = 8 * Z.of_nat (type_width (bound_size B + ht i))) ->
  (forall A, n = zlen A -> build_l sh lay B A n = foldM (fill_level sh A) (zrange 0 (Z.to_nat (hts n))) t0) ->
  (can_search lay B n -> goodl n (st lay B n lvl lens g wide)) ->
  impl sh lay B n wide (room wide g) (st lay B n lvl lens g wide).
Proof.
  intros HL HB Hn HW HNW HP A AL HS0 HZ HT HBu HG.
  assert (HR : forall i v, 1 <= i <= n -> wide = true \/ 0 <= v < 2 ^ (width B + ht i) -> room wide g i v).
  { intros i v Hi HV. destruct wide; [exact Logic.I|]. eapply room_st; eauto. }
  split.
  - apply acc_good; auto.
  - auto.
  - intros t V ((E1 & E2 & _) & _). auto.
  - exact HR.
  - intros C En HC HE. unfold ft_build. rewrite HL, <- En, (HBu C En).
    assert (I0 : st lay B n lvl lens g wide t0 (fun _ => 0)) by (apply st_zero; auto; apply (ac_geo A)).
    assert (HN : forall i, 1 <= i <= n -> wide = true \/ 0 <= node (elem C) i < 2 ^ (width B + ht i)).
    { intros i Hi. destruct HE as [HE|HE]; [auto|right]. unfold node. pose proof (low_pos i). apply sum_fits; auto; try lia. intros k Hk. apply elems_elem; auto. pose proof (low_le i ltac:(lia)). lia. }
    destruct (Z.eq_dec n 0) as [N|N].
    + unfold hts. rewrite N. cbn [Z.eqb Z.to_nat zrange foldM]. exists t0. split; [reflexivity|]. eapply st_ext; [rewrite <- N; exact I0|]. intros i Hi. lia.
    + replace (hts n) with (Z.log2 n + 1) by (unfold hts; destruct (Z.eqb_spec n 0); lia).
      apply (levels_ok sh n _ _ (acc_goodlb sh lay B n lvl lens g wide HW A AL) C t0 En); try lia; auto.
      intros l Hl. exists (match lay with TypeL => 8 * Z.of_nat (type_width (bound_size B + l)) | _ => 64 end).
      assert (TW : forall b, (1 <= type_width b <= 8)%nat) by (intros b; unfold type_width; destruct ((17 <=? b) && (b <=? 64)), ((9 <=? b) && (b <=? 16)); lia).
      split; [destruct lay; try lia; specialize (TW (bound_size B + l)); lia|]. split.
      * intros t V ((E1 & E2 & _) & _). rewrite E1, E2. reflexivity.
      * intros i Hi EH. destruct lay; try reflexivity. specialize (HNW eq_refl). specialize (HT eq_refl i Hi). rewrite EH in HT. rewrite <- HT.
        destruct (HN i Hi) as [X|X]; [congruence|]. specialize (HP HNW i Hi). rewrite EH in *. assert (HT8 : pw g i <= 64) by (specialize (TW (bound_size B + l)); lia).
        assert (2 ^ (width B + l) <= 2 ^ pw g i <= 2 ^ 64) by (split; apply Z.pow_le_mono_r; lia).
        rewrite !wrap_small by lia. reflexivity.
Qed.

Lemma goodl_l lay B n lens c wide : is_l lay = true -> lay <> TypeL -> 0 <= n <= 2 ^ 48 ->
  let u := level_unit lay (bound_size B) in unit_ok u n -> (forall t h i V, st lay B n (lvl_l u n) lens (geo_l c u n) wide t V -> 0 <= h -> 0 <= i -> (2 * i + 1) * 2 ^ h <= n -> lget t h i = Ok (u64 (V ((2 * i + 1) * 2 ^ h)))) ->
  goodl n (st lay B n (lvl_l u n) lens (geo_l c u n) wide).
Proof.
  intros HL HT Hn u Hu HG. destruct (hts_range n Hn) as (HR & H1). split.
  - intros t V ((_ & _ & _ & E & _) & _). rewrite E. unfold lvl_l. rewrite zlen_map. unfold zlen. rewrite length_zrange. unfold hts in *. destruct (Z.eqb_spec n 0); lia.
  - intros t V h i ((E1 & E2 & _ & E4 & _) & _) H0 Hh Hi Hp. rewrite (H1 H0) in *.
    assert (P : l_present t h i = (let* l := geti (lvl_l u n) h in let* next := geti (lvl_l u n) (h + 1) in Ok (u64 (l + i * u h) <? next))).
    { unfold l_present. rewrite E1, E2, E4. destruct lay; try discriminate HL; try congruence; reflexivity. }
    rewrite P. rewrite !geti_lvl by (auto; lia). cbn [bind]. f_equal. rewrite Lv_succ by lia. pose proof (Lv_bound u n h Hu Hn ltac:(lia)) as LB. pose proof (Hu h ltac:(lia)) as HU.
    assert (i <= 2 ^ 48). { assert (0 < 2 ^ h) by (apply Z.pow_pos_nonneg; lia). nia. }
    assert (0 <= i * u h <= 2 ^ 54) by nia. rewrite wrap_small by lia. pose proof (cnt_iff n h i ltac:(lia) Hi) as CI.
    destruct (Z.leb_spec ((2 * i + 1) * 2 ^ h) n) as [L|L].
    + apply Z.ltb_lt. apply CI in L. assert (i * u h < cnt n h * u h) by (apply Z.mul_lt_mono_pos_r; lia). lia.
    + apply Z.ltb_ge. assert (cnt n h <= i) by (apply Z.nlt_ge; intros X; apply CI in X; lia). assert (cnt n h * u h <= i * u h) by (apply Z.mul_le_mono_nonneg_r; lia). lia.
  - intros t V h i HI Hh Hi Hp. eapply HG; eauto.
Qed.

(** ** All classes *)
Lemma width_bs B : 0 <= B < 2 ^ 64 -> width B = bound_size B.
Proof. intros HB. destruct (bound_size_ok B HB) as (E & _). rewrite E. reflexivity. Qed.

Lemma all_repeat_1 lay B n lvl c k : exists j, arr {| ft_lay := lay; ft_bound := B; ft_size := n; ft_level := lvl; ft_arr := [repeat 0 c] |} k = repeat 0 j.
Proof. unfold arr. cbn [ft_arr]. destruct k as [|[|k]]; cbn [nth]; [eexists; reflexivity|exists 0%nat; reflexivity|exists 0%nat; reflexivity]. Qed.

Lemma shape_1 lay B n lvl c : 0 <= c -> shape lay B n lvl [c] {| ft_lay := lay; ft_bound := B; ft_size := n; ft_level := lvl; ft_arr := [repeat 0 (Z.to_nat c)] |}.
Proof.
  intros Hc. split; [reflexivity|]. split; [reflexivity|]. split; [reflexivity|]. split; [reflexivity|]. split.
  - cbn [ft_arr map]. unfold zlen. rewrite repeat_length. f_equal. lia.
  - intros k. destruct (all_repeat_1 lay B n lvl (Z.to_nat c) k) as (j & ->). apply zeros_ok.
Qed.

(** FixedL, ByteL, BitL. *)
Lemma impl_l3 sh lay B n wide c lens : is_l lay = true -> lay <> TypeL -> 0 <= B < 2 ^ 64 -> 0 <= n <= 2 ^ 48 ->
  let u := level_unit lay (bound_size B) in let last := Lv u n (hts n) in
  unit_ok u n -> lens = [match lay with ByteL => last + 8 | BitL => last / 8 + 8 | _ => 8 * last end] ->
  all64 wide n (geo_l c u n) -> (wide = false -> forall i, 1 <= i <= n -> width B + ht i <= c * u (ht i)) ->
  acc sh lay B n (lvl_l u n) lens (geo_l c u n) -> accl sh lay B n (lvl_l u n) lens (geo_l c u n) ->
  impl sh lay B n wide (room wide (geo_l c u n)) (st lay B n (lvl_l u n) lens (geo_l c u n) wide).
Proof.
  intros HL NT HB Hn u last Hu EL HW HP A AL. destruct (hts_range n Hn) as (HR & _). pose proof (Lv_bound u n (hts n) Hu Hn ltac:(lia)) as LB. fold last in LB.
  set (L := match lay with ByteL => last + 8 | BitL => last / 8 + 8 | _ => 8 * last end) in *.
  assert (L0 : 0 <= L) by (unfold L; destruct lay; lia).
  apply (impl_l sh lay B n wide (geo_l c u n) (lvl_l u n) lens {| ft_lay := lay; ft_bound := B; ft_size := n; ft_level := lvl_l u n; ft_arr := [repeat 0 (Z.to_nat L)] |}); auto.
  - congruence.
  - rewrite EL. apply shape_1. exact L0.
  - intros k. apply all_repeat_1.
  - congruence.
  - intros C En. unfold build_l. rewrite levels_of_ok by auto. cbn [bind]. fold u. replace (hts n + 1 - 1) with (hts n) by lia.
    assert (X : (let* level := level_table lay (bound_size B) n (hts n + 1) in let* last := geti level (hts n) in
        Ok (level, [match lay with ByteL => darray 1 (u64 (last + 8)) | BitL => darray 1 (Z.shiftr last 3 + 8) | _ => darray 8 last end], hts n)) = Ok (lvl_l u n, [repeat 0 (Z.to_nat L)], hts n)).
    { rewrite level_table_ok by auto. fold u. cbn [bind]. rewrite geti_lvl by (auto; lia). cbn [bind]. fold last. do 4 f_equal. unfold L, darray. destruct lay; try reflexivity.
      - rewrite wrap_small, Z.mul_1_l by lia. reflexivity.
      - rewrite Z.shiftr_div_pow2, Z.mul_1_l by lia. reflexivity. }
    destruct lay; try discriminate HL; try congruence; rewrite X; reflexivity.
  - intros _. apply goodl_l; auto. intros t h i V HI Hh Hi Hp. apply (lb_get (acc_goodlb sh lay B n (lvl_l u n) lens (geo_l c u n) wide HW A AL) t V h i HI Hh Hi Hp).
Qed.

Lemma type_room b : 1 <= b <= 64 -> b <= 8 * Z.of_nat (type_width b).
Proof. intros Hb. unfold type_width. destruct ((17 <=? b) && (b <=? 64)) eqn:E1; [lia|]. destruct ((9 <=? b) && (b <=? 16)) eqn:E2; lia. Qed.

Lemma geti_lvl_t bs n h : 0 <= h <= hts n -> geti (lvl_t bs n) h = Ok (Lt bs n h).
Proof.
  intros Hh. unfold lvl_t. rewrite geti_ok by (rewrite zlen_map; unfold zlen; rewrite length_zrange; lia). f_equal.
  rewrite (zn_map (Lt bs n) 0 0) by (unfold zlen; rewrite length_zrange; lia). rewrite zn_zrange by lia. rewrite Z.add_0_l. reflexivity.
Qed.

Lemma goodl_t B n : 0 <= B < 2 ^ 64 -> 0 <= n <= 2 ^ 48 -> bound_size B + Z.log2 n <= 63 -> can_search TypeL B n ->
  let I := st TypeL B n (lvl_t (bound_size B) n) (lens_t (bound_size B) n) (geo_typel (bound_size B) n) false in
  (forall t h i V, I t V -> 0 <= h -> 0 <= i -> (2 * i + 1) * 2 ^ h <= n -> lget t h i = Ok (u64 (V ((2 * i + 1) * 2 ^ h)))) ->
  goodl n I.
Proof.
  intros HB Hn HL (_ & HC) I HG. specialize (HC eq_refl). rewrite (width_bs B HB) in HC. destruct (bound_size_ok B HB) as (_ & Hb & _). set (bs := bound_size B) in *. destruct (hts_range n Hn) as (HR & H1). split.
  - intros t V ((_ & _ & _ & E & _) & _). rewrite E. unfold lvl_t. rewrite zlen_map. unfold zlen. rewrite length_zrange. unfold hts in *. destruct (Z.eqb_spec n 0); lia.
  - intros t V h i (HS & HV) H0 Hh Hi Hp. specialize (H1 H0). pose proof HS as (E1 & E2 & _ & E4 & _).
    destruct (type_class bs h ltac:(lia) ltac:(lia) ltac:(lia)) as (C1 & C2 & C3). unfold l_present. rewrite E1, E2, E4, geti_lvl_t by lia. cbn [bind]. fold bs. f_equal.
    rewrite C1, C2, (len_t bs n B _ t (cz bs h) HS C3). assert (W : 1 <= cwz (cz bs h)) by (unfold cwz; destruct (cz bs h =? 0), (cz bs h =? 1); lia).
    rewrite Z.mul_comm, Z.div_mul by lia. pose proof (En_bound bs n (cz bs h) h Hn ltac:(lia)) as EB. fold (Lt bs n h) in EB.
    assert (i <= 2 ^ 48). { assert (0 < 2 ^ h) by (apply Z.pow_pos_nonneg; lia). nia. }
    rewrite wrap_small by lia. pose proof (cnt_iff n h i ltac:(lia) Hi) as CI.
    pose proof (En_succ bs n (cz bs h) h ltac:(lia)) as ES. rewrite Z.eqb_refl in ES. fold (Lt bs n h) in ES. pose proof (En_mono bs n (cz bs h) (h + 1) (hts n) ltac:(lia) ltac:(lia) ltac:(lia)) as EM.
    destruct (Z.leb_spec ((2 * i + 1) * 2 ^ h) n) as [L|L].
    + apply Z.ltb_lt. apply CI in L. lia.
    + apply Z.ltb_ge. assert (cnt n h <= i) by (apply Z.nlt_ge; intros X; apply CI in X; lia).
      assert (EQ : En bs n (cz bs h) (hts n) = En bs n (cz bs h) (h + 1)); [|lia].
      destruct (Z.eq_dec h (Z.log2 n)) as [->|NE]; [rewrite H1; reflexivity|].
      assert (TB : Z.testbit n h = false).
      { rewrite Z.testbit_false by lia. replace (n / 2 ^ h) with (i * 2); [apply Z.mod_mul; lia|]. assert (0 < 2 ^ h) by (apply Z.pow_pos_nonneg; lia). apply Z.div_unique with (n - 2 ^ h * (i * 2)); lia. }
      specialize (HC h ltac:(lia) TB). unfold En. rewrite (sumf_split _ 0 (h + 1) (hts n)) by lia.
      rewrite <- (Z.add_0_r (sumf _ 0 (h + 1))) at 2. f_equal. apply sumf_const0. intros j Hj. destruct (Z.eqb_spec (cz bs j) (cz bs h)) as [E|]; [|reflexivity]. exfalso. revert E. unfold cz.
      destruct (Z.leb_spec (bs + j) 8), (Z.leb_spec (bs + j) 16), (Z.leb_spec (bs + h) 8), (Z.leb_spec (bs + h) 16); lia.
  - intros t V h i HI Hh Hi Hp. eapply HG; eauto.
Qed.

Lemma impl_typel sh B n : fits TypeL B n -> impl sh TypeL B n false (room false (geo_typel (bound_size B) n)) (st TypeL B n (lvl_t (bound_size B) n) (lens_t (bound_size B) n) (geo_typel (bound_size B) n) false).
Proof.
  intros (HB & Hn & HF). rewrite (width_bs B HB) in HF. destruct (bound_size_ok B HB) as (_ & Hb & _). destruct (acc_typel sh B n HB Hn HF) as (A & AL). set (bs := bound_size B) in *.
  destruct (hts_range n Hn) as (HR & _). set (e := fun k => En bs n k (hts n)).
  assert (E0 : forall k, 0 <= e k) by (intros k; apply (En_bound bs n k (hts n) Hn); lia).
  apply (impl_l sh TypeL B n false (geo_typel bs n) (lvl_t bs n) (lens_t bs n) {| ft_lay := TypeL; ft_bound := B; ft_size := n; ft_level := lvl_t bs n; ft_arr := [darray 1 (e 0); darray 2 (e 1); darray 8 (e 2)] |}); auto.
  - intros H. discriminate H.
  - intros _ i Hi. cbn [pw geo_typel]. rewrite (width_bs B HB). fold bs. destruct (ht_log i n Hi) as (H1 & H2). apply type_room. lia.
  - split; [reflexivity|]. split; [reflexivity|]. split; [reflexivity|]. split; [reflexivity|]. split.
    + cbn [ft_arr map]. unfold darray, zlen. rewrite !repeat_length. pose proof (E0 0). pose proof (E0 1). pose proof (E0 2). unfold lens_t. fold (e 0) (e 1) (e 2). rewrite !Z2Nat.id, Z.mul_1_l by lia. reflexivity.
    + intros k. unfold arr. cbn [ft_arr]. destruct k as [|[|[|[|k]]]]; cbn [nth]; try apply (zeros_ok 0); apply zeros_ok.
  - intros k. unfold arr. cbn [ft_arr]. destruct k as [|[|[|[|k]]]]; cbn [nth]; try (exists 0%nat; reflexivity); eexists; reflexivity.
  - intros C En. unfold build_l. fold bs. rewrite levels_of_ok by auto. cbn [bind]. destruct (typel_table_ok bs n Hn Hb) as (j & E). rewrite E. cbn [bind].
    rewrite (typel_arrays_ok bs n Hn Hb ltac:(lia)). fold (e 0) (e 1) (e 2).
    replace (Z.min (hts n + 1 - 1) (64 - bs + 1)) with (hts n); [reflexivity|]. unfold hts. destruct (Z.eqb_spec n 0); lia.
  - intros HS. apply goodl_t; auto. intros t h i V HI Hh Hi Hp. apply (lb_get (acc_goodlb sh TypeL B n (lvl_t bs n) (lens_t bs n) (geo_typel bs n) false ltac:(intros X; discriminate X) A AL) t V h i HI Hh Hi Hp).
Qed.

Lemma impl_all sh lay B n : fits lay B n -> (lay = BitL -> sh = true) -> exists P I, impl sh lay B n false P I.
Proof.
  intros HF Hsh. pose proof HF as (HB & Hn & HL). rewrite (width_bs B HB) in HL. pose proof (width_bs B HB) as EW. destruct (bound_size_ok B HB) as (_ & Hb & _).
  assert (N64 : forall g, all64 false n g) by (intros g X; discriminate X).
  assert (HT : forall i, 1 <= i <= n -> 0 <= ht i <= Z.log2 n) by (intros i Hi; apply ht_log; auto).
  assert (HI : forall i, 1 <= i <= n -> 0 <= ht i < hts n) by (intros i Hi; destruct (node_split n i Hi) as (q & _ & _ & _ & _ & E4); exact E4).
  assert (HH : forall h, 0 <= h < hts n -> h <= Z.log2 n) by (intros h Hh; unfold hts in Hh; destruct (Z.eqb_spec n 0); lia).
  destruct lay.
  - destruct (acc_fixedf sh B n Hn). do 2 eexists. apply (impl_f sh FixedF B n false geo_fixedf); auto. intros _ i Hi. rewrite EW. specialize (HT i Hi). cbn [pw geo_fixedf]. lia.
  - destruct (acc_fixedl sh B n Hn). do 2 eexists. eapply (impl_l3 sh FixedL B n false 64); eauto; try congruence.
    + intros h Hh. cbn [level_unit]. lia.
    + intros _ i Hi. rewrite EW. specialize (HT i Hi). cbn [level_unit]. lia.
  - destruct (acc_bytef sh B n HB Hn HL). do 2 eexists. apply (impl_f sh ByteF B n false (geo_bytef (bound_size B))); auto. intros _ i Hi. rewrite EW. specialize (HT i Hi). cbn [pw geo_bytef]. rewrite heightsize_ok. lia.
  - destruct (acc_bytel sh B n HB Hn HL). do 2 eexists. eapply (impl_l3 sh ByteL B n false 8); eauto; try congruence.
    + intros h Hh. cbn [level_unit]. rewrite heightsize_ok. specialize (HH h Hh). lia.
    + intros _ i Hi. rewrite EW. specialize (HT i Hi). cbn [level_unit]. rewrite heightsize_ok. lia.
  - destruct HL as (HL1 & HL2). destruct (acc_bitf sh B n HB Hn HL1 HL2). do 2 eexists. apply (impl_f sh BitF B n false (geo_bitf (bound_size B))); auto. intros _ i Hi. rewrite EW. cbn [pw geo_bitf]. lia.
  - rewrite (Hsh eq_refl). destruct (acc_bitl B n HB Hn HL). do 2 eexists. eapply (impl_l3 true BitL B n false 1); eauto; try congruence.
    + intros h Hh. cbn [level_unit]. specialize (HH h Hh). lia.
    + intros _ i Hi. rewrite EW. cbn [level_unit]. lia.
  - destruct (acc_typef sh B n HB Hn HL). do 2 eexists. apply (impl_f sh TypeF B n false (geo_typef (bound_size B))); auto. intros _ i Hi. rewrite EW. specialize (HT i Hi). cbn [pw geo_typef]. apply type_room. lia.
  - do 2 eexists. apply impl_typel. exact HF.
Qed.

Lemma impl_wide sh lay B n : lay = FixedF \/ lay = FixedL -> 0 <= B < 2 ^ 64 -> 0 <= n <= 2 ^ 48 -> exists P I, impl sh lay B n true P I.
Proof.
  intros [-> | ->] HB Hn.
  - destruct (acc_fixedf sh B n Hn). do 2 eexists. apply (impl_f sh FixedF B n true geo_fixedf); auto; try congruence. intros _ i Hi. reflexivity.
  - destruct (acc_fixedl sh B n Hn). do 2 eexists. eapply (impl_l3 sh FixedL B n true 64); eauto; try congruence.
    + intros h Hh. cbn [level_unit]. lia.
    + intros _ i Hi. cbn [level_unit pw geo_l]. lia.
Qed.
