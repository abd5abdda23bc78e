(** The layouts of the L classes. *)
From Coq Require Import ZifyBool.
From Verif Require Import Base BaseFacts Mem MemFacts SpecHft Hft HftFacts HftMem HftBuild HftStore HftLayF.
Ltac Zify.zify_post_hook ::= Z.div_mod_to_equations.

(** ** Levels *)
Definition cnt (n h : Z) : Z := (n + 2 ^ h) / 2 ^ (h + 1).
(** Number of levels that hold nodes. *)
Definition hts (n : Z) : Z := if n =? 0 then 0 else Z.log2 n + 1.

Lemma cnt_iff n h q : 0 <= h -> 0 <= q -> q < cnt n h <-> (2 * q + 1) * 2 ^ h <= n.
Proof.
  intros Hh Hq. unfold cnt. assert (P : 0 < 2 ^ h) by (apply Z.pow_pos_nonneg; lia). rewrite Z.pow_add_r by lia. change (2 ^ 1) with 2.
  set (T := 2 ^ h) in *. clearbody T.
  assert (D : q + 1 <= (n + T) / (T * 2) <-> (T * 2) * (q + 1) <= n + T).
  { split; intros H.
    - pose proof (Z.mul_div_le (n + T) (T * 2) ltac:(lia)). nia.
    - apply Z.div_le_lower_bound; lia. }
  split; intros H.
  - assert (q + 1 <= (n + T) / (T * 2)) as H2 by lia. apply D in H2. lia.
  - assert ((T * 2) * (q + 1) <= n + T) as H2 by lia. apply D in H2. lia.
Qed.

Lemma cnt_range n h : 0 <= h -> 0 <= n -> 0 <= cnt n h <= n.
Proof.
  intros Hh Hn. unfold cnt. assert (P : 0 < 2 ^ h) by (apply Z.pow_pos_nonneg; lia). rewrite Z.pow_add_r by lia. change (2 ^ 1) with 2.
  split; [apply Z.div_pos; lia|]. set (T := 2 ^ h) in *. clearbody T. destruct (Z.eq_dec n 0) as [->|].
  - rewrite Z.div_small; lia.
  - apply Z.div_le_upper_bound; nia.
Qed.

Lemma level_count_ok n h : 0 <= n <= 2 ^ 48 -> 0 <= h <= 48 -> level_count n h = Ok (cnt n h).
Proof.
  intros Hn Hh. unfold level_count, cnt. rewrite !shl_ok by lia. cbn [bind]. rewrite !Z.mul_1_l.
  assert (2 ^ h <= 2 ^ 48) by (apply Z.pow_le_mono_r; lia). assert (2 ^ (h + 1) <= 2 ^ 49) by (apply Z.pow_le_mono_r; lia).
  assert (0 < 2 ^ h) by (apply Z.pow_pos_nonneg; lia). assert (0 < 2 ^ (h + 1)) by (apply Z.pow_pos_nonneg; lia).
  rewrite (wrap_small 64 (2 ^ h)), (wrap_small 64 (2 ^ (h + 1))), (wrap_small 64 (n + 2 ^ h)) by lia. reflexivity.
Qed.

Lemma hts_range n : 0 <= n <= 2 ^ 48 -> 0 <= hts n <= 49 /\ (0 < n -> hts n = Z.log2 n + 1).
Proof.
  intros Hn. unfold hts. destruct (Z.eqb_spec n 0); [lia|]. pose proof (Z.log2_nonneg n). assert (Z.log2 n < 49) by (apply Z.log2_lt_pow2; lia). lia.
Qed.

Lemma levels_of_ok n : 0 <= n <= 2 ^ 48 -> levels_of n = Ok (hts n + 1).
Proof.
  intros Hn. unfold levels_of, hts. destruct (Z.eqb_spec n 0) as [->|]; [reflexivity|]. unfold lambda, clzll. destruct (Z.eqb_spec n 0); [lia|]. cbn [bind].
  pose proof (Z.log2_nonneg n). assert (Z.log2 n < 64) by (apply Z.log2_lt_pow2; lia). f_equal.
  assert (E : forallb (fun x => Z.lxor 63 (63 - x) =? x) (zrange 0 64) = true) by reflexivity.
  rewrite forallb_forall in E. specialize (E (Z.log2 n) (proj2 (in_zrange (Z.log2 n) 0 64) ltac:(lia))). cbv beta in E. apply Z.eqb_eq in E. lia.
Qed.

(** Height and index of a node. *)
Lemma node_split n i : 1 <= i <= n -> exists q, 0 <= q /\ i = (2 * q + 1) * 2 ^ ht i /\ i / 2 ^ (ht i + 1) = q /\ q < cnt n (ht i) /\ 0 <= ht i < hts n.
Proof.
  intros Hi. destruct (ht_split i ltac:(lia)) as (q & Hq & E). unfold low in E. pose proof (ht_nonneg i) as HN. exists q. split; [auto|].
  assert (E' : i = (2 * q + 1) * 2 ^ ht i) by (rewrite E at 1; ring). split; [exact E'|]. destruct (pos_ht (ht i) q HN Hq) as (_ & _ & ED). rewrite <- E' in ED.
  split; [exact ED|]. split; [apply cnt_iff; auto; lia|]. pose proof (ht_log i n Hi). unfold hts. destruct (Z.eqb_spec n 0); lia.
Qed.

(** ** FixedL, ByteL, BitL *)
Definition Lv (u : Z -> Z) (n h : Z) : Z := sumf (fun j => cnt n j * u j) 0 h.
Definition geo_l (c : Z) (u : Z -> Z) (n : Z) : geo :=
  {| pa := fun _ => 0%nat; ps := fun i => c * (Lv u n (ht i) + i / 2 ^ (ht i + 1) * u (ht i)); pw := fun i => c * u (ht i) |}.
Definition lvl_l (u : Z -> Z) (n : Z) : list Z := map (Lv u n) (zrange 0 (Z.to_nat (hts n + 1))).

Definition unit_ok (u : Z -> Z) (n : Z) : Prop := forall h, 0 <= h < hts n -> 1 <= u h <= 64.

Lemma Lv_bound u n h : unit_ok u n -> 0 <= n <= 2 ^ 48 -> 0 <= h <= hts n -> 0 <= Lv u n h <= 2 ^ 60.
Proof.
  intros Hu Hn Hh. unfold Lv. destruct (hts_range n Hn) as (HR & _).
  pose proof (sumf_bound (fun j => cnt n j * u j) (2 ^ 54) 0 h ltac:(lia)) as SB. cbn beta in SB.
  assert (forall i, 0 <= i < h -> 0 <= cnt n i * u i <= 2 ^ 54) as HB.
  { intros i Hi. pose proof (cnt_range n i ltac:(lia) ltac:(lia)). pose proof (Hu i ltac:(lia)). nia. }
  specialize (SB HB). lia.
Qed.

Lemma Lv_mono u n a b : unit_ok u n -> 0 <= n -> 0 <= a <= b -> b <= hts n -> Lv u n a <= Lv u n b.
Proof.
  intros Hu Hn Hab Hb. unfold Lv. apply sumf_mono; [lia|]. intros i Hi. pose proof (cnt_range n i ltac:(lia) ltac:(lia)). pose proof (Hu i ltac:(lia)). nia.
Qed.

Lemma Lv_succ u n h : 0 <= h -> Lv u n (h + 1) = Lv u n h + cnt n h * u h.
Proof. intros. unfold Lv. rewrite sumf_succ by lia. reflexivity. Qed.

Lemma zrange_snoc lo k : zrange lo (S k) = zrange lo k ++ [lo + Z.of_nat k].
Proof.
  revert lo. induction k as [|k IH]; intros lo; [cbn; rewrite Z.add_0_r; reflexivity|]. change (zrange lo (S (S k))) with (lo :: zrange (lo + 1) (S k)).
  rewrite IH. cbn [app zrange]. do 3 f_equal. lia.
Qed.

Lemma level_table_ok lay bs n : 0 <= n <= 2 ^ 48 -> unit_ok (level_unit lay bs) n -> level_table lay bs n (hts n + 1) = Ok (lvl_l (level_unit lay bs) n).
Proof.
  intros Hn Hu. destruct (hts_range n Hn) as (HR & _). unfold level_table. set (u := level_unit lay bs) in *.
  destruct (foldM_range (fun l i => let* c := level_count n (i - 1) in let* p := geti l (i - 1) in Ok (l ++ [u64 (c * u (i - 1) + p)]))
     (fun k l => l = map (Lv u n) (zrange 0 (Z.to_nat (k + 1)))) 1 (Z.to_nat (hts n + 1 - 1)) [0]) as (l & E & EL).
  - intros k l Hk ->. replace (1 + k - 1) with k by lia. rewrite level_count_ok by lia. cbn [bind].
    rewrite geti_ok by (rewrite zlen_map; unfold zlen; rewrite length_zrange; lia). cbn [bind]. eexists. split; [reflexivity|].
    rewrite (zn_map (Lv u n) 0 0) by (unfold zlen; rewrite length_zrange; lia). rewrite zn_zrange by lia. rewrite Z.add_0_l.
    replace (Z.to_nat (k + 1 + 1)) with (S (Z.to_nat (k + 1))) by lia. rewrite zrange_snoc, map_app. cbn [map]. do 2 f_equal.
    replace (0 + Z.of_nat (Z.to_nat (k + 1))) with (k + 1) by lia. rewrite Lv_succ by lia.
    pose proof (Lv_bound u n (k + 1) Hu Hn ltac:(lia)) as B. rewrite Lv_succ in B by lia. rewrite wrap_small by lia. lia.
  - reflexivity.
  - rewrite E, EL. unfold lvl_l. do 3 f_equal. lia.
Qed.

Lemma geti_lvl u n h : 0 <= n <= 2 ^ 48 -> 0 <= h <= hts n -> geti (lvl_l u n) h = Ok (Lv u n h).
Proof.
  intros Hn Hh. unfold lvl_l. rewrite geti_ok by (rewrite zlen_map; unfold zlen; rewrite length_zrange; lia). f_equal.
  rewrite (zn_map (Lv u n) 0 0) by (unfold zlen; rewrite length_zrange; lia). rewrite zn_zrange by lia. rewrite Z.add_0_l. reflexivity.
Qed.

(** Position of node (h, q). *)
Lemma lpos u n h q : 0 <= n <= 2 ^ 48 -> unit_ok u n -> 0 <= h -> 0 <= q -> (2 * q + 1) * 2 ^ h <= n ->
  h < hts n /\ u64 (Lv u n h + q * u h) = Lv u n h + q * u h /\ 0 <= Lv u n h + q * u h /\ Lv u n h + q * u h + u h <= Lv u n (h + 1) /\ Lv u n (h + 1) <= Lv u n (hts n) <= 2 ^ 60.
Proof.
  intros Hn Hu Hh Hq Hi. destruct (pos_ht h q Hh Hq) as (P1 & P2 & P3). destruct (node_split n ((2 * q + 1) * 2 ^ h) ltac:(lia)) as (q' & _ & _ & E2 & E3 & E4).
  rewrite P2 in *. rewrite P3 in E2. subst q'. pose proof (Lv_succ u n h Hh) as LS. pose proof (Lv_mono u n (h + 1) (hts n) Hu ltac:(lia) ltac:(lia) ltac:(lia)).
  pose proof (Lv_bound u n (hts n) Hu Hn ltac:(destruct (hts_range n Hn); lia)). pose proof (Lv_bound u n h Hu Hn ltac:(lia)). pose proof (Hu h ltac:(lia)).
  assert (q * u h + u h <= cnt n h * u h) by nia. assert (0 <= q * u h) by nia. rewrite wrap_small by lia. lia.
Qed.

Lemma gok_l c u n : 1 <= c -> 0 <= n <= 2 ^ 48 -> unit_ok u n -> (forall h, 0 <= h < hts n -> c * u h <= 64) -> gok n (geo_l c u n).
Proof.
  intros Hc Hn Hu H64. split.
  - intros i Hi. destruct (node_split n i Hi) as (q & Hq & E1 & E2 & E3 & E4). cbn [ps pw geo_l]. rewrite E2.
    destruct (lpos u n (ht i) q Hn Hu ltac:(lia) Hq ltac:(lia)) as (_ & _ & L1 & _). pose proof (H64 (ht i) E4). pose proof (Hu (ht i) E4). split; [apply Z.mul_nonneg_nonneg; lia|nia].
  - intros i j Hi Hj _. cbn [ps pw geo_l].
    destruct (node_split n i ltac:(lia)) as (q & Hq & E1 & E2 & E3 & E4). destruct (node_split n j ltac:(lia)) as (r & Hr & F1 & F2 & F3 & F4). rewrite E2, F2.
    destruct (lpos u n (ht i) q Hn Hu ltac:(lia) Hq ltac:(lia)) as (_ & _ & L1 & L2 & _). destruct (lpos u n (ht j) r Hn Hu ltac:(lia) Hr ltac:(lia)) as (_ & _ & M1 & M2 & _).
    set (a := Lv u n (ht i) + q * u (ht i)) in *. set (b := Lv u n (ht j) + r * u (ht j)) in *.
    assert (D : a + u (ht i) <= b \/ b + u (ht j) <= a).
    { destruct (Z.lt_trichotomy (ht i) (ht j)) as [L|[L|L]].
      - left. pose proof (Lv_mono u n (ht i + 1) (ht j) Hu ltac:(lia) ltac:(lia) ltac:(lia)). pose proof (Hu (ht j) F4). assert (0 <= r * u (ht j)) by (apply Z.mul_nonneg_nonneg; lia). unfold b. lia.
      - left. unfold a, b. rewrite <- L in *. assert (q < r).
        { clear - E1 F1 Hi. assert (0 < 2 ^ ht i) by (apply Z.pow_pos_nonneg; [lia|apply ht_nonneg]). nia. }
        pose proof (Hu (ht i) E4) as HU. pose proof (Z.mul_le_mono_nonneg_r (q + 1) r (u (ht i)) ltac:(lia) ltac:(lia)). lia.
      - right. pose proof (Lv_mono u n (ht j + 1) (ht i) Hu ltac:(lia) ltac:(lia) ltac:(lia)). pose proof (Hu (ht i) E4). assert (0 <= q * u (ht i)) by (apply Z.mul_nonneg_nonneg; lia). unfold a. lia. }
    clearbody a b. clear - D Hc. set (x := u (ht i)) in *. set (y := u (ht j)) in *. clearbody x y.
    destruct D as [D|D]; [left|right]; rewrite <- Z.mul_add_distr_l; apply Z.mul_le_mono_nonneg_l; lia.
Qed.

(** Reading and writing by index from reading and writing by height. *)
Lemma get_by_height sh lay B n lvl lens g t i : is_l lay = true -> accl sh lay B n lvl lens g -> shape lay B n lvl lens t -> 1 <= i <= n -> n <= 2 ^ 48 ->
  node_get t i = Ok (cell g t i).
Proof.
  intros HL AL HS Hi Hn. destruct (node_split n i Hi) as (q & Hq & E1 & E2 & _ & E4).
  assert (HT : ht i <= 48) by (destruct (hts_range n ltac:(lia)); lia).
  unfold node_get. pose proof HS as (EL & _). rewrite EL.
  assert (G : (let* h := rho i in let* k := shr false i (1 + h) in lget t h k) = Ok (cell g t i)).
  { rewrite rho_ok by lia. cbn [bind]. rewrite shr_ok by lia. cbn [bind]. replace (1 + ht i) with (ht i + 1) by lia. rewrite E2.
    rewrite (al_get AL t (ht i) q HS) by lia. rewrite <- E1. reflexivity. }
  destruct lay; try discriminate HL; exact G.
Qed.

Lemma cell_l c u n t h q : 0 <= h -> 0 <= q -> cell (geo_l c u n) t ((2 * q + 1) * 2 ^ h) = field (val (arr t 0)) (c * (Lv u n h + q * u h)) (c * u h)
  /\ ps (geo_l c u n) ((2 * q + 1) * 2 ^ h) = c * (Lv u n h + q * u h) /\ pw (geo_l c u n) ((2 * q + 1) * 2 ^ h) = c * u h.
Proof. intros Hh Hq. destruct (pos_ht h q Hh Hq) as (_ & E1 & E2). unfold cell. cbn [ps pw pa geo_l]. rewrite E1, E2. auto. Qed.

(** The length of the array is that of all levels, and what follows. *)
Lemma acc_fixedl sh B n : 0 <= n <= 2 ^ 48 ->
  let u := level_unit FixedL (bound_size B) in let lens := [8 * Lv u n (hts n)] in
  acc sh FixedL B n (lvl_l u n) lens (geo_l 64 u n) /\ accl sh FixedL B n (lvl_l u n) lens (geo_l 64 u n).
Proof.
  intros Hn u lens. assert (Hu : unit_ok u n) by (intros h Hh; cbn; lia). assert (U1 : forall h, u h = 1) by reflexivity.
  assert (AL : accl sh FixedL B n (lvl_l u n) lens (geo_l 64 u n)).
  { split.
    - intros t h q HS Hh Hq Hi. destruct (shape_len _ _ _ _ _ _ HS) as (EL & HB). pose proof HS as (E1 & E2 & _ & E4 & _).
      destruct (lpos u n h q Hn Hu Hh Hq Hi) as (L1 & L2 & L3 & L4 & L5). destruct (cell_l 64 u n t h q Hh Hq) as (-> & _). rewrite U1, Z.mul_1_r in *.
      unfold lget. rewrite E1, E4, geti_lvl by lia. cbn [bind]. rewrite L2. rewrite load_field by (auto; lia). do 2 f_equal; lia.
    - intros t h q v HS Hh Hq Hi _ Hv. destruct (shape_len _ _ _ _ _ _ HS) as (EL & HB). pose proof HS as (E1 & E2 & _ & E4 & _).
      destruct (lpos u n h q Hn Hu Hh Hq Hi) as (L1 & L2 & L3 & L4 & L5). destruct (cell_l 64 u n t h q Hh Hq) as (_ & F1 & F2). rewrite F1. rewrite F2 in *. rewrite U1, Z.mul_1_r in *.
      unfold lset. rewrite E1, E4, geti_lvl by lia. cbn [bind]. rewrite L2.
      destruct (store_field (arr t 0) (8 * (Lv u n h + q)) 8 v HB ltac:(lia) ltac:(lia) Hv) as (m' & E & U). rewrite E. cbn [bind]. exists m'. split; [reflexivity|].
      replace (64 * (Lv u n h + q)) with (8 * (8 * (Lv u n h + q))) by lia. exact U. }
  split; [|exact AL]. split.
  - apply gok_l; auto; [lia|]. intros h _. rewrite U1. lia.
  - intros i Hi. cbn. auto with arith.
  - intros t i HS Hi. refine (get_by_height _ _ _ _ _ _ _ t i _ AL HS Hi _); [reflexivity|apply Hn].
  - intros t i d HS Hi HA. destruct (node_split n i Hi) as (q & Hq & E1 & E2 & _ & E4). assert (HT : ht i <= 48) by (destruct (hts_range n Hn); lia).
    destruct (shape_len _ _ _ _ _ _ HS) as (EL & HB). pose proof HS as (F1 & F2 & _ & F4 & _).
    destruct (lpos u n (ht i) q Hn Hu ltac:(lia) Hq ltac:(lia)) as (L1 & L2 & L3 & L4 & L5). unfold cell in *. cbn [ps pw pa geo_l] in *. rewrite E2 in *. rewrite U1, !Z.mul_1_r in *.
    unfold node_add. rewrite F1, F4, rho_ok by lia. cbn [bind]. rewrite shr_ok by lia. cbn [bind]. replace (1 + ht i) with (ht i + 1) by lia. rewrite E2, geti_lvl by lia. cbn [bind]. rewrite L2.
    rewrite load_field by (auto; lia). cbn [bind].
    destruct (bump_field (arr t 0) (8 * (Lv u n (ht i) + q)) 8 d HB ltac:(lia) ltac:(lia)) as (m' & E & U). rewrite E. cbn [bind]. exists m'. split; [reflexivity|].
    replace (64 * (Lv u n (ht i) + q)) with (8 * (8 * (Lv u n (ht i) + q))) by lia. exact U.
Qed.

Lemma acc_bytel sh B n : 0 <= B < 2 ^ 64 -> 0 <= n <= 2 ^ 48 -> bound_size B + Z.log2 n <= 64 ->
  let u := level_unit ByteL (bound_size B) in let lens := [Lv u n (hts n) + 8] in
  acc sh ByteL B n (lvl_l u n) lens (geo_l 8 u n) /\ accl sh ByteL B n (lvl_l u n) lens (geo_l 8 u n).
Proof.
  intros HB0 Hn HL u lens. destruct (bound_size_ok B HB0) as (_ & Hb & _). set (bs := bound_size B) in *.
  assert (EU : forall h, u h = heightsize bs h) by reflexivity.
  assert (U8 : forall h, 0 <= h < hts n -> 1 <= u h <= 8).
  { intros h Hh. rewrite EU, heightsize_ok. unfold hts in Hh. destruct (Z.eqb_spec n 0); lia. }
  assert (Hu : unit_ok u n) by (intros h Hh; specialize (U8 h Hh); lia).
  assert (AL : accl sh ByteL B n (lvl_l u n) lens (geo_l 8 u n)).
  { split.
    - intros t h q HS Hh Hq Hi. destruct (shape_len _ _ _ _ _ _ HS) as (EL & HB). pose proof HS as (E1 & E2 & _ & E4 & _).
      destruct (lpos u n h q Hn Hu Hh Hq Hi) as (L1 & L2 & L3 & L4 & L5). destruct (cell_l 8 u n t h q Hh Hq) as (-> & _). pose proof (U8 h ltac:(lia)).
      unfold lget. rewrite E1, E2, E4, geti_lvl by lia. fold bs. cbn [bind]. rewrite <- EU, L2. rewrite byteread_ok by (auto; lia). reflexivity.
    - intros t h q v HS Hh Hq Hi _ Hv. destruct (shape_len _ _ _ _ _ _ HS) as (EL & HB). pose proof HS as (E1 & E2 & _ & E4 & _).
      destruct (lpos u n h q Hn Hu Hh Hq Hi) as (L1 & L2 & L3 & L4 & L5). destruct (cell_l 8 u n t h q Hh Hq) as (_ & F1 & F2). rewrite F1. rewrite F2 in *. pose proof (U8 h ltac:(lia)).
      unfold lset. rewrite E1, E2, E4, geti_lvl by lia. fold bs. cbn [bind]. rewrite <- EU, (Z.mul_comm (u h) q), L2.
      destruct (bytewrite_ok (arr t 0) (Lv u n h + q * u h) (u h) v HB ltac:(lia) ltac:(lia) ltac:(lia) Hv) as (m' & E & U). rewrite E. cbn [bind]. exists m'. split; [reflexivity|exact U]. }
  split; [|exact AL]. split.
  - apply gok_l; auto; [lia|]. intros h Hh. specialize (U8 h Hh). lia.
  - intros i Hi. cbn. auto with arith.
  - intros t i HS Hi. refine (get_by_height _ _ _ _ _ _ _ t i _ AL HS Hi _); [reflexivity|apply Hn].
  - intros t i d HS Hi HA. destruct (node_split n i Hi) as (q & Hq & E1 & E2 & _ & E4). assert (HT : ht i <= 48) by (destruct (hts_range n Hn); lia).
    destruct (shape_len _ _ _ _ _ _ HS) as (EL & HB). pose proof HS as (F1 & F2 & _ & F4 & _). pose proof (U8 (ht i) E4).
    destruct (lpos u n (ht i) q Hn Hu ltac:(lia) Hq ltac:(lia)) as (L1 & L2 & L3 & L4 & L5). unfold cell in *. cbn [ps pw pa geo_l] in *. rewrite E2 in *.
    unfold node_add. rewrite F1, F2, F4, rho_ok by lia. fold bs. cbn [bind]. rewrite shr_ok by lia. cbn [bind]. replace (1 + ht i) with (ht i + 1) by lia. rewrite E2, geti_lvl by lia. cbn [bind]. rewrite <- EU, L2.
    destruct (bytewrite_inc_ok (arr t 0) (Lv u n (ht i) + q * u (ht i)) (u (ht i)) d HB ltac:(lia) ltac:(lia) ltac:(lia) HA) as (m' & E & U). rewrite E. cbn [bind]. exists m'. split; [reflexivity|exact U].
Qed.

Lemma acc_bitl B n : 0 <= B < 2 ^ 64 -> 0 <= n <= 2 ^ 48 -> bound_size B + Z.log2 n <= 57 ->
  let u := level_unit BitL (bound_size B) in let lens := [Lv u n (hts n) / 8 + 8] in
  acc true BitL B n (lvl_l u n) lens (geo_l 1 u n) /\ accl true BitL B n (lvl_l u n) lens (geo_l 1 u n).
Proof.
  intros HB0 Hn HL u lens. destruct (bound_size_ok B HB0) as (_ & Hb & _). set (bs := bound_size B) in *.
  assert (EU : forall h, u h = bs + h) by reflexivity.
  assert (U8 : forall h, 0 <= h < hts n -> 1 <= u h <= 57).
  { intros h Hh. rewrite EU. unfold hts in Hh. destruct (Z.eqb_spec n 0); lia. }
  assert (Hu : unit_ok u n) by (intros h Hh; specialize (U8 h Hh); lia).
  assert (PO : forall h q, 0 <= h -> 0 <= q -> (2 * q + 1) * 2 ^ h <= n -> let p := Lv u n h + q * u h in
     8 * (p / 8) + p mod 8 = 1 * p /\ 0 <= p / 8 /\ p / 8 + 8 <= Lv u n (hts n) / 8 + 8 /\ 0 <= p mod 8 < 8 /\ 1 <= u h <= 57 /\ u64 p = p /\ h < hts n).
  { intros h q Hh Hq Hi p. destruct (lpos u n h q Hn Hu Hh Hq Hi) as (L1 & L2 & L3 & L4 & L5). pose proof (U8 h ltac:(lia)). fold p in L2, L3, L4. clearbody p. lia. }
  assert (AL : accl true BitL B n (lvl_l u n) lens (geo_l 1 u n)).
  { split.
    - intros t h q HS Hh Hq Hi. destruct (shape_len _ _ _ _ _ _ HS) as (EL & HB). pose proof HS as (E1 & E2 & _ & E4 & _).
      destruct (PO h q Hh Hq Hi) as (P1 & P2 & P3 & P4 & P5 & P6 & P7). destruct (cell_l 1 u n t h q Hh Hq) as (-> & _).
      unfold lget. rewrite E1, E2, E4, geti_lvl by lia. fold bs. cbn [bind]. rewrite <- EU, P6. rewrite bitread_ok by (auto; lia). rewrite P1, !Z.mul_1_l. reflexivity.
    - intros t h q v HS Hh Hq Hi H0 Hv. destruct (shape_len _ _ _ _ _ _ HS) as (EL & HB). pose proof HS as (E1 & E2 & _ & E4 & _).
      destruct (PO h q Hh Hq Hi) as (P1 & P2 & P3 & P4 & P5 & P6 & P7). destruct (cell_l 1 u n t h q Hh Hq) as (C & F1 & F2). rewrite F1. rewrite C in H0. rewrite F2 in *. rewrite Z.mul_1_l in Hv, H0 |- *. rewrite Z.mul_1_l in H0.
      unfold lset. rewrite E1, E2, E4, geti_lvl by lia. fold bs. cbn [bind]. rewrite <- EU, (Z.mul_comm (u h) q), P6. rewrite Z.mul_1_l in P1.
      set (p := Lv u n h + q * u h) in *.
      assert (EV : u64 v = v). { apply wrap_small. assert (2 ^ u h <= 2 ^ 57) by (apply Z.pow_le_mono_r; lia). lia. }
      destruct (bitwrite_inc_ok (arr t 0) (p / 8) (p mod 8) (u h) v HB P2 ltac:(lia) ltac:(lia) ltac:(lia) ltac:(lia)) as (m' & E & U).
      { right. rewrite P1, H0. lia. }
      rewrite EV in E. rewrite P1, H0, Z.add_0_l, Z.mod_small in U by lia.
      rewrite E. cbn [bind]. exists m'. split; [reflexivity|]. rewrite Z.mul_1_l. exact U. }
  split; [|exact AL]. split.
  - apply gok_l; auto; [lia|]. intros h Hh. specialize (U8 h Hh). lia.
  - intros i Hi. cbn. auto with arith.
  - intros t i HS Hi. refine (get_by_height _ _ _ _ _ _ _ t i _ AL HS Hi _); [reflexivity|apply Hn].
  - intros t i d HS Hi HA. destruct (node_split n i Hi) as (q & Hq & E1 & E2 & _ & E4). assert (HT : ht i <= 48) by (destruct (hts_range n Hn); lia).
    destruct (shape_len _ _ _ _ _ _ HS) as (EL & HB). pose proof HS as (F1 & F2 & _ & F4 & _).
    destruct (PO (ht i) q ltac:(lia) Hq ltac:(lia)) as (P1 & P2 & P3 & P4 & P5 & P6 & P7). unfold cell in *. cbn [ps pw pa geo_l] in *. rewrite E2 in *. rewrite !Z.mul_1_l in *.
    unfold node_add. rewrite F1, F2, F4, rho_ok by lia. fold bs. cbn [bind]. rewrite shr_ok by lia. cbn [bind]. replace (1 + ht i) with (ht i + 1) by lia. rewrite E2, geti_lvl by lia. cbn [bind]. rewrite <- EU, P6.
    set (p := Lv u n (ht i) + q * u (ht i)) in *. rewrite <- P1 in HA.
    destruct (bitwrite_inc_ok (arr t 0) (p / 8) (p mod 8) (u (ht i)) d HB P2 ltac:(lia) ltac:(lia) ltac:(lia) ltac:(lia) HA) as (m' & E & U). rewrite E. cbn [bind]. exists m'. split; [reflexivity|].
    rewrite P1 in U. exact U.
Qed.

(** ** TypeL *)
Definition cz (bs h : Z) : Z := if bs + h <=? 8 then 0 else if bs + h <=? 16 then 1 else 2.
Definition cwz (e : Z) : Z := if e =? 0 then 1 else if e =? 1 then 2 else 8.
(** Nodes of class e below height h. *)
Definition En (bs n e h : Z) : Z := sumf (fun j => if cz bs j =? e then cnt n j else 0) 0 h.
Definition Lt (bs n h : Z) : Z := En bs n (cz bs h) h.
Definition lvl_t (bs n : Z) : list Z := map (Lt bs n) (zrange 0 (Z.to_nat (hts n + 1))).
Definition lens_t (bs n : Z) : list Z := [En bs n 0 (hts n); 2 * En bs n 1 (hts n); 8 * En bs n 2 (hts n)].
Definition geo_typel (bs n : Z) : geo :=
  {| pa := fun i => type_arr (bs + ht i);
     ps := fun i => 8 * (Z.of_nat (type_width (bs + ht i)) * (Lt bs n (ht i) + i / 2 ^ (ht i + 1)));
     pw := fun i => 8 * Z.of_nat (type_width (bs + ht i)) |}.

Lemma En_bound bs n e h : 0 <= n <= 2 ^ 48 -> 0 <= h <= hts n -> 0 <= En bs n e h <= 2 ^ 54.
Proof.
  intros Hn Hh. unfold En. destruct (hts_range n Hn) as (HR & _).
  pose proof (sumf_bound (fun j => if cz bs j =? e then cnt n j else 0) (2 ^ 48) 0 h ltac:(lia)) as SB. cbn beta in SB.
  assert (forall i, 0 <= i < h -> 0 <= (if cz bs i =? e then cnt n i else 0) <= 2 ^ 48) as HB.
  { intros i Hi. pose proof (cnt_range n i ltac:(lia) ltac:(lia)). destruct (cz bs i =? e); lia. }
  specialize (SB HB). lia.
Qed.

Lemma En_mono bs n e a b : 0 <= n -> 0 <= a <= b -> b <= hts n -> En bs n e a <= En bs n e b.
Proof. intros Hn Hab Hb. unfold En. apply sumf_mono; [lia|]. intros i Hi. pose proof (cnt_range n i ltac:(lia) ltac:(lia)). destruct (cz bs i =? e); lia. Qed.

Lemma En_succ bs n e h : 0 <= h -> En bs n e (h + 1) = En bs n e h + (if cz bs h =? e then cnt n h else 0).
Proof. intros. unfold En. rewrite sumf_succ by lia. reflexivity. Qed.

Lemma En_none bs n e h : (forall j, 0 <= j < h -> cz bs j <> e) -> 0 <= h -> En bs n e h = 0.
Proof.
  intros H Hh. unfold En. replace h with (0 + Z.of_nat (Z.to_nat h)) by lia. assert (HK : Z.of_nat (Z.to_nat h) <= h) by lia. revert HK. generalize (Z.to_nat h). intros k. induction k as [|k IH]; intros HK; [apply sumf_empty; lia|].
  replace (0 + Z.of_nat (S k)) with (0 + Z.of_nat k + 1) by lia. rewrite sumf_succ, IH by lia. destruct (Z.eqb_spec (cz bs (0 + Z.of_nat k)) e) as [E|]; [|reflexivity]. exfalso. apply (H (0 + Z.of_nat k) ltac:(lia) E).
Qed.

Lemma next_class bs h : 0 <= h <= 48 -> 1 <= bs <= 64 -> ((h =? u64 (8 - bs)) || (h =? u64 (16 - bs))) = ((bs + h =? 8) || (bs + h =? 16)).
Proof.
  intros Hh Hb. assert (W : forall c, 0 <= c < 64 -> (h =? u64 (c - bs)) = (bs + h =? c)).
  { intros c Hc. destruct (Z.leb_spec bs c).
    - rewrite wrap_small by lia. lia.
    - replace (u64 (c - bs)) with (c - bs + 2 ^ 64); [lia|]. unfold wrap. rewrite <- (Z.mod_add (c - bs) 1) by lia. rewrite Z.mod_small by lia. lia. }
  rewrite !W by lia. reflexivity.
Qed.

Lemma Lt_succ bs n h : 0 <= h <= 48 -> 1 <= bs <= 64 -> Lt bs n (h + 1) = (if (bs + h =? 8) || (bs + h =? 16) then 0 else cnt n h + Lt bs n h)
  /\ cz bs (h + 1) = (if (bs + h =? 8) || (bs + h =? 16) then cz bs h + 1 else cz bs h).
Proof.
  intros Hh Hb. unfold Lt. assert (EC : cz bs (h + 1) = (if (bs + h =? 8) || (bs + h =? 16) then cz bs h + 1 else cz bs h)).
  { unfold cz. destruct (Z.leb_spec (bs + (h + 1)) 8), (Z.leb_spec (bs + (h + 1)) 16), (Z.leb_spec (bs + h) 8), (Z.leb_spec (bs + h) 16), (Z.eqb_spec (bs + h) 8), (Z.eqb_spec (bs + h) 16); cbn [orb]; lia. }
  split; [|exact EC]. rewrite EC. destruct ((bs + h =? 8) || (bs + h =? 16)) eqn:E.
  - apply En_none; [|lia]. intros j Hj. unfold cz. destruct (Z.leb_spec (bs + j) 8), (Z.leb_spec (bs + j) 16), (Z.leb_spec (bs + h) 8), (Z.leb_spec (bs + h) 16); lia.
  - rewrite En_succ, Z.eqb_refl by lia. lia.
Qed.

Lemma typel_table_ok bs n : 0 <= n <= 2 ^ 48 -> 1 <= bs <= 64 -> exists j,
  typel_table bs n (hts n + 1) = Ok (lvl_t bs n, [En bs n 0 (hts n); En bs n 1 (hts n); En bs n 2 (hts n)], j).
Proof.
  intros Hn Hb. destruct (hts_range n Hn) as (HR & _). unfold typel_table.
  match goal with |- context [foldM ?f _ ?s0] => 
    destruct (foldM_range f (fun k s => s = (map (Lt bs n) (zrange 0 (Z.to_nat (k + 1))), [En bs n 0 k; En bs n 1 k; En bs n 2 k], cz bs k)) 1 (Z.to_nat (hts n + 1 - 1)) s0) as (s & E & ES) end.
  - intros k s Hk ->. replace (1 + k - 1) with k by lia. rewrite level_count_ok by lia. cbn [bind].
    rewrite geti_ok by (rewrite zlen_map; unfold zlen; rewrite length_zrange; lia). cbn [bind].
    rewrite (zn_map (Lt bs n) 0 0) by (unfold zlen; rewrite length_zrange; lia). rewrite zn_zrange by lia. rewrite Z.add_0_l.
    assert (CB : 0 <= cz bs k <= 2) by (unfold cz; destruct (bs + k <=? 8), (bs + k <=? 16); lia).
    rewrite seti_ok by (change (0 <= cz bs k < 3); lia). cbn [bind]. rewrite next_class by lia. destruct (Lt_succ bs n k ltac:(lia) Hb) as (EL & EC).
    pose proof (En_bound bs n (cz bs k) (k + 1) Hn ltac:(lia)) as B. rewrite En_succ, Z.eqb_refl in B by lia. fold (Lt bs n k) in B.
    rewrite (wrap_small 64) by lia.
    assert (EU : upd [En bs n 0 k; En bs n 1 k; En bs n 2 k] (cz bs k) (cnt n k + Lt bs n k) = [En bs n 0 (k + 1); En bs n 1 (k + 1); En bs n 2 (k + 1)]).
    { rewrite !En_succ by lia. unfold Lt. assert (D : cz bs k = 0 \/ cz bs k = 1 \/ cz bs k = 2) by lia.
      destruct D as [E|[E|E]]; rewrite !E; cbn [Z.eqb Pos.eqb]; rewrite !Z.add_0_r, Z.add_comm; reflexivity. }
    rewrite EU. replace (Z.to_nat (k + 1 + 1)) with (S (Z.to_nat (k + 1))) by lia. rewrite zrange_snoc, map_app. cbn [map].
    replace (0 + Z.of_nat (Z.to_nat (k + 1))) with (k + 1) by lia. rewrite EL, EC.
    destruct ((bs + k =? 8) || (bs + k =? 16)); eexists; (split; [reflexivity|]); reflexivity.
  - cbn [Z.add Z.to_nat Pos.to_nat Pos.iter_op]. unfold En at 1 2 3. rewrite !sumf_empty by lia. cbn [map zrange]. replace (Lt bs n 0) with 0 by (unfold Lt, En; rewrite sumf_empty; lia).
    f_equal. unfold cz. rewrite Z.add_0_r. reflexivity.
  - exists (cz bs (Z.of_nat (Z.to_nat (hts n + 1 - 1)))). rewrite E, ES. replace (Z.of_nat (Z.to_nat (hts n + 1 - 1))) with (hts n) by lia. reflexivity.
Qed.

Lemma typel_arrays_ok bs n : 0 <= n <= 2 ^ 48 -> 1 <= bs <= 64 -> (0 < n -> bs + Z.log2 n <= 63) ->
  let e k := En bs n k (hts n) in
  typel_arrays bs (hts n + 1) [e 0; e 1; e 2] = [darray 1 (e 0); darray 2 (e 1); darray 8 (e 2)].
Proof.
  intros Hn Hb HL e. destruct (hts_range n Hn) as (HR & H1). unfold typel_arrays. cbn [zn]. change (zn 0 [e 0; e 1; e 2] 0) with (e 0). change (zn 0 [e 0; e 1; e 2] 1) with (e 1). change (zn 0 [e 0; e 1; e 2] 2) with (e 2).
  assert (HS : bs + hts n <= 64) by (unfold hts in *; destruct (Z.eqb_spec n 0); [lia|specialize (HL ltac:(lia)); lia]).
  assert (D : forall w, darray w 0 = []) by (intros w; unfold darray; rewrite Z.mul_0_r; reflexivity).
  destruct (Z.leb_spec 17 (hts n + 1 + bs - 1)).
  - replace (hts n + 1 + bs - 1 <=? 64) with true by lia. reflexivity.
  - cbn [andb]. assert (E2 : e 2 = 0). { unfold e. apply En_none; [|lia]. intros j Hj. unfold cz. destruct (Z.leb_spec (bs + j) 8), (Z.leb_spec (bs + j) 16); lia. }
    rewrite E2, D. destruct (Z.leb_spec 9 (hts n + 1 + bs - 1)).
    + replace (hts n + 1 + bs - 1 <=? 16) with true by lia. reflexivity.
    + cbn [andb]. assert (E1 : e 1 = 0). { unfold e. apply En_none; [|lia]. intros j Hj. unfold cz. destruct (Z.leb_spec (bs + j) 8), (Z.leb_spec (bs + j) 16); lia. }
      rewrite E1, D. reflexivity.
Qed.

Lemma type_class bs h : 1 <= bs -> 0 <= h -> bs + h <= 64 -> type_arr (bs + h) = Z.to_nat (cz bs h) /\ Z.of_nat (type_width (bs + h)) = cwz (cz bs h) /\ 0 <= cz bs h <= 2.
Proof.
  intros Hb Hh HL. unfold type_arr, type_width, cz, cwz.
  destruct (Z.leb_spec (bs + h) 8).
  - replace (17 <=? bs + h) with false by lia. replace (9 <=? bs + h) with false by lia. cbn. lia.
  - destruct (Z.leb_spec (bs + h) 16).
    + replace (17 <=? bs + h) with false by lia. replace (9 <=? bs + h) with true by lia. cbn. lia.
    + replace (17 <=? bs + h) with true by lia. replace (bs + h <=? 64) with true by lia. cbn. lia.
Qed.

Lemma tpos bs n h q : 0 <= n <= 2 ^ 48 -> 1 <= bs -> bs + Z.log2 n <= 63 -> 0 <= h -> 0 <= q -> (2 * q + 1) * 2 ^ h <= n ->
  h < hts n /\ h <= Z.log2 n /\ u64 (Lt bs n h + q) = Lt bs n h + q /\ 0 <= Lt bs n h + q /\ Lt bs n h + q + 1 <= En bs n (cz bs h) (h + 1) /\ En bs n (cz bs h) (h + 1) <= En bs n (cz bs h) (hts n).
Proof.
  intros Hn Hb HL Hh Hq Hi. destruct (pos_ht h q Hh Hq) as (P1 & P2 & P3). destruct (node_split n ((2 * q + 1) * 2 ^ h) ltac:(lia)) as (q' & _ & _ & E2 & E3 & E4).
  rewrite P2 in *. rewrite P3 in E2. subst q'. pose proof (En_succ bs n (cz bs h) h Hh) as LS. rewrite Z.eqb_refl in LS. fold (Lt bs n h) in LS.
  pose proof (En_mono bs n (cz bs h) (h + 1) (hts n) ltac:(lia) ltac:(lia) ltac:(lia)).
  pose proof (En_bound bs n (cz bs h) h Hn ltac:(lia)) as EB. fold (Lt bs n h) in EB. pose proof (En_bound bs n (cz bs h) (h + 1) Hn ltac:(lia)) as EB2. rewrite wrap_small by lia.
  assert (h <= Z.log2 n) by (clear - E4; unfold hts in E4; destruct (Z.eqb_spec n 0); lia). lia.
Qed.

Lemma len_t bs n B lvl t e : shape TypeL B n lvl (lens_t bs n) t -> 0 <= e <= 2 -> zlen (arr t (Z.to_nat e)) = cwz e * En bs n e (hts n).
Proof.
  intros HS He. rewrite (arr_len _ _ _ _ _ _ _ HS). assert (D : e = 0 \/ e = 1 \/ e = 2) by lia. destruct D as [->|[->| ->]]; [exact (eq_sym (Z.mul_1_l _))|reflexivity|reflexivity].
Qed.

Lemma acc_typel sh B n : 0 <= B < 2 ^ 64 -> 0 <= n <= 2 ^ 48 -> bound_size B + Z.log2 n <= 63 ->
  let bs := bound_size B in
  acc sh TypeL B n (lvl_t bs n) (lens_t bs n) (geo_typel bs n) /\ accl sh TypeL B n (lvl_t bs n) (lens_t bs n) (geo_typel bs n).
Proof.
  intros HB0 Hn HL bs. destruct (bound_size_ok B HB0) as (_ & Hb & _). fold bs in Hb, HL.
  assert (GL : forall h, 0 <= h <= hts n -> geti (lvl_t bs n) h = Ok (Lt bs n h)).
  { intros h Hh. unfold lvl_t. rewrite geti_ok by (rewrite zlen_map; unfold zlen; rewrite length_zrange; lia). f_equal.
    rewrite (zn_map (Lt bs n) 0 0) by (unfold zlen; rewrite length_zrange; lia). rewrite zn_zrange by lia. rewrite Z.add_0_l. reflexivity. }
  assert (PO : forall t h q, shape TypeL B n (lvl_t bs n) (lens_t bs n) t -> 0 <= h -> 0 <= q -> (2 * q + 1) * 2 ^ h <= n ->
     let w := type_width (bs + h) in 0 <= Z.of_nat w * (Lt bs n h + q) /\ Z.of_nat w * (Lt bs n h + q) + Z.of_nat w <= zlen (arr t (type_arr (bs + h))) /\ (1 <= w <= 8)%nat).
  { intros t h q HS Hh Hq Hi w. destruct (tpos bs n h q Hn ltac:(lia) HL Hh Hq Hi) as (T1 & T2 & T3 & T4 & T5 & T6).
    destruct (type_class bs h ltac:(lia) Hh ltac:(lia)) as (C1 & C2 & C3). rewrite C1. rewrite (len_t bs n B _ t (cz bs h) HS C3). fold w in C2. rewrite C2.
    assert (1 <= cwz (cz bs h) <= 8) by (unfold cwz; destruct (cz bs h =? 0), (cz bs h =? 1); lia). split; [apply Z.mul_nonneg_nonneg; lia|].
    split; [|lia]. rewrite <- Z.mul_succ_r. apply Z.mul_le_mono_nonneg_l; lia. }
  assert (AL : accl sh TypeL B n (lvl_t bs n) (lens_t bs n) (geo_typel bs n)).
  { split.
    - intros t h q HS Hh Hq Hi. pose proof HS as (E1 & E2 & _ & E4 & _ & HB). destruct (tpos bs n h q Hn ltac:(lia) HL Hh Hq Hi) as (T1 & T2 & T3 & _). destruct (PO t h q HS Hh Hq Hi) as (P1 & P2 & P3).
      unfold lget. rewrite E1, E2, E4, GL by lia. fold bs. cbn [bind]. rewrite T3, load_field by auto. f_equal. unfold cell. cbn [pa ps pw geo_typel].
      destruct (pos_ht h q Hh Hq) as (_ & -> & ->). reflexivity.
    - intros t h q v HS Hh Hq Hi _ Hv. pose proof HS as (E1 & E2 & _ & E4 & _ & HB). destruct (tpos bs n h q Hn ltac:(lia) HL Hh Hq Hi) as (T1 & T2 & T3 & _). destruct (PO t h q HS Hh Hq Hi) as (P1 & P2 & P3).
      cbn [pa ps pw geo_typel] in *. destruct (pos_ht h q Hh Hq) as (_ & EH & EQ). rewrite EH in *. rewrite EQ.
      unfold lset. rewrite E1, E2, E4, GL by lia. fold bs. cbn [bind]. rewrite T3.
      destruct (store_field (arr t (type_arr (bs + h))) _ (type_width (bs + h)) v (HB _) P1 P2 Hv) as (m' & E & U). rewrite E. cbn [bind]. exists m'. split; [reflexivity|exact U]. }
  split; [|exact AL]. split.
  - split.
    + intros i Hi. destruct (node_split n i Hi) as (q & Hq & E1 & E2 & _ & E4). cbn [pa ps pw geo_typel]. rewrite E2.
      destruct (tpos bs n (ht i) q Hn ltac:(lia) HL ltac:(lia) Hq ltac:(lia)) as (_ & T2 & _ & T4 & _). destruct (type_class bs (ht i) ltac:(lia) ltac:(lia) ltac:(lia)) as (_ & C2 & C3).
      assert (1 <= cwz (cz bs (ht i)) <= 8) by (unfold cwz; destruct (cz bs (ht i) =? 0), (cz bs (ht i) =? 1); lia). rewrite C2.
      split; [|lia]. apply Z.mul_nonneg_nonneg; [lia|]. apply Z.mul_nonneg_nonneg; lia.
    + intros i j Hi Hj. cbn [pa ps pw geo_typel].
      destruct (node_split n i ltac:(lia)) as (q & Hq & E1 & E2 & _ & E4). destruct (node_split n j ltac:(lia)) as (r & Hr & F1 & F2 & _ & F4). rewrite E2, F2.
      destruct (tpos bs n (ht i) q Hn ltac:(lia) HL ltac:(lia) Hq ltac:(lia)) as (_ & T2 & _ & T4 & T5 & _). destruct (type_class bs (ht i) ltac:(lia) ltac:(lia) ltac:(lia)) as (C1 & C2 & C3).
      destruct (tpos bs n (ht j) r Hn ltac:(lia) HL ltac:(lia) Hr ltac:(lia)) as (_ & U2 & _ & U4 & U5 & _). destruct (type_class bs (ht j) ltac:(lia) ltac:(lia) ltac:(lia)) as (D1 & D2 & D3).
      rewrite C1, D1, C2, D2. intros EC. assert (EQ : cz bs (ht i) = cz bs (ht j)) by lia. rewrite <- EQ in *.
      assert (D : Lt bs n (ht i) + q + 1 <= Lt bs n (ht j) + r \/ Lt bs n (ht j) + r + 1 <= Lt bs n (ht i) + q).
      { destruct (Z.lt_trichotomy (ht i) (ht j)) as [L|[L|L]].
        - left. pose proof (En_mono bs n (cz bs (ht i)) (ht i + 1) (ht j) ltac:(lia) ltac:(lia) ltac:(lia)) as M. unfold Lt at 2. rewrite <- EQ. lia.
        - left. rewrite <- L in *. assert (q < r); [|lia]. clear - E1 F1 Hi. assert (0 < 2 ^ ht i) by (apply Z.pow_pos_nonneg; [lia|apply ht_nonneg]). nia.
        - right. pose proof (En_mono bs n (cz bs (ht i)) (ht j + 1) (ht i) ltac:(lia) ltac:(lia) ltac:(lia)) as M. unfold Lt at 2. lia. }
      assert (W : 1 <= cwz (cz bs (ht i)) <= 8) by (unfold cwz; destruct (cz bs (ht i) =? 0), (cz bs (ht i) =? 1); lia).
      clear - D W. set (w := cwz _) in *. clearbody w. set (x := Lt bs n (ht i) + q) in *. set (y := Lt bs n (ht j) + r) in *. clearbody x y.
      destruct D as [D|D]; [left|right]; rewrite <- Z.mul_add_distr_l; apply Z.mul_le_mono_nonneg_l; try lia; rewrite <- Z.mul_succ_r; apply Z.mul_le_mono_nonneg_l; lia.
  - intros i Hi. destruct (node_split n i Hi) as (q & Hq & E1 & E2 & _ & E4). cbn [pa geo_typel length lens_t].
    destruct (tpos bs n (ht i) q Hn ltac:(lia) HL ltac:(lia) Hq ltac:(lia)) as (_ & T2 & _). destruct (type_class bs (ht i) ltac:(lia) ltac:(lia) ltac:(lia)) as (C1 & _ & C3). rewrite C1. lia.
  - intros t i HS Hi. refine (get_by_height _ _ _ _ _ _ _ t i _ AL HS Hi _); [reflexivity|apply Hn].
  - intros t i d HS Hi HA. destruct (node_split n i Hi) as (q & Hq & E1 & E2 & _ & E4). assert (HT : ht i <= 48) by (destruct (hts_range n Hn); lia).
    pose proof HS as (F1 & F2 & _ & F4 & _ & HB). destruct (tpos bs n (ht i) q Hn ltac:(lia) HL ltac:(lia) Hq ltac:(lia)) as (T1 & T2 & T3 & _). destruct (PO t (ht i) q HS ltac:(lia) Hq ltac:(lia)) as (P1 & P2 & P3).
    unfold cell in *. cbn [ps pw pa geo_typel] in *. rewrite E2 in *.
    unfold node_add. rewrite F1, F2, F4, rho_ok by lia. fold bs. cbn [bind]. rewrite shr_ok by lia. cbn [bind]. replace (1 + ht i) with (ht i + 1) by lia. rewrite E2, GL by lia. cbn [bind]. rewrite T3.
    rewrite load_field by auto. cbn [bind].
    destruct (bump_field (arr t (type_arr (bs + ht i))) _ (type_width (bs + ht i)) d (HB _) P1 P2) as (m' & E & U). rewrite E. cbn [bind]. exists m'. split; [reflexivity|exact U].
Qed.
