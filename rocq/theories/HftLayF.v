(** The layouts of the F classes: the nodes are disjoint fields, and the accesses
    read and write them. *)
From Coq Require Import ZifyBool.
From Verif Require Import Base BaseFacts Mem MemFacts SpecHft Hft HftFacts HftMem HftBuild HftStore.
Ltac Zify.zify_post_hook ::= Z.div_mod_to_equations.

(** ** Arithmetic *)
Lemma ceil_log2_ok f : forall B, 0 <= B < 2 ^ Z.of_nat f -> ceil_log2_plus1 f B = Z.log2 B + 1.
Proof.
  induction f as [|f IH]; intros B HB; cbn [ceil_log2_plus1].
  - change (2 ^ Z.of_nat 0) with 1 in HB. replace B with 0 by lia. reflexivity.
  - destruct (Z.ltb_spec B 2).
    + assert (E : B = 0 \/ B = 1) by lia. destruct E as [-> | ->]; reflexivity.
    + rewrite Nat2Z.inj_succ, Z.pow_succ_r in HB by lia. rewrite IH by (split; [lia|]; apply Z.div_lt_upper_bound; lia).
      rewrite <- Z.div2_div.
      assert (E : Z.log2 B = Z.succ (Z.log2 (Z.div2 B))).
      { destruct (Z.eq_dec (B mod 2) 0) as [M|M].
        - replace B with (2 * Z.div2 B) at 1 by (rewrite Z.div2_div; lia). apply Z.log2_double. rewrite Z.div2_div. lia.
        - replace B with (2 * Z.div2 B + 1) at 1 by (rewrite Z.div2_div; lia). apply Z.log2_succ_double. rewrite Z.div2_div. lia. }
      lia.
Qed.

Lemma bound_size_ok B : 0 <= B < 2 ^ 64 -> bound_size B = Z.log2 B + 1 /\ 1 <= bound_size B <= 64 /\ B < 2 ^ bound_size B.
Proof.
  intros HB. unfold bound_size. rewrite ceil_log2_ok by exact HB. pose proof (Z.log2_nonneg B). split; [reflexivity|].
  destruct (Z.eq_dec B 0) as [->|N]; [cbn; lia|]. assert (Z.log2 B < 64) by (apply Z.log2_lt_pow2; lia).
  pose proof (Z.log2_spec B ltac:(lia)) as [_ L]. split; [lia|]. exact L.
Qed.

Lemma div_step m i : 0 <= m -> 0 < i -> i / 2 ^ m = (i - 1) / 2 ^ m + (if m <=? ht i then 1 else 0).
Proof.
  intros Hm Hi. assert (P : 0 < 2 ^ m) by (apply Z.pow_pos_nonneg; lia). destruct (Z.leb_spec m (ht i)) as [L|L].
  - destruct (ht_split i Hi) as (q & Hq & E). unfold low in E. replace (ht i) with (m + (ht i - m)) in E by lia. rewrite Z.pow_add_r in E by lia.
    set (T := 2 ^ (ht i - m)) in *. assert (E2 : i = (T * (2 * q + 1)) * 2 ^ m) by (rewrite E at 1; ring). set (X := T * (2 * q + 1)) in *. clearbody X.
    rewrite E2 at 1. rewrite Z.div_mul by lia. replace (i - 1) with ((X - 1) * 2 ^ m + (2 ^ m - 1)) by (rewrite E2; ring).
    rewrite Z.div_add_l by lia. rewrite (Z.div_small (2 ^ m - 1)) by lia. lia.
  - rewrite Z.add_0_r. symmetry. apply Z.div_unique with (i - 2 ^ m * ((i - 1) / 2 ^ m)); [left|ring].
    pose proof (Z.div_mod (i - 1) (2 ^ m) ltac:(lia)) as DM. pose proof (Z.mod_pos_bound (i - 1) (2 ^ m) P) as MB.
    set (Q := (i - 1) / 2 ^ m) in *. set (R := (i - 1) mod 2 ^ m) in *. set (T := 2 ^ m) in *.
    assert (NE : i - T * Q <> T).
    { intros E. pose proof (low_divides i m (Q + 1) Hm Hi ltac:(fold T; lia)) as LD. unfold low in LD. apply Z.pow_le_mono_r_iff in LD; [lia|lia|apply ht_nonneg]. }
    clearbody Q R T. lia.
Qed.

Lemma div_mono m x y : 0 <= m -> x <= y -> x / 2 ^ m <= y / 2 ^ m.
Proof. intros Hm H. apply Z.div_le_mono; [apply Z.pow_pos_nonneg; lia|auto]. Qed.

Lemma div_le_self m x : 0 <= m -> 0 <= x -> 0 <= x / 2 ^ m <= x.
Proof. intros Hm H. assert (0 < 2 ^ m) by (apply Z.pow_pos_nonneg; lia). split; [apply Z.div_pos; lia|]. apply Z.div_le_upper_bound; nia. Qed.

Lemma ht_log i n : 1 <= i <= n -> 0 <= ht i <= Z.log2 n.
Proof.
  intros Hi. pose proof (ht_nonneg i). split; [auto|]. pose proof (low_le i ltac:(lia)) as L. unfold low in L. apply Z.log2_le_mono in L.
  rewrite Z.log2_pow2 in L by lia. pose proof (Z.log2_le_mono i n ltac:(lia)). lia.
Qed.

Lemma lt_log n m : 0 <= n -> 0 <= m -> Z.log2 n < m -> n < 2 ^ m.
Proof. intros H Hm L. destruct (Z.eq_dec n 0) as [->|]; [apply Z.pow_pos_nonneg; lia|]. apply Z.log2_lt_pow2; lia. Qed.

(** ** FixedF *)
Definition geo_fixedf : geo := {| pa := fun _ => 0%nat; ps := fun i => 8 * (8 * (i + i / 2 ^ 14)); pw := fun _ => 64 |}.

Lemma fixedf_pos_ok i : 0 <= i <= 2 ^ 48 -> fixedf_pos i = i + i / 2 ^ 14.
Proof. intros H. unfold fixedf_pos. rewrite Z.shiftr_div_pow2 by lia. apply wrap_small. lia. Qed.

Lemma f_bytes_fixedf B n : 0 <= n <= 2 ^ 48 -> f_bytes FixedF B n = 8 * (n + n / 2 ^ 14 + 1).
Proof. intros H. unfold f_bytes. rewrite fixedf_pos_ok by lia. rewrite wrap_small by lia. reflexivity. Qed.

Lemma shape_len lay B n lvl L t : shape lay B n lvl [L] t -> zlen (arr t 0) = L /\ bytes_ok (arr t 0).
Proof. intros HS. split; [rewrite (arr_len _ _ _ _ _ _ 0 HS); reflexivity|]. apply HS. Qed.

Lemma acc_fixedf sh B n : 0 <= n <= 2 ^ 48 -> acc sh FixedF B n [] [f_bytes FixedF B n] geo_fixedf /\ accf sh FixedF B n [] [f_bytes FixedF B n] geo_fixedf.
Proof.
  intros Hn. rewrite f_bytes_fixedf by auto.
  assert (A : acc sh FixedF B n [] [8 * (n + n / 2 ^ 14 + 1)] geo_fixedf).
  { split.
    - split.
      + intros i Hi. cbn [ps pw geo_fixedf]. lia.
      + intros i j Hi Hj _. left. cbn [ps pw geo_fixedf]. lia.
    - intros i Hi. cbn. lia.
    - intros t i HS Hi. destruct (shape_len _ _ _ _ _ _ HS) as (EL & HB). destruct HS as (E1 & _). unfold node_get. rewrite E1, fixedf_pos_ok by lia.
      rewrite load_field by (auto; lia). reflexivity.
    - intros t i d HS Hi HA. destruct (shape_len _ _ _ _ _ _ HS) as (EL & HB). pose proof HS as (E1 & _). unfold node_add. rewrite E1, fixedf_pos_ok by lia.
      rewrite load_field by (auto; lia). cbn [bind].
      destruct (bump_field (arr t 0) (8 * (i + i / 2 ^ 14)) 8 d HB ltac:(lia) ltac:(lia)) as (m' & E & U). rewrite E. cbn [bind]. exists m'. split; [reflexivity|exact U]. }
  split; [exact A|]. split.
  - intros t i v HS Hi _ Hv. destruct (shape_len _ _ _ _ _ _ HS) as (EL & HB). pose proof HS as (E1 & _). unfold leaf_set. rewrite E1, fixedf_pos_ok by lia.
    destruct (store_field (arr t 0) (8 * (i + i / 2 ^ 14)) 8 v HB ltac:(lia) ltac:(lia) Hv) as (m' & E & U). rewrite E. cbn [bind]. exists m'. split; [reflexivity|exact U].
  - intros t i j HS Hi Hj HA. eapply acc_comb; eauto. discriminate.
Qed.

(** ** ByteF *)
Definition small_of (bs : Z) : Z := (bs - 1) / 8 + 1.
Definition bp (bs x : Z) : Z :=
  x * small_of bs + x / 2 ^ (8 * small_of bs - bs + 1) + x / 2 ^ (8 * small_of bs - bs + 9) * (7 - small_of bs) + (if 32 <=? bs then 0 else x / 2 ^ (28 + (64 - bs) mod 8)).
Definition geo_bytef (bs : Z) : geo := {| pa := fun _ => 0%nat; ps := fun i => 8 * bp bs (i - 1); pw := fun i => 8 * heightsize bs (ht i) |}.

Lemma heightsize_ok bs h : heightsize bs h = (h + bs - 1) / 8 + 1.
Proof. unfold heightsize. rewrite Z.shiftr_div_pow2 by lia. reflexivity. Qed.

Lemma lor7 x : 0 <= x < 64 -> Z.lor x 7 + 1 = 8 * (x / 8 + 1).
Proof.
  intros H. assert (E : forallb (fun x => Z.lor x 7 + 1 =? 8 * (x / 8 + 1)) (zrange 0 64) = true) by reflexivity.
  rewrite forallb_forall in E. specialize (E x (proj2 (in_zrange x 0 64) ltac:(lia))). lia.
Qed.

Lemma bp_large0 bs n x : 1 <= bs <= 64 -> bs + Z.log2 n <= 64 -> 0 <= x <= n -> small_of bs = 8 -> x / 2 ^ (8 * small_of bs - bs + 1) = 0 /\ x / 2 ^ (8 * small_of bs - bs + 9) = 0.
Proof.
  intros Hb HL Hx E. rewrite E. pose proof (lt_log n (65 - bs) ltac:(lia) ltac:(lia) ltac:(lia)).
  assert (2 ^ (65 - bs) <= 2 ^ (8 * 8 - bs + 9)) by (apply Z.pow_le_mono_r; lia). replace (8 * 8 - bs + 1) with (65 - bs) by lia.
  split; apply Z.div_small; lia.
Qed.

Lemma small_range bs : 1 <= bs <= 64 -> 1 <= small_of bs <= 8 /\ 0 <= 8 * small_of bs - bs <= 7.
Proof. unfold small_of. lia. Qed.

Lemma bp_mono bs n x y : 1 <= bs <= 64 -> bs + Z.log2 n <= 64 -> 0 <= x <= y -> y <= n -> bp bs x <= bp bs y.
Proof.
  intros Hb HL Hx Hy. assert (Rx : 0 <= x <= n) by lia. assert (Ry : 0 <= y <= n) by lia. destruct (small_range bs Hb) as (S1' & S2). unfold bp.
  pose proof (div_mono (8 * small_of bs - bs + 1) x y ltac:(lia) ltac:(lia)).
  pose proof (div_mono (8 * small_of bs - bs + 9) x y ltac:(lia) ltac:(lia)).
  pose proof (div_mono (28 + (64 - bs) mod 8) x y ltac:(lia) ltac:(lia)).
  destruct (Z.eq_dec (small_of bs) 8) as [E|N].
  - destruct (bp_large0 bs n x Hb HL Rx E) as (-> & ->). destruct (bp_large0 bs n y Hb HL Ry E) as (-> & ->). rewrite E. set (c := x / _) in *. set (c' := y / _) in *. clearbody c c'. clear - H1 Hx. destruct (32 <=? bs); lia.
  - set (a := x / 2 ^ (8 * small_of bs - bs + 1)) in *. set (b := x / 2 ^ (8 * small_of bs - bs + 9)) in *. set (c := x / 2 ^ (28 + (64 - bs) mod 8)) in *.
    set (a' := y / 2 ^ (8 * small_of bs - bs + 1)) in *. set (b' := y / 2 ^ (8 * small_of bs - bs + 9)) in *. set (c' := y / 2 ^ (28 + (64 - bs) mod 8)) in *.
    set (s := small_of bs) in *. clearbody a b c a' b' c' s. clear - H H0 H1 S1' N Hx. assert (x * s <= y * s) by nia. assert (b * (7 - s) <= b' * (7 - s)) by nia. destruct (32 <=? bs); lia.
Qed.

Lemma bp_step bs n i : 1 <= bs <= 64 -> bs + Z.log2 n <= 64 -> 1 <= i <= n -> bp bs (i - 1) + heightsize bs (ht i) <= bp bs i /\ 1 <= heightsize bs (ht i) <= 8.
Proof.
  intros Hb HL Hi. destruct (small_range bs Hb) as (S1' & S2). pose proof (ht_log i n Hi) as HT. rewrite heightsize_ok. split; [|lia]. unfold bp.
  pose proof (div_step (8 * small_of bs - bs + 1) i ltac:(lia) ltac:(lia)) as D1.
  pose proof (div_step (8 * small_of bs - bs + 9) i ltac:(lia) ltac:(lia)) as D2.
  pose proof (div_mono (28 + (64 - bs) mod 8) (i - 1) i ltac:(lia) ltac:(lia)) as D3.
  rewrite D1, D2. set (a := (i - 1) / 2 ^ (8 * small_of bs - bs + 1)) in *. set (b := (i - 1) / 2 ^ (8 * small_of bs - bs + 9)) in *.
  set (c := (i - 1) / 2 ^ (28 + (64 - bs) mod 8)) in *. set (c' := i / 2 ^ (28 + (64 - bs) mod 8)) in *. clearbody a b c c'. clear D1 D2.
  unfold small_of in *. set (h := ht i) in *. clearbody h.
  assert (Hc : (if 32 <=? bs then 0 else c) <= (if 32 <=? bs then 0 else c')) by (destruct (32 <=? bs); lia).
  set (s := (bs - 1) / 8 + 1) in *. replace (i * s) with ((i - 1) * s + s) by ring.
  assert (Hs : bs <= 8 * s /\ 8 * s < bs + 8) by (unfold s; lia). clearbody s.
  destruct (Z.leb_spec (8 * s - bs + 1) h), (Z.leb_spec (8 * s - bs + 9) h); nia || lia.
Qed.

Lemma bp_bound bs x : 1 <= bs <= 64 -> 0 <= x <= 2 ^ 48 -> 0 <= x -> (small_of bs = 8 -> x / 2 ^ (8 * small_of bs - bs + 9) = 0) -> 0 <= bp bs x <= 2 ^ 56.
Proof.
  intros Hb Hx _ H8. destruct (small_range bs Hb) as (S1' & S2). unfold bp.
  pose proof (div_le_self (8 * small_of bs - bs + 1) x ltac:(lia) ltac:(lia)).
  pose proof (div_le_self (8 * small_of bs - bs + 9) x ltac:(lia) ltac:(lia)).
  pose proof (div_le_self (28 + (64 - bs) mod 8) x ltac:(lia) ltac:(lia)).
  set (a := x / 2 ^ (8 * small_of bs - bs + 1)) in *. set (b := x / 2 ^ (8 * small_of bs - bs + 9)) in *. set (c := x / 2 ^ (28 + (64 - bs) mod 8)) in *.
  set (s := small_of bs) in *. clearbody a b c s. clear - Hx H H0 H1 S1' H8.
  assert (0 <= x * s <= 8 * x) by nia. assert (0 <= b * (7 - s) <= 6 * x).
  { destruct (Z.eq_dec s 8) as [->|]; [rewrite H8 by auto; lia|]. nia. }
  destruct (32 <=? bs); lia.
Qed.

Lemma bytef_pos_ok bs n i : 1 <= bs <= 64 -> bs + Z.log2 n <= 64 -> n <= 2 ^ 48 -> 1 <= i <= n + 1 -> bytef_pos bs i = bp bs (i - 1) /\ 0 <= bp bs (i - 1) <= 2 ^ 56.
Proof.
  intros Hb HL Hn Hi. destruct (small_range bs Hb) as (S1' & S2).
  assert (H8 : small_of bs = 8 -> (i - 1) / 2 ^ (8 * small_of bs - bs + 9) = 0) by (intros E; apply (bp_large0 bs n (i - 1) Hb HL ltac:(lia) E)).
  pose proof (bp_bound bs (i - 1) Hb ltac:(lia) ltac:(lia) H8) as BB. split; [|exact BB].
  unfold bytef_pos, bytef_holes. rewrite (wrap_small 64 (i - 1)) by lia. rewrite lor7 by lia. rewrite !Z.shiftr_div_pow2 by lia. change (2 ^ 3) with 8.
  fold (small_of bs). replace (8 * small_of bs - bs + 1 + 8) with (8 * small_of bs - bs + 9) by lia.
  rewrite <- (wrap_small 64 (bp bs (i - 1))) by lia. unfold bp.
  destruct (Z.eq_dec (small_of bs) 8) as [E|N].
  - rewrite H8 by auto. rewrite !Z.mul_0_l. reflexivity.
  - rewrite (wrap_small 64 (8 - small_of bs - 1)) by lia. replace (8 - small_of bs - 1) with (7 - small_of bs) by lia. reflexivity.
Qed.

Lemma f_bytes_bytef B n : let bs := bound_size B in 1 <= bs <= 64 -> 0 <= n <= 2 ^ 48 -> bs + Z.log2 n <= 64 -> f_bytes ByteF B n = bp bs n + 8.
Proof.
  intros bs Hb Hn HL. unfold f_bytes. fold bs. rewrite (wrap_small 64 (n + 1)) by lia.
  destruct (bytef_pos_ok bs n (n + 1) Hb HL ltac:(lia) ltac:(lia)) as (-> & BB). replace (n + 1 - 1) with n in * by lia. apply wrap_small. lia.
Qed.

Lemma acc_bytef sh B n : 0 <= B < 2 ^ 64 -> 0 <= n <= 2 ^ 48 -> bound_size B + Z.log2 n <= 64 ->
  acc sh ByteF B n [] [f_bytes ByteF B n] (geo_bytef (bound_size B)) /\ accf sh ByteF B n [] [f_bytes ByteF B n] (geo_bytef (bound_size B)).
Proof.
  intros HB0 Hn HL. destruct (bound_size_ok B HB0) as (_ & Hb & _). rewrite (f_bytes_bytef B n Hb Hn HL). set (bs := bound_size B) in *.
  assert (PO : forall i, 1 <= i <= n -> bytef_pos bs i = bp bs (i - 1) /\ 0 <= bp bs (i - 1) /\ bp bs (i - 1) + 8 <= bp bs n + 8).
  { intros i Hi. destruct (bytef_pos_ok bs n i Hb HL ltac:(lia) ltac:(lia)) as (E & R). pose proof (bp_mono bs n (i - 1) n Hb HL ltac:(lia) ltac:(lia)). split; [exact E|lia]. }
  assert (A : acc sh ByteF B n [] [bp bs n + 8] (geo_bytef bs)).
  { split.
    - split.
      + intros i Hi. cbn [ps pw geo_bytef]. destruct (PO i Hi). destruct (bp_step bs n i Hb HL Hi). lia.
      + intros i j Hi Hj _. left. cbn [ps pw geo_bytef]. destruct (bp_step bs n i Hb HL ltac:(lia)). pose proof (bp_mono bs n i (j - 1) Hb HL ltac:(lia) ltac:(lia)). lia.
    - intros i Hi. cbn. lia.
    - intros t i HS Hi. destruct (shape_len _ _ _ _ _ _ HS) as (EL & HB). destruct HS as (E1 & E2 & _). unfold node_get. rewrite E1, E2. fold bs.
      rewrite rho_ok by lia. cbn [bind]. destruct (PO i Hi) as (-> & P2 & P3). destruct (bp_step bs n i Hb HL Hi) as (_ & HH). rewrite byteread_ok by (auto; lia). reflexivity.
    - intros t i d HS Hi HA. destruct (shape_len _ _ _ _ _ _ HS) as (EL & HB). pose proof HS as (E1 & E2 & _). unfold node_add. rewrite E1, E2. fold bs.
      destruct (PO i Hi) as (-> & P2 & P3). destruct (bp_step bs n i Hb HL Hi) as (_ & HH).
      destruct (bytewrite_inc_ok (arr t 0) (bp bs (i - 1)) (heightsize bs (ht i)) d HB ltac:(lia) ltac:(lia) ltac:(lia) HA) as (m' & E & U).
      rewrite E. cbn [bind]. exists m'. split; [reflexivity|exact U]. }
  split; [exact A|]. split.
  - intros t i v HS Hi _ Hv. destruct (shape_len _ _ _ _ _ _ HS) as (EL & HB). pose proof HS as (E1 & E2 & _). unfold leaf_set. rewrite E1, E2. fold bs.
    rewrite rho_ok by lia. cbn [bind]. destruct (PO i Hi) as (-> & P2 & P3). destruct (bp_step bs n i Hb HL Hi) as (_ & HH).
    destruct (bytewrite_ok (arr t 0) (bp bs (i - 1)) (heightsize bs (ht i)) v HB ltac:(lia) ltac:(lia) ltac:(lia) Hv) as (m' & E & U).
    rewrite E. cbn [bind]. exists m'. split; [reflexivity|exact U].
  - intros t i j HS Hi Hj HA. destruct (shape_len _ _ _ _ _ _ HS) as (EL & HB). unfold node_combine. pose proof (ac_get A t i HS Hi) as G1. pose proof (ac_get A t j HS Hj) as G2.
    pose proof HS as (E1 & E2 & _). rewrite E1, E2, G1, G2. fold bs. cbn [bind]. rewrite rho_ok by lia. cbn [bind].
    destruct (PO i Hi) as (-> & P2 & P3). destruct (bp_step bs n i Hb HL Hi) as (_ & HH).
    assert (EU : u64 (cell (geo_bytef bs) t i + cell (geo_bytef bs) t j) = (cell (geo_bytef bs) t i + cell (geo_bytef bs) t j) mod 2 ^ pw (geo_bytef bs) i).
    { destruct HA as [->|HA]; [reflexivity|]. rewrite (Z.mod_small _ _ HA). apply wrap_small. cbn [pw geo_bytef] in HA.
      assert (2 ^ (8 * heightsize bs (ht i)) <= 2 ^ 64) by (apply Z.pow_le_mono_r; lia). lia. }
    assert (P8 : 0 <= pw (geo_bytef bs) i) by (cbn [pw geo_bytef]; lia).
    rewrite EU. destruct (bytewrite_ok (arr t 0) (bp bs (i - 1)) (heightsize bs (ht i)) ((cell (geo_bytef bs) t i + cell (geo_bytef bs) t j) mod 2 ^ pw (geo_bytef bs) i) HB ltac:(lia) ltac:(lia) ltac:(lia) (mod_range _ _ P8)) as (m' & E & U).
    rewrite E. cbn [bind]. exists m'. split; [reflexivity|exact U].
Qed.

(** ** TypeF *)
Definition tp (bs x : Z) : Z := x + x / 2 ^ (if bs <=? 8 then 9 - bs else 0) + x / 2 ^ (if bs <=? 16 then 17 - bs else 0) * 6.
Definition geo_typef (bs : Z) : geo := {| pa := fun _ => 0%nat; ps := fun i => 8 * tp bs (i - 1); pw := fun i => 8 * Z.of_nat (type_width (bs + ht i)) |}.

Lemma tp_bound bs x : 1 <= bs <= 64 -> 0 <= x -> 0 <= tp bs x <= 8 * x.
Proof.
  intros Hb Hx. unfold tp. pose proof (div_le_self (if bs <=? 8 then 9 - bs else 0) x ltac:(destruct (Z.leb_spec bs 8); lia) Hx).
  pose proof (div_le_self (if bs <=? 16 then 17 - bs else 0) x ltac:(destruct (Z.leb_spec bs 16); lia) Hx). lia.
Qed.

Lemma tp_mono bs x y : 1 <= bs <= 64 -> 0 <= x <= y -> tp bs x <= tp bs y.
Proof.
  intros Hb Hx. unfold tp. pose proof (div_mono (if bs <=? 8 then 9 - bs else 0) x y ltac:(destruct (Z.leb_spec bs 8); lia) ltac:(lia)).
  pose proof (div_mono (if bs <=? 16 then 17 - bs else 0) x y ltac:(destruct (Z.leb_spec bs 16); lia) ltac:(lia)).
  set (a := x / _) in *. set (b := y / _) in *. set (c := x / _) in *. set (d := y / _) in *. clearbody a b c d. lia.
Qed.

Lemma tp_step bs i : 1 <= bs -> 0 < i -> bs + ht i <= 64 -> tp bs (i - 1) + Z.of_nat (type_width (bs + ht i)) <= tp bs i /\ (1 <= type_width (bs + ht i) <= 8)%nat.
Proof.
  intros Hb Hi HL. unfold tp. pose proof (ht_nonneg i).
  rewrite (div_step (if bs <=? 8 then 9 - bs else 0) i), (div_step (if bs <=? 16 then 17 - bs else 0) i) by (try lia; destruct (Z.leb_spec bs 8), (Z.leb_spec bs 16); lia).
  set (a := (i - 1) / _). set (b := (i - 1) / _). clearbody a b. set (h := ht i) in *. clearbody h. unfold type_width.
  destruct (Z.leb_spec 17 (bs + h)), (Z.leb_spec (bs + h) 64), (Z.leb_spec 9 (bs + h)), (Z.leb_spec (bs + h) 16), (Z.leb_spec bs 8), (Z.leb_spec bs 16); cbn [andb]; try lia;
    repeat match goal with |- context [?x <=? h] => destruct (Z.leb_spec x h) end; lia.
Qed.

Lemma typef_pos_ok bs i : 1 <= bs <= 64 -> 1 <= i <= 2 ^ 48 + 1 -> typef_pos bs i = tp bs (i - 1).
Proof.
  intros Hb Hi. unfold typef_pos. rewrite (wrap_small 64 (i - 1)) by lia. replace (8 - bs + 1) with (9 - bs) by lia. replace (16 - bs + 1) with (17 - bs) by lia.
  rewrite !Z.shiftr_div_pow2 by (try destruct (Z.leb_spec bs 8); try destruct (Z.leb_spec bs 16); lia). fold (tp bs (i - 1)).
  apply wrap_small. pose proof (tp_bound bs (i - 1) Hb ltac:(lia)). lia.
Qed.

Lemma acc_typef sh B n : 0 <= B < 2 ^ 64 -> 0 <= n <= 2 ^ 48 -> bound_size B + Z.log2 n <= 64 ->
  acc sh TypeF B n [] [f_bytes TypeF B n] (geo_typef (bound_size B)) /\ accf sh TypeF B n [] [f_bytes TypeF B n] (geo_typef (bound_size B)).
Proof.
  intros HB0 Hn HL. destruct (bound_size_ok B HB0) as (_ & Hb & _). set (bs := bound_size B) in *.
  assert (EF : f_bytes TypeF B n = tp bs n).
  { unfold f_bytes. fold bs. rewrite (wrap_small 64 (n + 1)) by lia. rewrite typef_pos_ok by lia. f_equal. lia. }
  rewrite EF.
  assert (PO : forall i, 1 <= i <= n -> typef_pos bs i = tp bs (i - 1) /\ 0 <= tp bs (i - 1) /\ tp bs (i - 1) + Z.of_nat (type_width (bs + ht i)) <= tp bs n /\ (1 <= type_width (bs + ht i) <= 8)%nat).
  { intros i Hi. pose proof (ht_log i n Hi). destruct (tp_step bs i ltac:(lia) ltac:(lia) ltac:(lia)). pose proof (tp_mono bs i n Hb ltac:(lia)). pose proof (tp_bound bs (i - 1) Hb ltac:(lia)).
    split; [apply typef_pos_ok; lia|]. lia. }
  assert (A : acc sh TypeF B n [] [tp bs n] (geo_typef bs)).
  { split.
    - split.
      + intros i Hi. cbn [ps pw geo_typef]. destruct (PO i Hi) as (_ & ? & ? & ?). lia.
      + intros i j Hi Hj _. left. cbn [ps pw geo_typef]. pose proof (ht_log i n ltac:(lia)). destruct (tp_step bs i ltac:(lia) ltac:(lia) ltac:(lia)). pose proof (tp_mono bs i (j - 1) Hb ltac:(lia)). lia.
    - intros i Hi. cbn. lia.
    - intros t i HS Hi. destruct (shape_len _ _ _ _ _ _ HS) as (EL & HB). destruct HS as (E1 & E2 & _). unfold node_get. rewrite E1, E2. fold bs.
      rewrite rho_ok by lia. cbn [bind]. destruct (PO i Hi) as (-> & P2 & P3 & P4). rewrite load_field by (auto; lia). reflexivity.
    - intros t i d HS Hi HA. destruct (shape_len _ _ _ _ _ _ HS) as (EL & HB). pose proof HS as (E1 & E2 & _). unfold node_add. rewrite E1, E2. fold bs.
      rewrite rho_ok by lia. cbn [bind]. destruct (PO i Hi) as (-> & P2 & P3 & P4). rewrite load_field by (auto; lia). cbn [bind].
      destruct (bump_field (arr t 0) (tp bs (i - 1)) (type_width (bs + ht i)) d HB ltac:(lia) ltac:(lia)) as (m' & E & U).
      rewrite E. cbn [bind]. exists m'. split; [reflexivity|exact U]. }
  split; [exact A|]. split.
  - intros t i v HS Hi _ Hv. destruct (shape_len _ _ _ _ _ _ HS) as (EL & HB). pose proof HS as (E1 & E2 & _). unfold leaf_set. rewrite E1, E2. fold bs.
    rewrite rho_ok by lia. cbn [bind]. destruct (PO i Hi) as (-> & P2 & P3 & P4).
    destruct (store_field (arr t 0) (tp bs (i - 1)) (type_width (bs + ht i)) v HB ltac:(lia) ltac:(lia) Hv) as (m' & E & U).
    rewrite E. cbn [bind]. exists m'. split; [reflexivity|exact U].
  - intros t i j HS Hi Hj HA. eapply acc_comb; eauto. discriminate.
Qed.

(** ** BitF *)
Lemma pop_pred i : 0 < i -> hpopcount (i - 1) = hpopcount i - 1 + ht i.
Proof.
  destruct i as [|p|]; try lia. intros _. induction p as [p IH|p IH|].
  - change (Z.pos p~1 - 1) with (Z.pos p~0). cbn [hpopcount popcount_pos ht ctz_pos]. lia.
  - replace (Z.pos p~0 - 1) with (2 * (Z.pos p - 1) + 1) by lia. cbn [hpopcount popcount_pos ht ctz_pos] in *.
    destruct (Z.pos p - 1) as [|q|q] eqn:E; [|change (2 * Z.pos q + 1) with (Z.pos q~1); cbn [hpopcount popcount_pos] in *; lia|lia].
    change (2 * 0 + 1) with 1. change (hpopcount 1) with 1. change (hpopcount 0) with 0 in IH. lia.
  - reflexivity.
Qed.

Lemma pop_pos_log p : 1 <= popcount_pos p <= Z.log2 (Z.pos p) - ctz_pos p + 1 /\ 0 <= ctz_pos p.
Proof.
  induction p as [p IH|p IH|]; cbn [popcount_pos ctz_pos].
  - rewrite (Pos2Z.inj_xI p), Z.log2_succ_double by lia. lia.
  - rewrite (Pos2Z.inj_xO p), Z.log2_double by lia. lia.
  - cbn. lia.
Qed.

Lemma pop_bound i : 0 < i -> 1 <= hpopcount i <= Z.log2 i - ht i + 1.
Proof. destruct i as [|p|]; try lia. intros _. apply pop_pos_log. Qed.

Lemma pop_le x : 0 <= x -> 0 <= hpopcount x <= x.
Proof.
  destruct x as [|p|]; try lia; intros _; [cbn; lia|]. cbn [hpopcount]. induction p as [p IH|p IH|]; cbn [popcount_pos]; lia.
Qed.

Definition fba (bs x : Z) : Z := (bs + 1) * x - hpopcount x + 1 + x / 2 ^ 14 * 64.
Definition geo_bitf (bs : Z) : geo := {| pa := fun _ => 0%nat; ps := fun i => fba bs (i - 1); pw := fun i => bs + ht i |}.

Lemma fba_bound bs x : 1 <= bs <= 64 -> 0 <= x <= 2 ^ 48 -> 1 <= fba bs x <= 2 ^ 56.
Proof. intros Hb Hx. unfold fba. pose proof (pop_le x ltac:(lia)). assert (x <= bs * x <= 64 * x) by nia. lia. Qed.

Lemma fba_ok bs x : 1 <= bs <= 64 -> 0 <= x <= 2 ^ 48 -> first_bit_after bs x = fba bs x.
Proof.
  intros Hb Hx. unfold first_bit_after, bitf_holes. rewrite Z.shiftr_div_pow2 by lia. pose proof (fba_bound bs x Hb Hx). unfold fba in *. rewrite wrap_small; lia.
Qed.

Lemma fba_step bs i : 0 < i -> fba bs (i - 1) + (bs + ht i) <= fba bs i.
Proof. intros Hi. unfold fba. rewrite pop_pred by auto. pose proof (div_mono 14 (i - 1) i ltac:(lia) ltac:(lia)). lia. Qed.

Lemma fba_mono bs x y : 1 <= bs -> 0 <= x <= y -> fba bs x <= fba bs y.
Proof.
  intros Hb Hx. replace y with (x + Z.of_nat (Z.to_nat (y - x))) by lia. set (k := Z.to_nat (y - x)). clearbody k.
  induction k as [|k IH]; [rewrite Z.add_0_r; lia|]. pose proof (fba_step bs (x + Z.of_nat (S k)) ltac:(lia)) as ST.
  replace (x + Z.of_nat (S k) - 1) with (x + Z.of_nat k) in ST by lia. pose proof (ht_nonneg (x + Z.of_nat (S k))). lia.
Qed.

(** A number whose node ends at bit e of its 64-bit word. *)
Lemma bitf_word bs n i : 1 <= bs -> bs + Z.log2 n <= 64 -> 1 <= i <= n -> ((bs + 1) * i) mod 64 = 0 ->
  fba bs (i - 1) mod 64 + (bs + ht i) <= 64.
Proof.
  intros Hb HL Hi HM. pose proof (pop_bound i ltac:(lia)) as PB. pose proof (Z.log2_le_mono i n ltac:(lia)) as LM. pose proof (ht_nonneg i).
  unfold fba. rewrite pop_pred by lia.
  replace ((bs + 1) * (i - 1) - (hpopcount i - 1 + ht i) + 1 + (i - 1) / 2 ^ 14 * 64)
    with ((bs + 1) * i - (bs + ht i + hpopcount i - 1) + (i - 1) / 2 ^ 14 * 64) by ring.
  set (X := (bs + 1) * i) in *. set (Y := (i - 1) / 2 ^ 14) in *. set (L := bs + ht i) in *. set (p := hpopcount i) in *. clearbody X Y p. clear Hi. lia.
Qed.

Lemma pow_mod64 k x : 0 <= k -> (2 ^ (6 + k) * x) mod 64 = 0.
Proof. intros. rewrite Z.pow_add_r by lia. change (2 ^ 6) with 64. rewrite <- Z.mul_assoc, Z.mul_comm. apply Z_mod_mult. Qed.

Lemma bitf_byte bs n i : 1 <= bs <= 55 -> bs + Z.log2 n <= 64 -> 1 <= i <= n -> ((bs + 1) * i) mod 64 <> 0 ->
  fba bs (i - 1) mod 8 + (bs + ht i) <= 64.
Proof.
  intros Hb HL Hi HM. destruct (Z_le_gt_dec (bs + ht i) 57) as [LE|GT]; [lia|].
  pose proof (pop_bound i ltac:(lia)) as PB. pose proof (Z.log2_le_mono i n ltac:(lia)) as LM. pose proof (ht_nonneg i) as HN.
  destruct (ht_split i ltac:(lia)) as (q & Hq & E). unfold low in E.
  assert (H6 : ht i < 6).
  { destruct (Z_lt_le_dec (ht i) 6); auto. exfalso. apply HM. rewrite E. replace (ht i) with (6 + (ht i - 6)) by lia.
    replace ((bs + 1) * (2 ^ (6 + (ht i - 6)) * (2 * q + 1))) with (2 ^ (6 + (ht i - 6)) * ((bs + 1) * (2 * q + 1))) by ring. apply pow_mod64. lia. }
  unfold fba. rewrite pop_pred by lia. set (p := hpopcount i) in *. set (h := ht i) in *. clearbody p h. set (Y := (i - 1) / 2 ^ 14). clearbody Y.
  assert (C : (bs = 53 /\ h = 5) \/ (bs = 54 /\ (h = 4 \/ h = 5)) \/ (bs = 55 /\ (h = 3 \/ h = 4 \/ h = 5))) by lia.
  destruct C as [(-> & ->)|[(-> & [->| ->])|(-> & [->|[->| ->]])]]; change (2 ^ 5) with 32 in *; change (2 ^ 4) with 16 in *; change (2 ^ 3) with 8 in *; lia.
Qed.

Lemma acc_bitf sh B n : 0 <= B < 2 ^ 64 -> 0 <= n <= 2 ^ 48 -> bound_size B <= 55 -> bound_size B + Z.log2 n <= 63 ->
  acc sh BitF B n [] [f_bytes BitF B n] (geo_bitf (bound_size B)) /\ accf sh BitF B n [] [f_bytes BitF B n] (geo_bitf (bound_size B)).
Proof.
  intros HB0 Hn H55 HL. destruct (bound_size_ok B HB0) as (_ & Hb & _). set (bs := bound_size B) in *.
  assert (EF : f_bytes BitF B n = (fba bs n + 63) / 8).
  { unfold f_bytes. fold bs. rewrite fba_ok by lia. pose proof (fba_bound bs n Hb Hn). rewrite wrap_small by lia. rewrite Z.shiftr_div_pow2 by lia. f_equal. lia. }
  rewrite EF.
  (* the word that holds node i *)
  assert (PO : forall i, 1 <= i <= n -> exists p r, (if u64 (u64 ((bs + 1) * u64 (i - 1)) + (bs + 1)) mod 64 =? 0
        then (first_bit_after bs (u64 (i - 1)) / 64 * 8, first_bit_after bs (u64 (i - 1)) mod 64)
        else (first_bit_after bs (u64 (i - 1)) / 8, first_bit_after bs (u64 (i - 1)) mod 8)) = (p, r) /\
      8 * p + r = fba bs (i - 1) /\ 0 <= p /\ p + 8 <= (fba bs n + 63) / 8 /\ 0 <= r < 64 /\ r + (bs + ht i) <= 64).
  { intros i Hi. rewrite (wrap_small 64 (i - 1)) by lia. rewrite (wrap_small 64 ((bs + 1) * (i - 1))) by nia.
    replace ((bs + 1) * (i - 1) + (bs + 1)) with ((bs + 1) * i) by ring. rewrite (wrap_small 64 ((bs + 1) * i)) by nia. rewrite fba_ok by lia.
    pose proof (fba_bound bs (i - 1) Hb ltac:(lia)) as FB. pose proof (fba_step bs i ltac:(lia)) as FS. pose proof (fba_mono bs i n ltac:(lia) ltac:(lia)) as FM. pose proof (ht_nonneg i).
    destruct (Z.eqb_spec (((bs + 1) * i) mod 64) 0) as [E|E].
    - pose proof (bitf_word bs n i ltac:(lia) ltac:(lia) Hi E) as BW. set (x := fba bs (i - 1)) in *. set (y := fba bs n) in *. set (z := fba bs i) in *. clearbody x y z. eexists _, _. split; [reflexivity|]. lia.
    - pose proof (bitf_byte bs n i ltac:(lia) ltac:(lia) Hi E) as BW. set (x := fba bs (i - 1)) in *. set (y := fba bs n) in *. set (z := fba bs i) in *. clearbody x y z. eexists _, _. split; [reflexivity|]. lia. }
  assert (MK : forall i, 1 <= i <= n -> shl 1 (bs + ht i) = Ok (2 ^ (bs + ht i)) /\ u64 (2 ^ (bs + ht i) - 1) = 2 ^ (bs + ht i) - 1).
  { intros i Hi. pose proof (ht_log i n Hi).
    assert (2 ^ (bs + ht i) <= 2 ^ 63) by (apply Z.pow_le_mono_r; lia). assert (0 < 2 ^ (bs + ht i)) by (apply Z.pow_pos_nonneg; lia).
    rewrite shl_ok by lia. rewrite Z.mul_1_l, !wrap_small by lia. auto. }
  assert (A : acc sh BitF B n [] [(fba bs n + 63) / 8] (geo_bitf bs)).
  { split.
    - split.
      + intros i Hi. cbn [ps pw geo_bitf]. pose proof (fba_bound bs (i - 1) Hb ltac:(lia)). pose proof (ht_log i n Hi). lia.
      + intros i j Hi Hj _. left. cbn [ps pw geo_bitf]. pose proof (fba_step bs i ltac:(lia)). pose proof (fba_mono bs i (j - 1) ltac:(lia) ltac:(lia)). lia.
    - intros i Hi. cbn. lia.
    - intros t i HS Hi. destruct (shape_len _ _ _ _ _ _ HS) as (EL & HB). destruct HS as (E1 & E2 & _). unfold node_get. rewrite E1, E2. fold bs.
      rewrite rho_ok by lia. cbn [bind]. destruct (MK i Hi) as (-> & M2). cbn [bind]. rewrite M2. pose proof (ht_nonneg i).
      destruct (PO i Hi) as (p & r & EP & P1 & P2 & P3 & P4 & P5).
      destruct (word_get (arr t 0) p 8 r (bs + ht i) HB P2 ltac:(lia) ltac:(lia) ltac:(lia) ltac:(lia)) as (W1 & W2 & _). rewrite P1 in W2.
      unfold cell. cbn [pa ps pw geo_bitf]. rewrite <- W2.
      destruct (u64 (u64 ((bs + 1) * u64 (i - 1)) + (bs + 1)) mod 64 =? 0); injection EP as -> ->; rewrite W1; reflexivity.
    - intros t i d HS Hi HA. destruct (shape_len _ _ _ _ _ _ HS) as (EL & HB). pose proof HS as (E1 & E2 & _). unfold node_add. rewrite E1, E2. fold bs. pose proof (ht_nonneg i).
      destruct (PO i Hi) as (p & r & EP & P1 & P2 & P3 & P4 & P5). rewrite EP. rewrite load_ok by lia. cbn [bind]. rewrite shl_ok by lia. cbn [bind].
      unfold cell in *. cbn [pa ps pw geo_bitf] in *. rewrite <- P1 in *.
      destruct (add64 (arr t 0) p r (bs + ht i) d HB P2 ltac:(lia) ltac:(lia) ltac:(lia) P5 HA) as (m' & E & U).
      rewrite E. cbn [bind]. exists m'. split; [reflexivity|exact U]. }
  split; [exact A|]. split.
  - intros t i v HS Hi H0 Hv. destruct (ac_add A t i v HS Hi) as (m' & E & U); [right; rewrite H0; exact Hv|].
    exists m'. rewrite H0, Z.add_0_l, Z.mod_small in U by exact Hv. split; [|exact U]. unfold leaf_set. pose proof HS as (E1 & _). rewrite E1. exact E.
  - intros t i j HS Hi Hj HA. eapply acc_comb; eauto. discriminate.
Qed.
