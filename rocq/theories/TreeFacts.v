(** Correctness of sum, update and search of the two segment trees. *)
From Verif Require Import Base BaseFacts Mem MemFacts Tables Nodes NodeFacts SearchFacts Trees LevelFacts RootFacts.
Ltac Zify.zify_post_hook ::= Z.div_mod_to_equations.

(** Levels of a tree over [n] counters, root first, starting at [p]. *)
Definition levels_inv (f : fam) (H : nat) (n : Z) (v : tview) (A G : Z -> Z) : Prop :=
  let m := v_mem v in let p := v_ptr v in
  match f, H with
  | F2, 1%nat => n <= 2 ^ 7 /\ level_inv A2_128 (cdiv n 128) p m (V_leaf 128 G)
  | F2, 2%nat => n <= 2 ^ 13 /\ level_inv A2_64 1 p m (V_in 64 128 A) /\
      level_inv A2_128 (cdiv n 128) (p + 288) m (V_leaf 128 G)
  | F2, 3%nat => n <= 2 ^ 19 /\ v_nn v 1 = Ok (cdiv n 8192) /\
      level_inv A2_64 1 p m (V_in 64 8192 A) /\
      level_inv A2_64 (cdiv n 8192) (p + 288) m (V_in 64 128 A) /\
      level_inv A2_128 (cdiv n 128) (p + 288 + cdiv n 8192 * 288) m (V_leaf 128 G)
  | F2, 4%nat => n <= 2 ^ 24 /\ v_nn v 1 = Ok (cdiv n 524288) /\ v_nn v 2 = Ok (cdiv n 8192) /\
      level_inv A2_32 1 p m (V_in 32 524288 A) /\
      level_inv A2_64 (cdiv n 524288) (p + 160) m (V_in 64 8192 A) /\
      level_inv A2_64 (cdiv n 8192) (p + 160 + cdiv n 524288 * 288) m (V_in 64 128 A) /\
      level_inv A2_128 (cdiv n 128) (p + 160 + cdiv n 524288 * 288 + cdiv n 8192 * 288) m (V_leaf 128 G)
  | F5, 1%nat => n <= 2 ^ 9 /\ level_inv A5_512 (cdiv n 512) p m (V_leaf 512 G)
  | F5, 2%nat => n <= 2 ^ 17 /\ level_inv A5_256 1 p m (V_in 256 512 A) /\
      level_inv A5_512 (cdiv n 512) (p + 1088) m (V_leaf 512 G)
  | F5, 3%nat => n <= 2 ^ 24 /\ v_nn v 1 = Ok (cdiv n 131072) /\
      level_inv A5_128 1 p m (V_in 128 131072 A) /\
      level_inv A5_256 (cdiv n 131072) (p + 576) m (V_in 256 512 A) /\
      level_inv A5_512 (cdiv n 512) (p + 576 + cdiv n 131072 * 1088) m (V_leaf 512 G)
  | _, _ => False
  end.

(** The tree stores the counters [A 0 .. A (n-1)], each at most [mx]. *)
Definition tinv (f : fam) (H : nat) (mx n : Z) (v : tview) (A : Z -> Z) : Prop :=
  v_size v = n /\ 1 <= n <= 2 ^ 24 /\ mx <= 512 /\ (forall i, 0 <= A i <= mx) /\ (forall i, n <= i -> A i = 0) /\
  exists G, (forall i, 0 <= G i <= mx) /\ (forall i, 0 <= i < n -> G i = A i) /\ levels_inv f H n v A G.

Lemma sumf_eq f a b a' b' : a = a' -> b = b' -> sumf f a b = sumf f a' b'.
Proof. intros -> ->; reflexivity. Qed.

Lemma tinv_bound f H mx n v A i j : tinv f H mx n v A -> 0 <= i <= j -> j <= 2 ^ 26 -> 0 <= sumf A i j < 2 ^ 36.
Proof.
  intros (_ & Hn & Hmx & HA & A0 & _) H1 H2.
  pose proof (sumf_bound A mx i j ltac:(lia) (fun i _ => HA i)). nia.
Qed.

Lemma inner_sum' c N cnt q m F S A mx k t a : level_inv N cnt q m (V_in F S A) -> F = fan N -> (forall i, 0 <= A i <= mx) -> 0 <= S ->
  mx * S * nd_seg (desc N) < 2 ^ kbits (desc N) -> mx * S * fan N < 2 ^ sbits (desc N) ->
  0 <= k < cnt -> 0 <= t < fan N -> a = q + k * bytes_of N ->
  node_sum c N m a t = Ok (sumf A (k * fan N * S) ((k * fan N + t) * S)).
Proof. intros L -> HA HS B1 B2 Hk Ht ->. eapply inner_sum_ok; eauto. Qed.

Lemma leaf_sum' c N cnt q m F G A mx k t a n : level_inv N cnt q m (V_leaf F G) -> F = fan N -> (forall i, 0 <= G i <= mx) ->
  (forall i, 0 <= i < n -> G i = A i) ->
  mx * nd_seg (desc N) < 2 ^ kbits (desc N) -> mx * fan N < 2 ^ sbits (desc N) ->
  0 <= k < cnt -> 0 <= t < fan N -> k * fan N + t < n -> a = q + k * bytes_of N ->
  node_sum c N m a t = Ok (sumf A (k * fan N) (k * fan N + t + 1)).
Proof.
  intros L -> HG GA B1 B2 Hk Ht Hn ->. rewrite (leaf_sum_ok c N cnt q m G mx k t) by auto. f_equal.
  apply sumf_ext. intros; apply GA. pose proof (fan_pos N). nia.
Qed.

Ltac bytes := change (bytes_of A2_128) with 288 in *; change (bytes_of A2_64) with 288 in *; change (bytes_of A2_32) with 160 in *;
  change (bytes_of A5_512) with 1088 in *; change (bytes_of A5_256) with 1088 in *; change (bytes_of A5_128) with 576 in *.
Ltac consts := bytes;
  change (fan A2_128) with 128 in *; change (fan A2_64) with 64 in *; change (fan A2_32) with 32 in *;
  change (fan A5_512) with 512 in *; change (fan A5_256) with 256 in *; change (fan A5_128) with 128 in *;
  change (nd_seg (desc A2_128)) with 16 in *; change (nd_seg (desc A2_64)) with 8 in *; change (nd_seg (desc A2_32)) with 8 in *;
  change (nd_seg (desc A5_512)) with 32 in *; change (nd_seg (desc A5_256)) with 16 in *; change (nd_seg (desc A5_128)) with 16 in *;
  change (kbits (desc A2_128)) with 16 in *; change (kbits (desc A2_64)) with 32 in *; change (kbits (desc A2_32)) with 32 in *;
  change (kbits (desc A5_512)) with 16 in *; change (kbits (desc A5_256)) with 32 in *; change (kbits (desc A5_128)) with 32 in *;
  change (sbits (desc A2_128)) with 32 in *; change (sbits (desc A2_64)) with 32 in *; change (sbits (desc A2_32)) with 64 in *;
  change (sbits (desc A5_512)) with 32 in *; change (sbits (desc A5_256)) with 32 in *; change (sbits (desc A5_128)) with 64 in *.
Ltac side := consts; unfold cdiv in *; first [reflexivity | lia].

(** Offsets of existing nodes do not wrap. *)
Ltac nowrap := repeat match goal with
  | |- context [wrap 64 (?e * nd_bytes (desc ?N))] => rewrite (wrap_small 64 (e * nd_bytes (desc N))) by side
  end.
Ltac lits := cbv zeta; change (128 * 64 * 64) with 524288; change (128 * 64) with 8192; change (512 * 256) with 131072.

Lemma tree_sum_ok c f H mx n v A i : tinv f H mx n v A -> 0 <= i < n ->
  tree_sum c f H v i = Ok (sumf A 0 (i + 1)).
Proof.
  intros T Hi. pose proof T as (Hs & Hn & Hmx & HA & A0 & G & HG & GA & L).
  assert (HB : forall a b, 0 <= a <= b -> b <= 2 ^ 26 -> 0 <= sumf A a b < 2 ^ 36) by (intros; eapply tinv_bound; eauto).
  pose proof (HA 0) as H0.
  assert (W : u64 (sumf A 0 (i + 1)) = sumf A 0 (i + 1)).
  { apply wrap_small. pose proof (HB 0 (i + 1) ltac:(lia) ltac:(lia)). lia. }
  unfold tree_sum. rewrite massert_true by lia. cbn [bind].
  destruct f, H as [|[|[|[|[|H]]]]]; cbn [levels_inv] in L; try contradiction; lits.
  - destruct L as (Hb & L0).
    rewrite (leaf_sum' c A2_128 _ _ _ _ G A mx 0 i (v_ptr v) n L0); auto; try side.
  - destruct L as (Hb & L1 & L0). nowrap.
    rewrite (inner_sum' c A2_64 _ _ _ _ _ A mx 0 (i / 128) (v_ptr v) L1); auto; try side. cbn [bind].
    rewrite (leaf_sum' c A2_128 _ _ _ _ G A mx (i / 128) (i mod 128) _ n L0); auto; try side. cbn [bind].
    consts. f_equal. rewrite <- W. f_equal.
    rewrite (sumf_split A 0 (i / 128 * 128) (i + 1)) by lia. f_equal; apply sumf_eq; lia.
  - destruct L as (Hb & N1 & L2 & L1 & L0). rewrite N1. cbn [bind]. nowrap.
    rewrite (inner_sum' c A2_64 _ _ _ _ _ A mx 0 (i / 8192) (v_ptr v) L2); auto; try side. cbn [bind].
    rewrite (inner_sum' c A2_64 _ _ _ _ _ A mx (i / 8192) (i mod 8192 / 128) _ L1); auto; try side. cbn [bind].
    rewrite (wrap_small 32) by side.
    rewrite (leaf_sum' c A2_128 _ _ _ _ G A mx (i / 128) (i mod 8192 mod 128) _ n L0); auto; try side. cbn [bind].
    consts. f_equal. rewrite <- W. f_equal.
    rewrite (sumf_split A 0 (i / 8192 * 8192) (i + 1)) by lia.
    rewrite (sumf_split A (i / 8192 * 8192) (i / 128 * 128) (i + 1)) by lia.
    rewrite Z.add_assoc. f_equal; [f_equal|]; apply sumf_eq; lia.
  - destruct L as (Hb & N1 & N2 & L3 & L2 & L1 & L0). rewrite N1, N2. cbn [bind]. nowrap.
    rewrite (inner_sum' c A2_32 _ _ _ _ _ A mx 0 (i / 524288) (v_ptr v) L3); auto; try side. cbn [bind].
    rewrite (inner_sum' c A2_64 _ _ _ _ _ A mx (i / 524288) (i mod 524288 / 8192) _ L2); auto; try side. cbn [bind].
    rewrite (inner_sum' c A2_64 _ _ _ _ _ A mx (i / 8192) (i mod 8192 / 128) _ L1); auto; try side. cbn [bind].
    rewrite (wrap_small 32) by side.
    rewrite (leaf_sum' c A2_128 _ _ _ _ G A mx (i / 128) (i mod 8192 mod 128) _ n L0); auto; try side. cbn [bind].
    consts. f_equal. rewrite <- W. f_equal.
    rewrite (sumf_split A 0 (i / 524288 * 524288) (i + 1)) by lia.
    rewrite (sumf_split A (i / 524288 * 524288) (i / 8192 * 8192) (i + 1)) by lia.
    rewrite (sumf_split A (i / 8192 * 8192) (i / 128 * 128) (i + 1)) by lia.
    rewrite !Z.add_assoc. f_equal; [f_equal; [f_equal|]|]; apply sumf_eq; lia.
  - destruct L as (Hb & L0).
    rewrite (leaf_sum' c A5_512 _ _ _ _ G A mx 0 i (v_ptr v) n L0); auto; try side.
  - destruct L as (Hb & L1 & L0). nowrap.
    rewrite (inner_sum' c A5_256 _ _ _ _ _ A mx 0 (i / 512) (v_ptr v) L1); auto; try side. cbn [bind].
    rewrite (leaf_sum' c A5_512 _ _ _ _ G A mx (i / 512) (i mod 512) _ n L0); auto; try side. cbn [bind].
    consts. f_equal. rewrite <- W. f_equal.
    rewrite (sumf_split A 0 (i / 512 * 512) (i + 1)) by lia. f_equal; apply sumf_eq; lia.
  - destruct L as (Hb & N1 & L2 & L1 & L0). rewrite N1. cbn [bind]. nowrap.
    rewrite (inner_sum' c A5_128 _ _ _ _ _ A mx 0 (i / 131072) (v_ptr v) L2); auto; try side. cbn [bind].
    rewrite (inner_sum' c A5_256 _ _ _ _ _ A mx (i / 131072) (i mod 131072 / 512) _ L1); auto; try side. cbn [bind].
    rewrite (leaf_sum' c A5_512 _ _ _ _ G A mx (i / 512) (i mod 131072 mod 512) _ n L0); auto; try side. cbn [bind].
    consts. f_equal. rewrite <- W. f_equal.
    rewrite (sumf_split A 0 (i / 131072 * 131072) (i + 1)) by lia.
    rewrite (sumf_split A (i / 131072 * 131072) (i / 512 * 512) (i + 1)) by lia.
    rewrite Z.add_assoc. f_equal; [f_equal|]; apply sumf_eq; lia.
Qed.

(** The index buffer is placed so that the aligned loads of avx2 node128 succeed. *)
Definition align_ok (c : cfg) (f : fam) (a : Z) : Prop :=
  f = F2 -> c_avx2 c = true -> c_trap c = true -> a mod 32 = 0.

Lemma inner_update' c base N cnt q m F S A i sign a t : level_inv N cnt q m (V_in F S A) -> F = fan N ->
  0 < S -> 0 <= i -> i / (F * S) < cnt -> N <> A2_128 ->
  a = q + i / (F * S) * bytes_of N -> t = (i / S) mod F + 1 ->
  exists m', node_update c base N m a t sign = Ok m' /\
    level_inv N cnt q m' (V_in F S (fadd A i (sdelta sign))) /\ frame m m' q (q + cnt * bytes_of N).
Proof. intros L -> HS Hi Hc NL -> ->. apply inner_update_ok; auto. Qed.

Lemma leaf_update' c base N cnt q m F G i sign a t : level_inv N cnt q m (V_leaf F G) -> F = fan N ->
  0 <= i -> i / F < cnt -> a = q + i / F * bytes_of N -> t = i mod F -> al_ok c N base a ->
  exists m', node_update c base N m a t sign = Ok m' /\
    level_inv N cnt q m' (V_leaf F (fadd G i (sdelta sign))) /\ frame m m' q (q + cnt * bytes_of N).
Proof. intros L -> Hi Hc -> -> AL. apply leaf_update_ok; auto. Qed.

(** [v'] is [v] after the buffer became [m']. *)
Definition view_upd (H : nat) (v v' : tview) (m' : list Z) : Prop :=
  v_size v' = v_size v /\ v_ptr v' = v_ptr v /\ v_mem v' = m' /\
  (forall k, 0 <= k < Z.of_nat H -> v_nn v' k = v_nn v k).

Ltac aligned A :=
  intros _ X1 X2; specialize (A eq_refl X1 X2); bytes; lia.

Lemma tree_update_ok c f H mx n v A i sign : tinv f H mx n v A -> 0 <= i < n ->
  0 <= A i + sdelta sign <= mx -> align_ok c f (v_base v + v_ptr v) ->
  exists m', tree_update c f H v i sign = Ok m' /\ frame (v_mem v) m' (v_ptr v) (zlen (v_mem v)) /\
    forall v', view_upd H v v' m' -> tinv f H mx n v' (fadd A i (sdelta sign)).
Proof.
  intros T Hi HD AL. pose proof T as (Hs & Hn & Hmx & HA & A0 & G & HG & GA & L).
  unfold tree_update. rewrite massert_true by lia. cbn [bind].
  set (A' := fadd A i (sdelta sign)). set (G' := fadd G i (sdelta sign)).
  assert (TI : forall v', (exists m', view_upd H v v' m') -> levels_inv f H n v' A' G' -> tinv f H mx n v' A').
  { intros v' (m' & E & _) L'. split; [congruence|]. split; [lia|]. split; [lia|]. split; [|split].
    - intros t. unfold A', fadd. destruct (Z.eqb_spec t i) as [->|]; auto.
    - intros t Ht. unfold A', fadd. destruct (Z.eqb_spec t i) as [->|]; [lia|auto].
    - exists G'. split; [|split]; auto.
      + intros t. unfold G', fadd. destruct (Z.eqb_spec t i) as [->|]; auto. rewrite GA by lia. auto.
      + intros t Ht. unfold G', A', fadd. destruct (Z.eqb_spec t i) as [->|]; rewrite GA by lia; auto. }
  destruct f, H as [|[|[|[|[|H]]]]]; cbn [levels_inv] in L; try contradiction; lits.
  - destruct L as (Hb & L0).
    destruct (leaf_update' c (v_base v) A2_128 _ _ _ _ _ i sign (v_ptr v) i L0) as (m1 & -> & L0' & F0); try side.
    { aligned AL. }
    exists m1. split; [reflexivity|]. split.
    { eapply frame_weaken; [exact F0|lia|apply L0]. }
    intros v' U. apply TI; [eauto|]. destruct U as (U1 & U2 & U3 & U4). cbn [levels_inv]. rewrite U2, U3. auto.
  - destruct L as (Hb & L1 & L0). nowrap.
    destruct (inner_update' c (v_base v) A2_64 _ _ _ _ _ _ i sign (v_ptr v) (i / 128 + 1) L1)
      as (m1 & -> & L1' & F1); try side; [discriminate|]. cbn [bind].
    apply (level_frame _ _ _ _ m1 _ _ _ L0) in F1 as L0a; [|side].
    destruct (leaf_update' c (v_base v) A2_128 _ _ _ _ _ i sign (v_ptr v + bytes_of A2_64 + i / 128 * bytes_of A2_128) (i mod 128) L0a)
      as (m2 & -> & L0' & F2); try side.
    { aligned AL. }
    apply (level_frame _ _ _ _ m2 _ _ _ L1') in F2 as L1b; [|side].
    exists m2. split; [reflexivity|]. split.
    { destruct L0 as (? & ? & _), L1 as (? & ? & _), L0a as (? & ? & _).
      eapply frame_trans; (eapply frame_weaken; [eassumption|bytes; lia|bytes; lia]). }
    intros v' U. apply TI; [eauto|]. destruct U as (U1 & U2 & U3 & U4). cbn [levels_inv]. rewrite U2, U3. auto.
  - destruct L as (Hb & N1 & L2 & L1 & L0). rewrite N1. cbn [bind]. nowrap.
    destruct (inner_update' c (v_base v) A2_64 _ _ _ _ _ _ i sign (v_ptr v) (i / 8192 + 1) L2)
      as (m1 & -> & L2' & FR1); try side; [discriminate|]. cbn [bind].
    apply (level_frame _ _ _ _ m1 _ _ _ L1) in FR1 as L1a; [|side].
    apply (level_frame _ _ _ _ m1 _ _ _ L0) in FR1 as L0a; [|side].
    destruct (inner_update' c (v_base v) A2_64 _ _ _ _ _ _ i sign (v_ptr v + (i / 8192 + 1) * bytes_of A2_64) (i mod 8192 / 128 + 1) L1a)
      as (m2 & -> & L1' & FR2); try side; [discriminate|]. cbn [bind].
    apply (level_frame _ _ _ _ m2 _ _ _ L2') in FR2 as L2b; [|side].
    apply (level_frame _ _ _ _ m2 _ _ _ L0a) in FR2 as L0b; [|side].
    rewrite (wrap_small 32) by side.
    destruct (leaf_update' c (v_base v) A2_128 _ _ _ _ _ i sign (v_ptr v + (1 + cdiv n 8192) * bytes_of A2_64
        + (i mod 8192 / 128 + i / 8192 * 64) * bytes_of A2_128) (i mod 8192 mod 128) L0b)
      as (m3 & -> & L0' & FR3); try side.
    { aligned AL. }
    apply (level_frame _ _ _ _ m3 _ _ _ L2b) in FR3 as L2c; [|side].
    apply (level_frame _ _ _ _ m3 _ _ _ L1') in FR3 as L1c; [|side].
    exists m3. split; [reflexivity|]. split.
    { assert (E1 : zlen m1 = zlen (v_mem v)) by apply FR1. assert (E2 : zlen m2 = zlen m1) by apply FR2.
      destruct L0 as (? & ? & _), L1 as (? & ? & _), L2 as (? & ? & _). unfold cdiv in *.
      eapply frame_trans; [eapply frame_trans|]; (eapply frame_weaken; [eassumption|bytes; lia|bytes; lia]). }
    intros v' U. apply TI; [eauto|]. destruct U as (U1 & U2 & U3 & U4). cbn [levels_inv].
    rewrite U2, U3, U4 by lia. auto 10.
  - destruct L as (Hb & N1 & N2 & L3 & L2 & L1 & L0). rewrite N1, N2. cbn [bind]. nowrap.
    destruct (inner_update' c (v_base v) A2_32 _ _ _ _ _ _ i sign (v_ptr v) (i / 524288 + 1) L3)
      as (m1 & -> & L3' & FR1); try side; [discriminate|]. cbn [bind].
    apply (level_frame _ _ _ _ m1 _ _ _ L2) in FR1 as L2a; [|side].
    apply (level_frame _ _ _ _ m1 _ _ _ L1) in FR1 as L1a; [|side].
    apply (level_frame _ _ _ _ m1 _ _ _ L0) in FR1 as L0a; [|side].
    destruct (inner_update' c (v_base v) A2_64 _ _ _ _ _ _ i sign (v_ptr v + bytes_of A2_32 + i / 524288 * bytes_of A2_64)
        (i mod 524288 / 8192 + 1) L2a)
      as (m2 & -> & L2' & FR2); try side; [discriminate|]. cbn [bind].
    apply (level_frame _ _ _ _ m2 _ _ _ L3') in FR2 as L3b; [|side].
    apply (level_frame _ _ _ _ m2 _ _ _ L1a) in FR2 as L1b; [|side].
    apply (level_frame _ _ _ _ m2 _ _ _ L0a) in FR2 as L0b; [|side].
    destruct (inner_update' c (v_base v) A2_64 _ _ _ _ _ _ i sign (v_ptr v + bytes_of A2_32 + cdiv n 524288 * bytes_of A2_64
        + (i mod 524288 / 8192 + i / 524288 * 64) * bytes_of A2_64) (i mod 8192 / 128 + 1) L1b)
      as (m3 & -> & L1' & FR3); try side; [discriminate|]. cbn [bind].
    apply (level_frame _ _ _ _ m3 _ _ _ L3b) in FR3 as L3c; [|side].
    apply (level_frame _ _ _ _ m3 _ _ _ L2') in FR3 as L2c; [|side].
    apply (level_frame _ _ _ _ m3 _ _ _ L0b) in FR3 as L0c; [|side].
    rewrite (wrap_small 32) by side.
    destruct (leaf_update' c (v_base v) A2_128 _ _ _ _ _ i sign (v_ptr v + bytes_of A2_32 + (cdiv n 524288 + cdiv n 8192) * bytes_of A2_64
        + (i mod 8192 / 128 + i mod 524288 / 8192 * 64 + i / 524288 * 64 * 64) * bytes_of A2_128) (i mod 8192 mod 128) L0c)
      as (m4 & -> & L0' & FR4); try side.
    { aligned AL. }
    apply (level_frame _ _ _ _ m4 _ _ _ L3c) in FR4 as L3d; [|side].
    apply (level_frame _ _ _ _ m4 _ _ _ L2c) in FR4 as L2d; [|side].
    apply (level_frame _ _ _ _ m4 _ _ _ L1') in FR4 as L1d; [|side].
    exists m4. split; [reflexivity|]. split.
    { assert (E1 : zlen m1 = zlen (v_mem v)) by apply FR1. assert (E2 : zlen m2 = zlen m1) by apply FR2.
      assert (E3 : zlen m3 = zlen m2) by apply FR3.
      destruct L0 as (? & ? & _), L1 as (? & ? & _), L2 as (? & ? & _), L3 as (? & ? & _). unfold cdiv in *.
      eapply frame_trans; [eapply frame_trans; [eapply frame_trans|]|]; (eapply frame_weaken; [eassumption|bytes; lia|bytes; lia]). }
    intros v' U. apply TI; [eauto|]. destruct U as (U1 & U2 & U3 & U4). cbn [levels_inv].
    rewrite U2, U3, !U4 by lia. auto 12.
  - destruct L as (Hb & L0).
    destruct (leaf_update' c (v_base v) A5_512 _ _ _ _ _ i sign (v_ptr v) i L0) as (m1 & -> & L0' & F0); try side.
    { intros X; discriminate. }
    exists m1. split; [reflexivity|]. split.
    { eapply frame_weaken; [exact F0|lia|apply L0]. }
    intros v' U. apply TI; [eauto|]. destruct U as (U1 & U2 & U3 & U4). cbn [levels_inv]. rewrite U2, U3. auto.
  - destruct L as (Hb & L1 & L0). nowrap.
    destruct (inner_update' c (v_base v) A5_256 _ _ _ _ _ _ i sign (v_ptr v) (i / 512 + 1) L1)
      as (m1 & -> & L1' & F1); try side; [discriminate|]. cbn [bind].
    apply (level_frame _ _ _ _ m1 _ _ _ L0) in F1 as L0a; [|side].
    destruct (leaf_update' c (v_base v) A5_512 _ _ _ _ _ i sign (v_ptr v + bytes_of A5_256 + i / 512 * bytes_of A5_512) (i mod 512) L0a)
      as (m2 & -> & L0' & F2); try side.
    { intros X; discriminate. }
    apply (level_frame _ _ _ _ m2 _ _ _ L1') in F2 as L1b; [|side].
    exists m2. split; [reflexivity|]. split.
    { destruct L0 as (? & ? & _), L1 as (? & ? & _), L0a as (? & ? & _).
      eapply frame_trans; (eapply frame_weaken; [eassumption|bytes; lia|bytes; lia]). }
    intros v' U. apply TI; [eauto|]. destruct U as (U1 & U2 & U3 & U4). cbn [levels_inv]. rewrite U2, U3. auto.
  - destruct L as (Hb & N1 & L2 & L1 & L0). rewrite N1. cbn [bind]. nowrap.
    destruct (inner_update' c (v_base v) A5_128 _ _ _ _ _ _ i sign (v_ptr v) (i / 131072 + 1) L2)
      as (m1 & -> & L2' & FR1); try side; [discriminate|]. cbn [bind].
    apply (level_frame _ _ _ _ m1 _ _ _ L1) in FR1 as L1a; [|side].
    apply (level_frame _ _ _ _ m1 _ _ _ L0) in FR1 as L0a; [|side].
    destruct (inner_update' c (v_base v) A5_256 _ _ _ _ _ _ i sign (v_ptr v + bytes_of A5_128 + i / 131072 * bytes_of A5_256)
        (i mod 131072 / 512 + 1) L1a)
      as (m2 & -> & L1' & FR2); try side; [discriminate|]. cbn [bind].
    apply (level_frame _ _ _ _ m2 _ _ _ L2') in FR2 as L2b; [|side].
    apply (level_frame _ _ _ _ m2 _ _ _ L0a) in FR2 as L0b; [|side].
    destruct (leaf_update' c (v_base v) A5_512 _ _ _ _ _ i sign (v_ptr v + bytes_of A5_128 + cdiv n 131072 * bytes_of A5_256
        + (i mod 131072 / 512 + i / 131072 * 256) * bytes_of A5_512) (i mod 131072 mod 512) L0b)
      as (m3 & -> & L0' & FR3); try side.
    { intros X; discriminate. }
    apply (level_frame _ _ _ _ m3 _ _ _ L2b) in FR3 as L2c; [|side].
    apply (level_frame _ _ _ _ m3 _ _ _ L1') in FR3 as L1c; [|side].
    exists m3. split; [reflexivity|]. split.
    { assert (E1 : zlen m1 = zlen (v_mem v)) by apply FR1. assert (E2 : zlen m2 = zlen m1) by apply FR2.
      destruct L0 as (? & ? & _), L1 as (? & ? & _), L2 as (? & ? & _). unfold cdiv in *.
      eapply frame_trans; [eapply frame_trans|]; (eapply frame_weaken; [eassumption|bytes; lia|bytes; lia]). }
    intros v' U. apply TI; [eauto|]. destruct U as (U1 & U2 & U3 & U4). cbn [levels_inv].
    rewrite U2, U3, U4 by lia. auto 10.
Qed.

(** ** Search *)

(** The search does not meet the signed comparisons in the root of the height-4
    avx2 tree. *)
Definition vsafe (c : cfg) (f : fam) (H : nat) (A : Z -> Z) (x : Z) : Prop :=
  f = F2 -> H = 4%nat -> c_avx2 c = true -> ~ root_fails A x.

Lemma inner_search' c N cnt q m F S T A mx k x a y : level_inv N cnt q m (V_in F S A) -> F = fan N -> T = F * S ->
  (forall i, 0 <= A i <= mx) -> 0 < S ->
  is_leaf_class N = false -> 1 < nd_nseg (desc N) ->
  mx * S * nd_seg (desc N) < 2 ^ kbits (desc N) -> mx * S * F < 2 ^ (sbits (desc N) - 1) ->
  (vectorised c N = true -> mx * S * (nd_seg (desc N) + 1) <= 2 ^ (kbits (desc N) - 1)) ->
  0 <= k < cnt -> 0 <= x < 2 ^ 64 ->
  sumf A 0 (k * T) <= x < sumf A 0 ((k + 1) * T) -> a = q + k * bytes_of N -> y = x - sumf A 0 (k * T) ->
  exists j, node_search c N m a y = Ok (j - k * F + 1, sumf A 0 (j * S) - sumf A 0 (k * T)) /\
    k * F <= j < k * F + F /\ sumf A 0 (j * S) <= x < sumf A 0 ((j + 1) * S).
Proof.
  intros L -> -> HA HS NL NSEG B1 B2 VS Hk Hx HT -> ->. pose proof (fan_pos N) as HF.
  rewrite Z.mul_assoc in *. rewrite !Z.mul_assoc in HT. try rewrite !Z.mul_assoc in VS.
  assert (HK : 0 <= k * fan N * S) by nia.
  set (b := k * fan N * S) in *.
  assert (SP : forall e, b <= e -> sumf A 0 e = sumf A 0 b + sumf A b e) by (intros; apply sumf_split; lia).
  assert (0 <= sumf A 0 b) by (apply sumf_nonneg; intros; apply HA).
  destruct (inner_search_ok c N cnt q m S A mx k (x - sumf A 0 b) L HA HS NL NSEG B1 B2 VS Hk ltac:(lia)) as (c' & E & C1 & C2).
  { fold b. rewrite (SP ((k + 1) * fan N * S)) in HT by (unfold b; nia). lia. }
  fold b in E, C2. exists (k * fan N + c').
  rewrite (SP ((k * fan N + c') * S)) by (unfold b; nia).
  rewrite (SP ((k * fan N + c' + 1) * S)) by (unfold b; nia). split; [|lia].
  rewrite E. do 2 f_equal; lia.
Qed.

Lemma leaf_search' c N cnt q m F G A n mx k x a y : level_inv N cnt q m (V_leaf F G) -> F = fan N ->
  (forall i, 0 <= G i <= mx) -> (forall i, 0 <= i < n -> G i = A i) -> (forall i, n <= i -> A i = 0) ->
  (forall i, 0 <= A i <= mx) ->
  mx * nd_seg (desc N) < 2 ^ (kbits (desc N) - 1) -> mx * F < 2 ^ (sbits (desc N) - 1) ->
  0 <= k < cnt -> 0 <= x < 2 ^ 64 ->
  sumf A 0 (k * F) <= x < sumf A 0 ((k + 1) * F) -> a = q + k * bytes_of N -> y = x - sumf A 0 (k * F) ->
  exists j, node_search c N m a y = Ok (j - k * F, sumf A 0 j - sumf A 0 (k * F)) /\
    k * F <= j < k * F + F /\ j < n /\ sumf A 0 j <= x < sumf A 0 (j + 1).
Proof.
  intros L -> HG GA A0 HA B1 B2 Hk Hx HT -> ->. pose proof (fan_pos N) as HF.
  set (b := k * fan N) in *. assert (0 <= b) by (unfold b; nia).
  assert (SP : forall e, b <= e -> sumf A 0 e = sumf A 0 b + sumf A b e) by (intros; apply sumf_split; lia).
  assert (0 <= sumf A 0 b) by (apply sumf_nonneg; intros; apply HA).
  destruct (leaf_search_ok c N cnt q m G A n mx k (x - sumf A 0 b) L HG GA A0 HA B1 B2 Hk ltac:(lia)) as (r & E & C1 & C2 & C3).
  { fold b. rewrite (SP ((k + 1) * fan N)) in HT by (unfold b; nia). lia. }
  fold b in E, C2, C3. exists (b + r).
  rewrite (SP (b + r)) by lia. rewrite (SP (b + r + 1)) by lia. split; [|lia].
  rewrite E. do 2 f_equal; lia.
Qed.

(** Positions before the total are inside the array. *)
Lemma below_total A n x e : (forall i, 0 <= A i) -> (forall i, n <= i -> A i = 0) -> x < sumf A 0 n -> sumf A 0 e <= x -> e < n.
Proof.
  intros HA A0 HT HE. destruct (Z.lt_ge_cases e n); auto. exfalso.
  destruct (Z.le_ge_cases n 0) as [N0|N0].
  - rewrite (sumf_empty A 0 n) in HT by lia. pose proof (sumf_nonneg A 0 e (fun i _ => HA i)). lia.
  - pose proof (sumf_mono A 0 n e ltac:(lia) (fun i _ => HA i)). lia.
Qed.

Lemma tree_search_ok c f H mx n v A x : tinv f H mx n v A -> 0 <= x < sumf A 0 n ->
  vsafe c f H A x ->
  exists i, tree_search c f H v x = Ok (i, sumf A 0 i) /\ 0 <= i < n /\ sumf A 0 i <= x < sumf A 0 (i + 1).
Proof.
  intros T Hx VS. pose proof T as (Hs & Hn & Hmx & HA & A0 & G & HG & GA & L).
  assert (HB : forall a b, 0 <= a <= b -> b <= 2 ^ 26 -> 0 <= sumf A a b < 2 ^ 36) by (intros; eapply tinv_bound; eauto).
  pose proof (HA 0) as H0.
  assert (BT : forall e, sumf A 0 e <= x -> e < n).
  { intros e He. apply (below_total A n x e); auto; [|lia]. intros; apply HA. }
  assert (TT : forall e, n <= e -> x < sumf A 0 e).
  { intros e He. rewrite (sumf_split A 0 n e) by lia.
    pose proof (sumf_nonneg A n e (fun i _ => proj1 (HA i))). lia. }
  assert (Hx64 : x < 2 ^ 64) by (pose proof (HB 0 n ltac:(lia) ltac:(lia)); lia).
  assert (Z0 : sumf A 0 0 = 0) by (apply sumf_empty; lia).
  assert (BS : forall e, 0 <= sumf A 0 e) by (intros; apply sumf_nonneg; intros; apply HA).
  assert (R0 : forall T, n <= T -> sumf A 0 (0 * T) <= x < sumf A 0 ((0 + 1) * T)).
  { intros T' HT. rewrite Z.mul_0_l, Z0. split; [lia|]. apply TT. lia. }
  assert (R1 : forall T, x = x - sumf A 0 (0 * T)) by (intros; rewrite Z.mul_0_l, Z0; lia).
  clear T.
  unfold tree_search.
  destruct f, H as [|[|[|[|[|H]]]]]; cbn [levels_inv] in L; try contradiction; lits.
  - destruct L as (Hb & L0).
    destruct (leaf_search' c A2_128 _ _ _ _ G A n mx 0 x (v_ptr v) x L0) as (j & E & R); auto; try side; try (apply R0; side).
    rewrite E. exists j. rewrite !Z.mul_0_l, Z0, !Z.sub_0_r. split; [reflexivity|]. lia.
  - destruct L as (Hb & L1 & L0).
    destruct (inner_search' c A2_64 _ _ _ _ _ 8192 A mx 0 x (v_ptr v) x L1) as (j1 & E1 & I1 & K1); auto; try side; try (apply R0; side).
    rewrite E1. cbn [bind]. rewrite !Z.mul_0_l, Z0.
    pose proof (BT _ (proj1 K1)) as Q1. pose proof (BS (j1 * 128)).
    rewrite (wrap_small 64 (x - _)) by lia. rewrite (wrap_small 64 (_ - 1)) by lia.
    replace (j1 - 0 + 1 - 1) with j1 by lia. nowrap.
    destruct (leaf_search' c A2_128 _ _ _ _ G A n mx j1 x (v_ptr v + bytes_of A2_64 + j1 * bytes_of A2_128)
       (x - (sumf A 0 (j1 * 128) - 0)) L0) as (j & E & R); auto; try side; try (apply R0; side).
    rewrite E. cbn [bind]. pose proof (BS j).
    rewrite !wrap_small by lia.
    exists j. split; [do 2 f_equal; lia|lia].
  - destruct L as (Hb & N1 & L2 & L1 & L0). rewrite N1. cbn [bind].
    destruct (inner_search' c A2_64 _ _ _ _ _ 524288 A mx 0 x (v_ptr v) x L2) as (j1 & E1 & I1 & K1); auto; try side; try (apply R0; side).
    rewrite E1. cbn [bind]. rewrite !Z.mul_0_l, Z0.
    pose proof (BT _ (proj1 K1)) as Q1. pose proof (BS (j1 * 8192)).
    rewrite (wrap_small 64 (x - _)) by lia. rewrite (wrap_small 64 (_ - 1)) by lia.
    replace (j1 - 0 + 1 - 1) with j1 by lia. nowrap.
    destruct (inner_search' c A2_64 _ _ _ _ _ 8192 A mx j1 x (v_ptr v + (j1 + 1) * bytes_of A2_64)
       (x - (sumf A 0 (j1 * 8192) - 0)) L1) as (j2 & E2 & I2 & K2); auto; try side; try (apply R0; side).
    rewrite E2. cbn [bind].
    pose proof (BT _ (proj1 K2)) as Q2. pose proof (BS (j2 * 128)).
    rewrite (wrap_small 64 (x - _ - _)) by lia. rewrite (wrap_small 64 (_ - 1)) by lia.
    rewrite (wrap_small 32) by side.
    replace (j2 - j1 * 64 + 1 - 1) with (j2 - j1 * 64) by lia. nowrap.
    destruct (leaf_search' c A2_128 _ _ _ _ G A n mx j2 x (v_ptr v + (1 + cdiv n 8192) * bytes_of A2_64 + (j2 - j1 * 64 + j1 * 64) * bytes_of A2_128)
       (x - (sumf A 0 (j1 * 8192) - 0) - (sumf A 0 (j2 * 128) - sumf A 0 (j1 * 8192))) L0) as (j & E & R); auto; try side; try (apply R0; side).
    rewrite E. cbn [bind]. pose proof (BS j).
    rewrite !wrap_small by lia.
    exists j. split; [do 2 f_equal; lia|lia].
  - destruct L as (Hb & N1 & N2 & L3 & L2 & L1 & L0). rewrite N1, N2. cbn [bind].
    assert (exists j1, node_search c A2_32 (v_mem v) (v_ptr v) x = Ok (j1 + 1, sumf A 0 (j1 * 524288) - 0) /\ 0 <= j1 < 32 /\
      sumf A 0 (j1 * 524288) <= x < sumf A 0 ((j1 + 1) * 524288)) as (j1 & E1 & I1 & K1).
    { destruct (c_avx2 c) eqn:C.
      - destruct (root_search c 1 (v_ptr v) (v_mem v) A mx x L3) as (j1 & E1 & I1 & [[_ K1]|[F _]]); auto; try lia.
        + split; [lia|]. apply TT. lia.
        + exists j1. rewrite Z.sub_0_r. auto.
        + exfalso. apply (VS eq_refl eq_refl C F).
      - destruct (inner_search' c A2_32 _ _ _ _ _ 16777216 A mx 0 x (v_ptr v) x L3) as (j1 & E1 & I1 & K1); auto; try side; try (apply R0; side).
        { cbn [vectorised]. rewrite C. discriminate. }
        exists j1. rewrite E1, !Z.mul_0_l, Z0. split; [do 2 f_equal; lia|]. lia. }
    rewrite E1. cbn [bind].
    pose proof (BT _ (proj1 K1)) as Q1. pose proof (BS (j1 * 524288)).
    rewrite (wrap_small 64 (x - _)) by lia. rewrite (wrap_small 64 (_ - 1)) by lia.
    replace (j1 + 1 - 1) with j1 by lia. nowrap.
    destruct (inner_search' c A2_64 _ _ _ _ _ 524288 A mx j1 x (v_ptr v + bytes_of A2_32 + j1 * bytes_of A2_64)
       (x - (sumf A 0 (j1 * 524288) - 0)) L2) as (j2 & E2 & I2 & K2); auto; try side; try (apply R0; side).
    rewrite E2. cbn [bind].
    pose proof (BT _ (proj1 K2)) as Q2. pose proof (BS (j2 * 8192)).
    rewrite (wrap_small 64 (x - _ - _)) by lia. rewrite (wrap_small 64 (_ - 1)) by lia.
    replace (j2 - j1 * 64 + 1 - 1) with (j2 - j1 * 64) by lia. nowrap.
    destruct (inner_search' c A2_64 _ _ _ _ _ 8192 A mx j2 x (v_ptr v + bytes_of A2_32 + cdiv n 524288 * bytes_of A2_64 + (j2 - j1 * 64 + j1 * 64) * bytes_of A2_64)
       (x - (sumf A 0 (j1 * 524288) - 0) - (sumf A 0 (j2 * 8192) - sumf A 0 (j1 * 524288))) L1) as (j3 & E3 & I3 & K3); auto; try side; try (apply R0; side).
    rewrite E3. cbn [bind].
    pose proof (BT _ (proj1 K3)) as Q3. pose proof (BS (j3 * 128)).
    rewrite (wrap_small 64 (x - _ - _ - _)) by lia. rewrite (wrap_small 64 (_ - 1)) by lia.
    rewrite (wrap_small 32) by side.
    replace (j3 - j2 * 64 + 1 - 1) with (j3 - j2 * 64) by lia. nowrap.
    destruct (leaf_search' c A2_128 _ _ _ _ G A n mx j3 x (v_ptr v + bytes_of A2_32 + (cdiv n 524288 + cdiv n 8192) * bytes_of A2_64
         + (j3 - j2 * 64 + (j2 - j1 * 64) * 64 + j1 * 64 * 64) * bytes_of A2_128)
       (x - (sumf A 0 (j1 * 524288) - 0) - (sumf A 0 (j2 * 8192) - sumf A 0 (j1 * 524288)) - (sumf A 0 (j3 * 128) - sumf A 0 (j2 * 8192))) L0) as (j & E & R); auto; try side; try (apply R0; side).
    rewrite E. cbn [bind]. pose proof (BS j).
    rewrite !wrap_small by lia.
    exists j. split; [do 2 f_equal; lia|lia].
  - destruct L as (Hb & L0).
    destruct (leaf_search' c A5_512 _ _ _ _ G A n mx 0 x (v_ptr v) x L0) as (j & E & R); auto; try side; try (apply R0; side).
    rewrite E. exists j. rewrite !Z.mul_0_l, Z0, !Z.sub_0_r. split; [reflexivity|]. lia.
  - destruct L as (Hb & L1 & L0).
    destruct (inner_search' c A5_256 _ _ _ _ _ 131072 A mx 0 x (v_ptr v) x L1) as (j1 & E1 & I1 & K1); auto; try side; try (apply R0; side).
    rewrite E1. cbn [bind]. rewrite !Z.mul_0_l, Z0.
    pose proof (BT _ (proj1 K1)) as Q1. pose proof (BS (j1 * 512)).
    rewrite (wrap_small 64 (x - _)) by lia. rewrite (wrap_small 64 (_ - 1)) by lia.
    replace (j1 - 0 + 1 - 1) with j1 by lia. nowrap.
    destruct (leaf_search' c A5_512 _ _ _ _ G A n mx j1 x (v_ptr v + bytes_of A5_256 + j1 * bytes_of A5_512)
       (x - (sumf A 0 (j1 * 512) - 0)) L0) as (j & E & R); auto; try side; try (apply R0; side).
    rewrite E. cbn [bind]. pose proof (BS j).
    rewrite !wrap_small by lia.
    exists j. split; [do 2 f_equal; lia|lia].
  - destruct L as (Hb & N1 & L2 & L1 & L0). rewrite N1. cbn [bind].
    destruct (inner_search' c A5_128 _ _ _ _ _ 16777216 A mx 0 x (v_ptr v) x L2) as (j1 & E1 & I1 & K1); auto; try side; try (apply R0; side).
    rewrite E1. cbn [bind]. rewrite !Z.mul_0_l, Z0.
    pose proof (BT _ (proj1 K1)) as Q1. pose proof (BS (j1 * 131072)).
    rewrite (wrap_small 64 (x - _)) by lia. rewrite (wrap_small 64 (_ - 1)) by lia.
    replace (j1 - 0 + 1 - 1) with j1 by lia. nowrap.
    destruct (inner_search' c A5_256 _ _ _ _ _ 131072 A mx j1 x (v_ptr v + bytes_of A5_128 + j1 * bytes_of A5_256)
       (x - (sumf A 0 (j1 * 131072) - 0)) L1) as (j2 & E2 & I2 & K2); auto; try side; try (apply R0; side).
    rewrite E2. cbn [bind].
    pose proof (BT _ (proj1 K2)) as Q2. pose proof (BS (j2 * 512)).
    rewrite (wrap_small 64 (x - _ - _)) by lia. rewrite (wrap_small 64 (_ - 1)) by lia.
    replace (j2 - j1 * 256 + 1 - 1) with (j2 - j1 * 256) by lia. nowrap.
    destruct (leaf_search' c A5_512 _ _ _ _ G A n mx j2 x (v_ptr v + bytes_of A5_128 + cdiv n 131072 * bytes_of A5_256 + (j2 - j1 * 256 + j1 * 256) * bytes_of A5_512)
       (x - (sumf A 0 (j1 * 131072) - 0) - (sumf A 0 (j2 * 512) - sumf A 0 (j1 * 131072))) L0) as (j & E & R); auto; try side; try (apply R0; side).
    rewrite E. cbn [bind]. pose proof (BS j).
    rewrite !wrap_small by lia.
    exists j. split; [do 2 f_equal; lia|lia].
Qed.

(** Where the root goes wrong, the search ends in the level below. *)
Lemma tree_search_fails c mx n v A x : tinv F2 4 mx n v A -> 0 <= x < sumf A 0 n -> c_avx2 c = true ->
  root_fails A x -> zlen (v_mem v) < 2 ^ 64 -> tree_search c F2 4 v x = search_failure c.
Proof.
  intros T Hx C RF Hm. pose proof T as (Hs & Hn & Hmx & HA & A0 & G & HG & GA & L).
  pose proof (HA 0) as H0. cbn [levels_inv] in L. destruct L as (Hb & N1 & N2 & L3 & L2 & L1 & L0).
  assert (TT : x < child_sum A 32).
  { unfold child_sum. rewrite (sumf_split A 0 n) by lia.
    pose proof (sumf_nonneg A n (32 * 524288) (fun i _ => proj1 (HA i))). lia. }
  destruct (root_search c 1 (v_ptr v) (v_mem v) A mx x L3) as (j1 & E1 & I1 & [[F _]|[_ [K1 K2]]]); auto; try lia; [contradiction|].
  unfold tree_search. lits. rewrite E1. cbn [bind].
  rewrite (wrap_small 64 (_ - 1)) by lia. replace (j1 + 1 - 1) with j1 by lia. nowrap.
  assert (W : 2 ^ 31 <= wrap 32 (u64 (x - child_sum A j1))).
  { replace (wrap 32 (u64 (x - child_sum A j1))) with (wrap 32 (x - child_sum A j1)); auto.
    unfold u64, wrap. set (z := x - child_sum A j1). change (2 ^ 64) with (2 ^ 32 * 2 ^ 32). rewrite Z.rem_mul_r by lia.
    rewrite Z.mul_comm, Z_mod_plus_full, Z.mod_mod by lia. reflexivity. }
  assert (Q : (j1 - 1) * 524288 < n).
  { apply (below_total A n x); auto; [intros; apply HA|lia]. }
  assert (E2 : node_search c A2_64 (v_mem v) (v_ptr v + bytes_of A2_32 + j1 * bytes_of A2_64) (u64 (x - child_sum A j1)) = search_failure c).
  { destruct (Z.lt_ge_cases j1 (cdiv n 524288)) as [B|B].
    - eapply (node64_negative c _ _ _ 8192 A mx j1); eauto; try side.
    - assert (j1 = cdiv n 524288) as -> by (unfold cdiv in *; lia).
      eapply (node64_negative c _ _ _ 128 A mx 0); eauto; try side. }
  rewrite E2. unfold search_failure. destruct (c_debug c); reflexivity.
Qed.
