(** A tree whose nodes are disjoint bit fields of its arrays is a store in the
    sense of [HftFacts] and [HftBuild]. *)
From Coq Require Import ZifyBool.
From Verif Require Import Base BaseFacts Mem MemFacts SpecHft Hft HftFacts HftMem HftBuild.
Ltac Zify.zify_post_hook ::= Z.div_mod_to_equations.

(** Where node i is: array, first bit, number of bits. *)
Record geo := { pa : Z -> nat; ps : Z -> Z; pw : Z -> Z }.

Record gok (n : Z) (g : geo) : Prop := {
  gk_in : forall i, 1 <= i <= n -> 0 <= ps g i /\ 0 <= pw g i <= 64;
  gk_sep : forall i j, 1 <= i < j -> j <= n -> pa g i = pa g j -> ps g i + pw g i <= ps g j \/ ps g j + pw g j <= ps g i }.
Arguments gk_in {n g}. Arguments gk_sep {n g}.

Definition shape (lay : layout) (B n : Z) (lvl lens : list Z) (t : ftree) : Prop :=
  ft_lay t = lay /\ ft_bound t = B /\ ft_size t = n /\ ft_level t = lvl /\ map (@zlen Z) (ft_arr t) = lens /\ forall k, bytes_ok (arr t k).

(** Node i has room for v.  [wide]: all nodes have 64 bits and are sums modulo
    2^64. *)
Definition room (wide : bool) (g : geo) (i v : Z) : Prop := if wide then True else 0 <= v < 2 ^ pw g i.
Definition all64 (wide : bool) (n : Z) (g : geo) : Prop := wide = true -> forall i, 1 <= i <= n -> pw g i = 64.

Definition cell (g : geo) (t : ftree) (i : Z) : Z := field (val (arr t (pa g i))) (ps g i) (pw g i).

Definition st (lay : layout) (B n : Z) (lvl lens : list Z) (g : geo) (wide : bool) (t : ftree) (V : Z -> Z) : Prop :=
  shape lay B n lvl lens t /\ forall i, 1 <= i <= n -> room wide g i (V i) /\ cell g t i = V i mod 2 ^ pw g i.

Lemma arr_len lay B n lvl lens t k : shape lay B n lvl lens t -> zlen (arr t k) = nth k lens 0.
Proof. intros (_ & _ & _ & _ & E & _). rewrite <- E. unfold arr. rewrite <- (map_nth (@zlen Z)). reflexivity. Qed.

Lemma arr_with t k j m : (k < length (ft_arr t))%nat -> arr (with_arr t k m) j = if Nat.eqb j k then m else arr t j.
Proof. intros H. unfold arr, with_arr. cbn [ft_arr]. rewrite nth_upd_nat by auto. reflexivity. Qed.

Lemma shape_with lay B n lvl lens t k m : shape lay B n lvl lens t -> (k < length lens)%nat -> bytes_ok m -> zlen m = zlen (arr t k) -> shape lay B n lvl lens (with_arr t k m).
Proof.
  intros (H1 & H2 & H3 & H4 & H5 & H6) Hk Hm EL. assert (HL : (k < length (ft_arr t))%nat) by (rewrite <- H5, map_length in Hk; exact Hk).
  split; [exact H1|]. split; [exact H2|]. split; [exact H3|]. split; [exact H4|]. split.
  - cbn [with_arr ft_arr]. rewrite <- H5. clear - HL EL. unfold arr in EL. revert k HL EL. induction (ft_arr t) as [|x r IH]; intros k HL EL; cbn in *; [lia|].
    destruct k as [|k]; cbn in *; [rewrite EL; reflexivity|]. rewrite IH; auto. lia.
  - intros j. rewrite arr_with by auto. destruct (j =? k)%nat; auto.
Qed.

(** Replacing the field of one node. *)
Lemma st_upd lay B n lvl lens g wide t V i m' x : gok n g -> st lay B n lvl lens g wide t V -> 1 <= i <= n -> (pa g i < length lens)%nat ->
  updated (arr t (pa g i)) m' (ps g i) (pw g i) (x mod 2 ^ pw g i) -> room wide g i x ->
  st lay B n lvl lens g wide (with_arr t (pa g i) m') (fun k => if k =? i then x else V k).
Proof.
  intros GK (HS & HV) Hi Hk HU HR. destruct (gk_in GK i Hi) as (S1' & S2). pose proof HU as (U1 & U2 & _).
  destruct (updated_bits _ _ _ _ _ S1' (proj1 S2) (mod_range x _ (proj1 S2)) HU) as (F1 & F2).
  assert (HL : (pa g i < length (ft_arr t))%nat) by (destruct HS as (_ & _ & _ & _ & E & _); rewrite <- E, map_length in Hk; exact Hk).
  split; [apply shape_with; auto|]. intros k Hk2. destruct (Z.eqb_spec k i) as [->|N].
  - split; [exact HR|]. unfold cell. rewrite arr_with, Nat.eqb_refl by auto. exact F1.
  - destruct (HV k Hk2) as (R1 & R2). split; [exact R1|]. rewrite <- R2. unfold cell. rewrite arr_with by auto.
    destruct (Nat.eqb_spec (pa g k) (pa g i)) as [E|]; [|reflexivity]. destruct (gk_in GK k Hk2) as (T1 & T2). rewrite E. apply F2; try lia.
    destruct (Z.lt_trichotomy k i) as [L|[L|L]]; [|lia|].
    + destruct (gk_sep GK k i ltac:(lia) ltac:(lia) E); auto.
    + destruct (gk_sep GK i k ltac:(lia) ltac:(lia) (eq_sym E)); auto.
Qed.

Lemma room_u64 wide n g i v : gok n g -> all64 wide n g -> 1 <= i <= n -> room wide g i v -> v mod 2 ^ pw g i = u64 v.
Proof.
  intros GK HW Hi HR. destruct (gk_in GK i Hi) as (_ & H2). destruct wide; [rewrite (HW eq_refl i Hi); reflexivity|].
  cbn in HR. rewrite Z.mod_small by auto. symmetry. apply wrap_small. assert (2 ^ pw g i <= 2 ^ 64) by (apply Z.pow_le_mono_r; lia). lia.
Qed.

Lemma room_addable wide n g i v d x : all64 wide n g -> 1 <= i <= n -> room wide g i v -> room wide g i (v + d) -> (wide = false -> x = d) -> addable (pw g i) (v mod 2 ^ pw g i) x.
Proof.
  intros HW Hi H1 H2 Hx. destruct wide; [left; apply HW; auto|]. rewrite Hx by auto. right. cbn in H1, H2. rewrite Z.mod_small by auto. exact H2.
Qed.

Lemma st_ext lay B n lvl lens g wide t V W : st lay B n lvl lens g wide t V -> (forall i, 1 <= i <= n -> V i = W i) -> st lay B n lvl lens g wide t W.
Proof. intros (H1 & H2) E. split; auto. intros i Hi. rewrite <- E by auto. auto. Qed.

(** ** What the accesses of a layout have to do *)
Record acc (sh : bool) (lay : layout) (B n : Z) (lvl lens : list Z) (g : geo) : Prop := {
  ac_geo : gok n g;
  ac_arr : forall i, 1 <= i <= n -> (pa g i < length lens)%nat;
  ac_get : forall t i, shape lay B n lvl lens t -> 1 <= i <= n -> node_get t i = Ok (cell g t i);
  ac_add : forall t i d, shape lay B n lvl lens t -> 1 <= i <= n -> addable (pw g i) (cell g t i) d ->
    exists m', node_add sh t i d = Ok (with_arr t (pa g i) m') /\ updated (arr t (pa g i)) m' (ps g i) (pw g i) ((cell g t i + d) mod 2 ^ pw g i) }.
Arguments ac_geo {sh lay B n lvl lens g}. Arguments ac_arr {sh lay B n lvl lens g}. Arguments ac_get {sh lay B n lvl lens g}. Arguments ac_add {sh lay B n lvl lens g}.

Lemma acc_good sh lay B n lvl lens g wide : all64 wide n g -> acc sh lay B n lvl lens g -> good sh n (room wide g) (st lay B n lvl lens g wide).
Proof.
  intros HW A. split.
  - intros t V ((_ & _ & E & _) & _). exact E.
  - intros t V i (HS & HV) Hi. destruct (HV i Hi) as (R & E). rewrite (ac_get A t i HS Hi), E. f_equal. eapply room_u64; eauto. apply (ac_geo A).
  - intros t V i d (HS & HV) Hi HP _. destruct (HV i Hi) as (R & E).
    destruct (ac_add A t i d HS Hi) as (m' & E1 & U); [rewrite E; eapply room_addable; eauto; reflexivity|].
    exists (with_arr t (pa g i) m'). split; [exact E1|].
    rewrite E in U. rewrite Zplus_mod_idemp_l in U.
    eapply st_ext; [eapply (st_upd lay B n lvl lens g wide t V i m' (V i + d)); eauto; [apply (ac_geo A)|split; auto|apply (ac_arr A); auto]|].
    intros k Hk. unfold fadd. destruct (Z.eqb_spec k i) as [->|]; reflexivity.
  - intros t V W H E. eapply st_ext; eauto.
Qed.

Record accf (sh : bool) (lay : layout) (B n : Z) (lvl lens : list Z) (g : geo) : Prop := {
  af_leaf : forall t i v, shape lay B n lvl lens t -> 1 <= i <= n -> cell g t i = 0 -> 0 <= v < 2 ^ pw g i ->
    exists m', leaf_set sh t i v = Ok (with_arr t (pa g i) m') /\ updated (arr t (pa g i)) m' (ps g i) (pw g i) v;
  af_comb : forall t i j, shape lay B n lvl lens t -> 1 <= i <= n -> 1 <= j <= n -> addable (pw g i) (cell g t i) (cell g t j) ->
    exists m', node_combine sh t i j = Ok (with_arr t (pa g i) m') /\ updated (arr t (pa g i)) m' (ps g i) (pw g i) ((cell g t i + cell g t j) mod 2 ^ pw g i) }.
Arguments af_leaf {sh lay B n lvl lens g}. Arguments af_comb {sh lay B n lvl lens g}.

Lemma acc_comb sh lay B n lvl lens g t i j : acc sh lay B n lvl lens g -> lay <> ByteF -> shape lay B n lvl lens t -> 1 <= i <= n -> 1 <= j <= n -> addable (pw g i) (cell g t i) (cell g t j) ->
  exists m', node_combine sh t i j = Ok (with_arr t (pa g i) m') /\ updated (arr t (pa g i)) m' (ps g i) (pw g i) ((cell g t i + cell g t j) mod 2 ^ pw g i).
Proof.
  intros A NB HS Hi Hj HA. destruct (ac_add A t i (cell g t j) HS Hi HA) as (m' & E & U). exists m'. split; [|exact U]. rewrite <- E.
  unfold node_combine. pose proof (ac_get A t j HS Hj) as EG. pose proof HS as (EL & _). rewrite EL. destruct lay; try congruence; rewrite EG; reflexivity.
Qed.

Lemma acc_goodf sh lay B n lvl lens g wide : all64 wide n g -> acc sh lay B n lvl lens g -> accf sh lay B n lvl lens g -> goodf sh n (room wide g) (st lay B n lvl lens g wide).
Proof.
  intros HW A AF. split.
  - intros t V W H E. eapply st_ext; eauto.
  - intros t V i v (HS & HV) Hi H0 HP Hv. destruct (HV i Hi) as (R & E). rewrite H0, Z.mod_0_l in E by (destruct (gk_in (ac_geo A) i Hi); apply Z.pow_nonzero; lia).
    assert (Hv2 : 0 <= v < 2 ^ pw g i) by (destruct wide; [rewrite (HW eq_refl i Hi)|]; auto).
    destruct (af_leaf AF t i v HS Hi E Hv2) as (m' & E1 & U). exists (with_arr t (pa g i) m'). split; [exact E1|].
    rewrite <- (Z.mod_small v (2 ^ pw g i)) in U by auto.
    eapply st_ext; [eapply (st_upd lay B n lvl lens g wide t V i m' v); eauto; [apply (ac_geo A)|split; auto|apply (ac_arr A); auto]|].
    intros k Hk. unfold fadd. destruct (Z.eqb_spec k i) as [->|]; [lia|reflexivity].
  - intros t V i j (HS & HV) Hi Hj HP. destruct (HV i Hi) as (R & E). destruct (HV j Hj) as (R2 & E2).
    assert (HA : addable (pw g i) (cell g t i) (cell g t j)).
    { rewrite E. apply (room_addable wide n g i (V i) (V j)); auto. intros ->. cbn in R2. rewrite E2, Z.mod_small by auto. reflexivity. }
    destruct (af_comb AF t i j HS Hi Hj HA) as (m' & E1 & U). exists (with_arr t (pa g i) m'). split; [exact E1|].
    assert (EM : (cell g t i + cell g t j) mod 2 ^ pw g i = (V i + V j) mod 2 ^ pw g i).
    { rewrite E, E2. destruct wide.
      - rewrite (HW eq_refl i Hi), (HW eq_refl j Hj), <- Zplus_mod. reflexivity.
      - cbn in R2. rewrite (Z.mod_small (V j)) by auto. apply Zplus_mod_idemp_l. }
    rewrite EM in U.
    eapply st_ext; [eapply (st_upd lay B n lvl lens g wide t V i m' (V i + V j)); eauto; [apply (ac_geo A)|split; auto|apply (ac_arr A); auto]|].
    intros k Hk. unfold fadd. destruct (Z.eqb_spec k i) as [->|]; reflexivity.
Qed.

(** ** The L classes: nodes by height and index within the level *)
Record accl (sh : bool) (lay : layout) (B n : Z) (lvl lens : list Z) (g : geo) : Prop := {
  al_get : forall t h i, shape lay B n lvl lens t -> 0 <= h -> 0 <= i -> (2 * i + 1) * 2 ^ h <= n -> lget t h i = Ok (cell g t ((2 * i + 1) * 2 ^ h));
  al_set : forall t h i v, shape lay B n lvl lens t -> 0 <= h -> 0 <= i -> (2 * i + 1) * 2 ^ h <= n -> cell g t ((2 * i + 1) * 2 ^ h) = 0 -> 0 <= v < 2 ^ pw g ((2 * i + 1) * 2 ^ h) ->
    exists m', lset sh t h i v = Ok (with_arr t (pa g ((2 * i + 1) * 2 ^ h)) m') /\
      updated (arr t (pa g ((2 * i + 1) * 2 ^ h))) m' (ps g ((2 * i + 1) * 2 ^ h)) (pw g ((2 * i + 1) * 2 ^ h)) v }.
Arguments al_get {sh lay B n lvl lens g}. Arguments al_set {sh lay B n lvl lens g}.

Lemma pos_ht h i : 0 <= h -> 0 <= i -> 1 <= (2 * i + 1) * 2 ^ h /\ ht ((2 * i + 1) * 2 ^ h) = h /\ (2 * i + 1) * 2 ^ h / 2 ^ (h + 1) = i.
Proof.
  intros Hh Hi. assert (0 < 2 ^ h) by (apply Z.pow_pos_nonneg; lia). split; [nia|]. split; [apply (ht_unique _ _ i); auto; ring|].
  symmetry. apply Z.div_unique with (2 ^ h); rewrite Z.pow_add_r by lia; change (2 ^ 1) with 2; [lia|ring].
Qed.

Lemma acc_goodlb sh lay B n lvl lens g wide : all64 wide n g -> acc sh lay B n lvl lens g -> accl sh lay B n lvl lens g -> goodlb sh n (room wide g) (st lay B n lvl lens g wide).
Proof.
  intros HW A AL. split.
  - intros t V W H E. eapply st_ext; eauto.
  - intros t V ((_ & _ & E & _) & _). exact E.
  - intros t V h i (HS & HV) Hh Hi Hn. destruct (pos_ht h i Hh Hi) as (H1 & _). rewrite (al_get AL t h i HS Hh Hi Hn). destruct (HV _ (conj H1 Hn)) as (R & ->). f_equal.
    eapply room_u64; eauto. apply (ac_geo A).
  - intros t V h i x (HS & HV) Hh Hi Hn H0 HP. destruct (pos_ht h i Hh Hi) as (H1 & _). set (k := (2 * i + 1) * 2 ^ h) in *.
    destruct (HV k ltac:(lia)) as (R & E). destruct (gk_in (ac_geo A) k ltac:(lia)) as (G1 & G2). rewrite H0, Z.mod_0_l in E by (apply Z.pow_nonzero; lia).
    pose proof (room_u64 wide n g k x (ac_geo A) HW ltac:(lia) HP) as EU.
    destruct (al_set AL t h i (u64 x) HS Hh Hi Hn E) as (m' & E1 & U); [fold k; rewrite <- EU; apply mod_range; lia|]. fold k in E1, U.
    exists (with_arr t (pa g k) m'). split; [exact E1|]. rewrite <- EU in U.
    eapply st_ext; [eapply (st_upd lay B n lvl lens g wide t V k m' x); eauto; [apply (ac_geo A)|split; auto|apply (ac_arr A); lia]|].
    intros j Hj. unfold fadd. destruct (Z.eqb_spec j k) as [->|]; [lia|reflexivity].
Qed.

(** ** The fresh object *)
Lemma zeros_ok k : bytes_ok (repeat 0 k).
Proof. intros i Hi. unfold zn. rewrite nth_repeat. lia. Qed.

Lemma val_zeros k : val (repeat 0 k) = 0.
Proof.
  unfold val. rewrite repeat_length. assert (forall n p, rd n (repeat 0 k) p = 0); [|auto].
  induction n as [|n IH]; intros p; cbn [rd]; [reflexivity|]. rewrite IH. unfold zn. rewrite nth_repeat. reflexivity.
Qed.

Lemma st_zero lay B n lvl lens g wide t : shape lay B n lvl lens t -> gok n g -> (forall k, exists c, arr t k = repeat 0 c) ->
  st lay B n lvl lens g wide t (fun _ => 0).
Proof.
  intros HS GK HZ. split; auto. intros i Hi. destruct (gk_in GK i Hi) as (_ & H2). assert (0 < 2 ^ pw g i) by (apply Z.pow_pos_nonneg; lia).
  split; [unfold room; destruct wide; auto; lia|]. unfold cell. destruct (HZ (pa g i)) as (c & ->). rewrite val_zeros, field_0. symmetry. apply Z.mod_0_l. lia.
Qed.
