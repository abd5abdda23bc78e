(** Lemmas about the vocabulary of [Base]. *)
From Verif Require Import Base.
Ltac Zify.zify_post_hook ::= Z.div_mod_to_equations.

Lemma bind_ok {A B} (e : res A) (f : A -> res B) a : e = Ok a -> bind e f = f a.
Proof. intros ->; reflexivity. Qed.

Lemma massert_true dbg b : b = true -> massert dbg b = Ok tt.
Proof. intros ->; unfold massert; destruct dbg; reflexivity. Qed.

Lemma zlen_nonneg {A} (l : list A) : 0 <= zlen l.
Proof. unfold zlen; lia. Qed.

Lemma zlen_nil {A} : zlen (@nil A) = 0.
Proof. reflexivity. Qed.

Lemma zlen_cons {A} (x : A) l : zlen (x :: l) = 1 + zlen l.
Proof. unfold zlen; cbn [length]; lia. Qed.

Lemma zlen_app {A} (l1 l2 : list A) : zlen (l1 ++ l2) = zlen l1 + zlen l2.
Proof. unfold zlen; rewrite app_length; lia. Qed.

Lemma zlen_map {A B} (f : A -> B) l : zlen (map f l) = zlen l.
Proof. unfold zlen; now rewrite map_length. Qed.

Lemma length_zrange lo n : length (zrange lo n) = n.
Proof. revert lo; induction n; intros; cbn; auto. Qed.

Lemma nth_zrange n : forall lo i d, (i < n)%nat -> nth i (zrange lo n) d = lo + Z.of_nat i.
Proof.
  induction n; intros lo i d H; [lia|].
  destruct i; cbn [zrange nth]; [lia|]. rewrite IHn by lia. lia.
Qed.

Lemma zn_zrange d lo n i : 0 <= i < Z.of_nat n -> zn d (zrange lo n) i = lo + i.
Proof. intros; unfold zn; rewrite nth_zrange by lia. lia. Qed.

Lemma in_zrange x lo n : In x (zrange lo n) <-> lo <= x < lo + Z.of_nat n.
Proof.
  revert lo; induction n; intros; cbn [zrange In]; [lia|].
  rewrite IHn. lia.
Qed.

Lemma zn_map {A B} (f : A -> B) da db l i :
  0 <= i < zlen l -> zn db (map f l) i = f (zn da l i).
Proof.
  intros H; unfold zn. rewrite nth_indep with (d' := f da).
  - apply map_nth.
  - rewrite map_length. unfold zlen in H; lia.
Qed.

Lemma zn_cons_0 {A} d (x : A) l : zn d (x :: l) 0 = x.
Proof. reflexivity. Qed.

Lemma zn_cons_S {A} d (x : A) l i : 0 < i -> zn d (x :: l) i = zn d l (i - 1).
Proof.
  intros; unfold zn. replace (Z.to_nat i) with (S (Z.to_nat (i - 1))) by lia. reflexivity.
Qed.

Lemma zn_app_l {A} d (l1 l2 : list A) i : 0 <= i < zlen l1 -> zn d (l1 ++ l2) i = zn d l1 i.
Proof. intros H; unfold zn, zlen in *. apply app_nth1. lia. Qed.

Lemma zn_app_r {A} d (l1 l2 : list A) i : zlen l1 <= i -> zn d (l1 ++ l2) i = zn d l2 (i - zlen l1).
Proof.
  intros H; unfold zn, zlen in *. rewrite app_nth2 by lia.
  f_equal. lia.
Qed.

Lemma zn_out {A} (d : A) l i : zlen l <= i -> zn d l i = d.
Proof. intros H; unfold zn, zlen in *. apply nth_overflow. lia. Qed.

Lemma list_ext {A} (d : A) (l1 l2 : list A) :
  zlen l1 = zlen l2 -> (forall i, 0 <= i < zlen l1 -> zn d l1 i = zn d l2 i) -> l1 = l2.
Proof.
  intros HL H. apply nth_ext with (d := d) (d' := d).
  - unfold zlen in HL; lia.
  - intros n Hn. specialize (H (Z.of_nat n)). unfold zn, zlen in H.
    rewrite Nat2Z.id in H. apply H. lia.
Qed.

Lemma length_upd_nat {A} (l : list A) i v : length (upd_nat l i v) = length l.
Proof. revert i; induction l; intros [|i]; cbn; auto. Qed.

Lemma zlen_upd {A} (l : list A) i v : zlen (upd l i v) = zlen l.
Proof. unfold zlen, upd; now rewrite length_upd_nat. Qed.

Lemma nth_upd_nat {A} (d : A) l i j v :
  (i < length l)%nat -> nth j (upd_nat l i v) d = if Nat.eqb j i then v else nth j l d.
Proof.
  revert i j; induction l; intros i j H; [cbn in H; lia|].
  destruct i, j; cbn [upd_nat nth Nat.eqb]; try reflexivity.
  apply IHl. cbn in H; lia.
Qed.

Lemma zn_upd {A} (d : A) l i j v :
  0 <= i < zlen l -> 0 <= j -> zn d (upd l i v) j = if j =? i then v else zn d l j.
Proof.
  intros Hi Hj; unfold zn, upd, zlen in *. rewrite nth_upd_nat by lia.
  destruct (Nat.eqb_spec (Z.to_nat j) (Z.to_nat i)), (Z.eqb_spec j i); try lia; reflexivity.
Qed.

Lemma geti_ok l i : 0 <= i < zlen l -> geti l i = Ok (zn 0 l i).
Proof.
  intros; unfold geti.
  destruct (Z.leb_spec 0 i), (Z.ltb_spec i (zlen l)); cbn; try lia; reflexivity.
Qed.

Lemma geti_inv l i v : geti l i = Ok v -> 0 <= i < zlen l /\ v = zn 0 l i.
Proof.
  unfold geti. destruct (Z.leb_spec 0 i), (Z.ltb_spec i (zlen l)); cbn; try discriminate.
  intros E; inversion E; auto.
Qed.

Lemma seti_ok l i v : 0 <= i < zlen l -> seti l i v = Ok (upd l i v).
Proof.
  intros; unfold seti.
  destruct (Z.leb_spec 0 i), (Z.ltb_spec i (zlen l)); cbn; try lia; reflexivity.
Qed.

(** ** wraps *)
Lemma wrap_small w x : 0 <= x < 2 ^ w -> wrap w x = x.
Proof. intros; unfold wrap; apply Z.mod_small; lia. Qed.

Lemma wrap_bound w x : 0 <= w -> 0 <= wrap w x < 2 ^ w.
Proof. intros; unfold wrap; apply Z.mod_pos_bound; apply Z.pow_pos_nonneg; lia. Qed.

Lemma wrap_wrap w x : 0 <= w -> wrap w (wrap w x) = wrap w x.
Proof. intros; apply wrap_small, wrap_bound; auto. Qed.

Lemma wrap_add_l w x y : wrap w (wrap w x + y) = wrap w (x + y).
Proof. unfold wrap.
  destruct (Z.eq_dec (2 ^ w) 0) as [E|E]; [rewrite E, !Zmod_0_r; reflexivity|].
  apply Z.add_mod_idemp_l; auto. Qed.

Lemma wrap_add_r w x y : wrap w (x + wrap w y) = wrap w (x + y).
Proof. rewrite Z.add_comm, wrap_add_l, Z.add_comm; reflexivity. Qed.

Lemma wrap_eq_add w a b c : wrap w a = wrap w b -> wrap w (a + c) = wrap w (b + c).
Proof. intros H. rewrite <- (wrap_add_l w a), H, wrap_add_l; reflexivity. Qed.

(** ** sums *)
Lemma sumn_split f lo n m : sumn f lo (n + m) = sumn f lo n + sumn f (lo + Z.of_nat n) m.
Proof.
  revert lo; induction n; intros; cbn [Nat.add sumn].
  - replace (lo + Z.of_nat 0) with lo by lia. lia.
  - rewrite IHn. replace (lo + 1 + Z.of_nat n) with (lo + Z.of_nat (S n)) by lia. lia.
Qed.

Lemma sumf_split f lo mid hi : lo <= mid <= hi -> sumf f lo hi = sumf f lo mid + sumf f mid hi.
Proof.
  intros; unfold sumf. replace (Z.to_nat (hi - lo)) with (Z.to_nat (mid - lo) + Z.to_nat (hi - mid))%nat by lia.
  rewrite sumn_split. do 2 f_equal. lia.
Qed.

Lemma sumf_empty f lo hi : hi <= lo -> sumf f lo hi = 0.
Proof. intros; unfold sumf. replace (Z.to_nat (hi - lo)) with O by lia. reflexivity. Qed.

Lemma sumf_one f i : sumf f i (i + 1) = f i.
Proof. unfold sumf. replace (Z.to_nat (i + 1 - i)) with 1%nat by lia. cbn; lia. Qed.

Lemma sumf_succ f lo hi : lo <= hi -> sumf f lo (hi + 1) = sumf f lo hi + f hi.
Proof. intros; rewrite (sumf_split f lo hi (hi + 1)) by lia. now rewrite sumf_one. Qed.

Lemma sumf_first f lo hi : lo < hi -> sumf f lo hi = f lo + sumf f (lo + 1) hi.
Proof. intros; rewrite (sumf_split f lo (lo + 1) hi) by lia. now rewrite sumf_one. Qed.

Lemma sumn_ext f g n : forall lo, (forall i, lo <= i < lo + Z.of_nat n -> f i = g i) -> sumn f lo n = sumn g lo n.
Proof.
  induction n; intros lo H; cbn [sumn]; [reflexivity|].
  rewrite H by lia. f_equal. apply IHn. intros; apply H; lia.
Qed.

Lemma sumf_ext f g lo hi : (forall i, lo <= i < hi -> f i = g i) -> sumf f lo hi = sumf g lo hi.
Proof. intros H; unfold sumf; apply sumn_ext; intros; apply H; lia. Qed.

Lemma sumn_bound f b n : forall lo, (forall i, lo <= i < lo + Z.of_nat n -> 0 <= f i <= b) ->
  0 <= sumn f lo n <= b * Z.of_nat n.
Proof.
  induction n; intros lo H; cbn [sumn]; [lia|].
  pose proof (H lo ltac:(lia)).
  assert (0 <= sumn f (lo + 1) n <= b * Z.of_nat n) by (apply IHn; intros; apply H; lia).
  lia.
Qed.

Lemma sumf_bound f b lo hi : lo <= hi -> (forall i, lo <= i < hi -> 0 <= f i <= b) ->
  0 <= sumf f lo hi <= b * (hi - lo).
Proof.
  intros L H; unfold sumf.
  pose proof (sumn_bound f b (Z.to_nat (hi - lo)) lo) as B.
  rewrite Z2Nat.id in B by lia. apply B. intros; apply H; lia.
Qed.

Lemma sumf_nonneg f lo hi : (forall i, lo <= i < hi -> 0 <= f i) -> 0 <= sumf f lo hi.
Proof.
  intros H; unfold sumf. remember (Z.to_nat (hi - lo)) as n.
  assert (K : forall i, lo <= i < lo + Z.of_nat n -> 0 <= f i) by (intros; apply H; lia).
  clear Heqn H. revert lo K; induction n; intros; cbn [sumn]; [lia|].
  pose proof (K lo ltac:(lia)). pose proof (IHn (lo + 1)).
  assert (0 <= sumn f (lo + 1) n) by (apply H0; intros; apply K; lia). lia.
Qed.

Lemma sumf_mono f lo a b : lo <= a <= b -> (forall i, a <= i < b -> 0 <= f i) -> sumf f lo a <= sumf f lo b.
Proof.
  intros L H. rewrite (sumf_split f lo a b) by lia.
  pose proof (sumf_nonneg f a b H). lia.
Qed.

Lemma sumf_shift f lo hi d : sumf (fun t => f (t + d)) lo hi = sumf f (lo + d) (hi + d).
Proof.
  unfold sumf. replace (hi + d - (lo + d)) with (hi - lo) by lia.
  remember (Z.to_nat (hi - lo)) as n. clear Heqn. revert lo.
  induction n; intros; cbn [sumn]; [reflexivity|].
  rewrite IHn. do 2 f_equal. lia.
Qed.

Lemma sumf_const0 f lo hi : (forall i, lo <= i < hi -> f i = 0) -> sumf f lo hi = 0.
Proof.
  intros. rewrite (sumf_ext f (fun _ => 0)) by auto.
  unfold sumf. generalize (Z.to_nat (hi - lo)) as n. clear. intros n.
  revert lo; induction n; intros; cbn [sumn]; [reflexivity|]. rewrite IHn; lia.
Qed.

Lemma sumf_plus f g lo hi : sumf (fun t => f t + g t) lo hi = sumf f lo hi + sumf g lo hi.
Proof.
  unfold sumf. generalize (Z.to_nat (hi - lo)) as n. intros n.
  revert lo; induction n; intros; cbn [sumn]; [reflexivity|].
  rewrite IHn. lia.
Qed.

(** Point update of a function. *)
Definition fadd (f : Z -> Z) (i d : Z) : Z -> Z := fun t => if t =? i then f t + d else f t.

Lemma sumf_fadd f i d lo hi :
  lo <= hi ->
  sumf (fadd f i d) lo hi = sumf f lo hi + (if (lo <=? i) && (i <? hi) then d else 0).
Proof.
  intros L. destruct (Z.leb_spec lo i), (Z.ltb_spec i hi); cbn [andb];
    try (rewrite Z.add_0_r; apply sumf_ext; intros t Ht; unfold fadd;
         destruct (Z.eqb_spec t i); [lia|reflexivity]).
  rewrite (sumf_split _ lo i hi), (sumf_split f lo i hi) by lia.
  rewrite (sumf_first _ i hi), (sumf_first f i hi) by lia.
  unfold fadd at 2. rewrite Z.eqb_refl.
  rewrite (sumf_ext (fadd f i d) f lo i), (sumf_ext (fadd f i d) f (i + 1) hi).
  - lia.
  - intros t Ht; unfold fadd; destruct (Z.eqb_spec t i); [lia|reflexivity].
  - intros t Ht; unfold fadd; destruct (Z.eqb_spec t i); [lia|reflexivity].
Qed.

(** Sum of consecutive groups of [s]. *)
Lemma sumf_groups f s lo hi : 0 <= s -> lo <= hi ->
  sumf (fun c => sumf f (c * s) ((c + 1) * s)) lo hi = sumf f (lo * s) (hi * s).
Proof.
  intros Hs L. replace hi with (lo + Z.of_nat (Z.to_nat (hi - lo))) by lia.
  generalize (Z.to_nat (hi - lo)) as n. clear hi L.
  induction n.
  - rewrite !sumf_empty by nia. reflexivity.
  - replace (lo + Z.of_nat (S n)) with (lo + Z.of_nat n + 1) by lia.
    rewrite sumf_succ by lia. rewrite IHn.
    rewrite <- (sumf_split f (lo * s)) by nia. reflexivity.
Qed.
