(** Lemmas about byte memory. *)
From Verif Require Import Base BaseFacts Mem.
Ltac Zify.zify_post_hook ::= Z.div_mod_to_equations.

Definition bytes_ok (m : list Z) : Prop := forall k, 0 <= k < zlen m -> 0 <= zn 0 m k < 256.

Lemma zlen_wr n : forall m off v, zlen (wr n m off v) = zlen m.
Proof. induction n; intros; cbn [wr]; [auto|]. now rewrite IHn, zlen_upd. Qed.

Lemma zlen_wrv w v : forall m off, zlen (wrv w m off v) = zlen m.
Proof. induction v; intros; cbn [wrv]; [auto|]. now rewrite IHv, zlen_wr. Qed.

Lemma zn_wr_other n : forall m off v k, 0 <= off -> off + Z.of_nat n <= zlen m -> 0 <= k ->
  (k < off \/ off + Z.of_nat n <= k) -> zn 0 (wr n m off v) k = zn 0 m k.
Proof.
  induction n; intros m off v k Ho Hn Hk H; cbn [wr]; [reflexivity|].
  rewrite IHn; rewrite ?zlen_upd; try lia.
  rewrite zn_upd by lia. destruct (Z.eqb_spec k off); [lia|reflexivity].
Qed.

Lemma rd_wr_other n n2 : forall m off v off2, 0 <= off -> off + Z.of_nat n <= zlen m -> 0 <= off2 ->
  (off2 + Z.of_nat n2 <= off \/ off + Z.of_nat n <= off2) ->
  rd n2 (wr n m off v) off2 = rd n2 m off2.
Proof.
  induction n2; intros m off v off2 Ho Hn Hk H; cbn [rd]; [reflexivity|].
  rewrite zn_wr_other by lia. rewrite IHn2 by lia. reflexivity.
Qed.

Lemma pow256 n : 256 ^ Z.of_nat (S n) = 256 * 256 ^ Z.of_nat n.
Proof. rewrite Nat2Z.inj_succ, Z.pow_succ_r by lia. reflexivity. Qed.

Lemma rd_wr_same n : forall m off v, 0 <= off -> off + Z.of_nat n <= zlen m ->
  rd n (wr n m off v) off = v mod 256 ^ Z.of_nat n.
Proof.
  induction n; intros m off v Ho Hn; cbn [wr rd].
  - cbn. rewrite Z.mod_1_r. reflexivity.
  - rewrite zn_wr_other by (rewrite ?zlen_upd; lia).
    rewrite zn_upd by lia. rewrite Z.eqb_refl.
    rewrite IHn by (rewrite ?zlen_upd; lia).
    rewrite pow256. rewrite (Z.rem_mul_r v 256 (256 ^ Z.of_nat n)) by (try lia; apply Z.pow_nonzero; lia).
    reflexivity.
Qed.

Lemma pow256_2 n : 256 ^ Z.of_nat n = 2 ^ (8 * Z.of_nat n).
Proof. rewrite Z.pow_mul_r by lia. reflexivity. Qed.

Lemma rd_wr_same_w n m off v : 0 <= off -> off + Z.of_nat n <= zlen m ->
  rd n (wr n m off v) off = wrap (8 * Z.of_nat n) v.
Proof. intros; unfold wrap; rewrite rd_wr_same, pow256_2 by auto. reflexivity. Qed.

Lemma rd_bound n : forall m off, bytes_ok m -> 0 <= off -> off + Z.of_nat n <= zlen m ->
  0 <= rd n m off < 2 ^ (8 * Z.of_nat n).
Proof.
  intros m off Hm. rewrite <- pow256_2. revert off.
  induction n; intros off Ho Hn; cbn [rd]; [cbn; lia|].
  rewrite pow256. pose proof (Hm off ltac:(lia)). pose proof (IHn (off + 1) ltac:(lia) ltac:(lia)).
  nia.
Qed.

Lemma bytes_ok_upd m off v : bytes_ok m -> 0 <= v < 256 -> 0 <= off < zlen m -> bytes_ok (upd m off v).
Proof.
  intros Hm Hv Ho k Hk. rewrite zlen_upd in Hk. rewrite zn_upd by lia.
  destruct (k =? off); auto.
Qed.

Lemma bytes_ok_wr n : forall m off v, bytes_ok m -> 0 <= off -> off + Z.of_nat n <= zlen m -> bytes_ok (wr n m off v).
Proof.
  induction n; intros m off v Hm Ho Hn; cbn [wr]; [auto|].
  apply IHn; rewrite ?zlen_upd; try lia. apply bytes_ok_upd; auto; try lia.
Qed.

Lemma bytes_ok_wrv w v : forall m off, bytes_ok m -> 0 <= off -> off + Z.of_nat w * zlen v <= zlen m -> bytes_ok (wrv w m off v).
Proof.
  induction v; intros m off Hm Ho Hn; cbn [wrv]; [auto|]. rewrite zlen_cons in Hn.
  pose proof (zlen_nonneg v).
  apply IHv; rewrite ?zlen_wr; try nia. apply bytes_ok_wr; auto; nia.
Qed.

Lemma in_bounds_true m off len : 0 <= off -> off + len <= zlen m -> in_bounds m off len = true.
Proof. intros; unfold in_bounds. destruct (Z.leb_spec 0 off), (Z.leb_spec (off + len) (zlen m)); auto; lia. Qed.

Lemma load_ok n m off : 0 <= off -> off + Z.of_nat n <= zlen m -> load n m off = Ok (rd n m off).
Proof. intros; unfold load; now rewrite in_bounds_true. Qed.

Lemma store_ok n m off v : 0 <= off -> off + Z.of_nat n <= zlen m -> store n m off v = Ok (wr n m off v).
Proof. intros; unfold store; now rewrite in_bounds_true. Qed.

Lemma loadu_ok w lanes m off : 0 <= off -> off + Z.of_nat (w * lanes) <= zlen m ->
  loadu w lanes m off = Ok (rdv w lanes m off).
Proof. intros; unfold loadu; now rewrite in_bounds_true. Qed.

Lemma storeu_ok w m off v : 0 <= off -> off + Z.of_nat (w * length v) <= zlen m ->
  storeu w m off v = Ok (wrv w m off v).
Proof. intros; unfold storeu; now rewrite in_bounds_true. Qed.

Lemma load_aligned_ok trap base w lanes m off : 0 <= off -> off + Z.of_nat (w * lanes) <= zlen m ->
  (trap = true -> (base + off) mod Z.of_nat (w * lanes) = 0) ->
  load_aligned trap base w lanes m off = Ok (rdv w lanes m off).
Proof.
  intros; unfold load_aligned; rewrite in_bounds_true by auto.
  destruct trap; cbn [andb]; [|reflexivity]. rewrite H1 by auto. reflexivity.
Qed.

Lemma length_rdv w n : forall m off, length (rdv w n m off) = n.
Proof. induction n; intros; cbn; auto. Qed.

Lemma zn_rdv w n : forall m off i, 0 <= i < Z.of_nat n -> zn 0 (rdv w n m off) i = rd w m (off + Z.of_nat w * i).
Proof.
  induction n; intros m off i H; [lia|]. cbn [rdv].
  destruct (Z.eq_dec i 0) as [->|Hi].
  - rewrite zn_cons_0. f_equal. lia.
  - rewrite zn_cons_S by lia. rewrite IHn by lia. f_equal. lia.
Qed.

Lemma rd_wrv_other w n2 v : forall m off off2, 0 <= off -> off + Z.of_nat w * zlen v <= zlen m -> 0 <= off2 ->
  (off2 + Z.of_nat n2 <= off \/ off + Z.of_nat w * zlen v <= off2) ->
  rd n2 (wrv w m off v) off2 = rd n2 m off2.
Proof.
  induction v; intros m off off2 Ho Hn Hk H; cbn [wrv]; [reflexivity|].
  rewrite zlen_cons in *. pose proof (zlen_nonneg v).
  rewrite IHv; rewrite ?zlen_wr; try nia.
  rewrite rd_wr_other by nia. reflexivity.
Qed.

Lemma rd_wrv_same w v : forall m off i, 0 <= off -> off + Z.of_nat w * zlen v <= zlen m -> 0 <= i < zlen v ->
  rd w (wrv w m off v) (off + Z.of_nat w * i) = wrap (8 * Z.of_nat w) (zn 0 v i).
Proof.
  induction v; intros m off i Ho Hn Hi; [cbn in Hi; lia|].
  rewrite zlen_cons in *. pose proof (zlen_nonneg v). cbn [wrv].
  destruct (Z.eq_dec i 0) as [->|Hne].
  - rewrite zn_cons_0. rewrite Z.mul_0_r, Z.add_0_r.
    rewrite rd_wrv_other; rewrite ?zlen_wr; try nia.
    apply rd_wr_same_w; nia.
  - rewrite zn_cons_S by lia.
    rewrite <- (IHv (wr w m off a) (off + Z.of_nat w) (i - 1)); rewrite ?zlen_wr; try nia.
    f_equal. nia.
Qed.

Lemma zlen_map2 {A B C} (f : A -> B -> C) a : forall b, zlen a = zlen b -> zlen (map2 f a b) = zlen a.
Proof.
  unfold zlen. induction a; intros [|y b] H; cbn [map2 length] in *; [reflexivity|lia|lia|].
  specialize (IHa b). lia.
Qed.

Lemma zn_map2 {A B C} (f : A -> B -> C) da db dc a : forall b i, zlen a = zlen b -> 0 <= i < zlen a ->
  zn dc (map2 f a b) i = f (zn da a i) (zn db b i).
Proof.
  induction a as [|x a IHa]; intros [|y b] i H Hi; unfold zlen in *; cbn [length] in *; [lia..|].
  cbn [map2]. destruct (Z.eq_dec i 0) as [->|Hne]; [reflexivity|].
  rewrite !zn_cons_S by lia. apply IHa; lia.
Qed.

Lemma tbl_row_ok bits n tbl r : 0 <= r -> (r + 1) * Z.of_nat n <= zlen tbl ->
  tbl_row bits n tbl r = Ok (map (fun j => wrap bits (zn 0 tbl (r * Z.of_nat n + j))) (zrange 0 n)).
Proof.
  intros; unfold tbl_row.
  destruct (Z.leb_spec 0 r), (Z.leb_spec ((r + 1) * Z.of_nat n) (zlen tbl)); auto; lia.
Qed.

Lemma zn_set1 bits n x i : 0 <= i < Z.of_nat n -> zn 0 (set1 bits n x) i = wrap bits x.
Proof.
  intros; unfold zn, set1.
  rewrite nth_indep with (d' := wrap bits x); [apply nth_repeat|]. rewrite repeat_length; lia.
Qed.

Lemma zlen_repeat {A} (x : A) n : zlen (repeat x n) = Z.of_nat n.
Proof. unfold zlen; now rewrite repeat_length. Qed.
