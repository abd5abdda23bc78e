(** Facts about the files of the Fenwick trees: the byte order, reading back what was
    written. *)
From Coq Require Import ZifyBool.
From Verif Require Import Base BaseFacts Mem MemFacts SpecHft SpecHftFile Hft HftHybrid HftFile.
Ltac Zify.zify_post_hook ::= Z.div_mod_to_equations.

(** ** Byte order *)
Lemma le_split n : forall m a b, 0 <= b < 256 ^ Z.of_nat n -> le (n + m) (a * 256 ^ Z.of_nat n + b) = le n b ++ le m a.
Proof.
  induction n as [|n IH]; intros m a b Hb; [change (256 ^ Z.of_nat 0) with 1 in *; cbn; f_equal; lia|].
  rewrite Nat2Z.inj_succ, Z.pow_succ_r in * by lia. cbn [Nat.add le app]. assert (0 < 256 ^ Z.of_nat n) by (apply Z.pow_pos_nonneg; lia).
  replace (a * (256 * 256 ^ Z.of_nat n) + b) with (b + a * 256 ^ Z.of_nat n * 256) by ring.
  rewrite Z.mod_add, Z.div_add by lia. f_equal. rewrite Z.add_comm. apply IH. set (p := 256 ^ Z.of_nat n) in *. clearbody p. lia.
Qed.

Lemma be_low n : forall a b m, (n <= m)%nat -> be n (a * 256 ^ Z.of_nat m + b) = be n b.
Proof.
  induction n as [|n IH]; intros a b m H; [reflexivity|]. cbn [be]. rewrite IH by lia. f_equal.
  replace (Z.of_nat m) with (Z.of_nat n + 1 + (Z.of_nat m - Z.of_nat n - 1)) by lia. rewrite !Z.pow_add_r by lia.
  set (p := 256 ^ Z.of_nat n). set (q := 256 ^ (Z.of_nat m - Z.of_nat n - 1)). assert (0 < p) by (apply Z.pow_pos_nonneg; lia).
  replace (a * (p * 256 ^ 1 * q) + b) with (b + a * q * 256 * p) by ring. rewrite Z.div_add by lia. rewrite Z.mod_add by lia. reflexivity.
Qed.
Lemma be_split n : forall m a b, 0 <= b < 256 ^ Z.of_nat m -> be (n + m) (a * 256 ^ Z.of_nat m + b) = be n a ++ be m b.
Proof.
  induction n as [|n IH]; intros m a b H; [apply be_low; lia|]. cbn [Nat.add be app]. rewrite IH by auto. f_equal.
  rewrite Nat2Z.inj_add, Z.pow_add_r by lia. assert (0 < 256 ^ Z.of_nat m) by (apply Z.pow_pos_nonneg; lia). assert (0 < 256 ^ Z.of_nat n) by (apply Z.pow_pos_nonneg; lia).
  rewrite (Z.mul_comm (256 ^ Z.of_nat n)), <- Z.div_div by lia. f_equal. f_equal. rewrite Z.div_add_l by lia. rewrite Z.div_small by lia. lia.
Qed.

Lemma length_le w : forall v, length (le w v) = w.
Proof. induction w; intros; cbn; auto. Qed.
Lemma length_be w v : length (be w v) = w.
Proof. induction w; cbn; auto. Qed.

Lemma lor_shift a b k : 0 <= k -> 0 <= b < 2 ^ k -> Z.lor (Z.shiftl a k) b = a * 2 ^ k + b.
Proof.
  intros Hk Hb. assert (L : Z.land (Z.shiftl a k) b = 0).
  { apply Z.bits_inj'. intros i Hi. rewrite Z.land_spec, Z.bits_0, Z.shiftl_spec by lia. destruct (Z.ltb_spec i k); [rewrite (Z.testbit_neg_r a) by lia; reflexivity|].
    destruct (Z.eq_dec b 0) as [->|]; [rewrite Z.bits_0; apply andb_false_r|]. rewrite (Z.bits_above_log2 b); [apply andb_false_r|lia|].
    apply Z.lt_le_trans with k; [|lia]. apply Z.log2_lt_pow2; lia. }
  rewrite <- Z.lxor_lor by exact L. rewrite <- Z.add_nocarry_lxor by exact L. rewrite Z.shiftl_mul_pow2 by lia. reflexivity.
Qed.

(** One step of swap_endian. *)
Definition swaps (w : nat) (s : Z -> Z) : Prop := forall v, 0 <= v < 256 ^ Z.of_nat w ->
  0 <= s v < 256 ^ Z.of_nat w /\ le w (s v) = be w v /\ s (s v) = v.

Lemma swap_step n s s2 : swaps n s ->
  (forall v, 0 <= v < 256 ^ Z.of_nat (n + n) -> s2 v = s (v mod 256 ^ Z.of_nat n) * 256 ^ Z.of_nat n + s (v / 256 ^ Z.of_nat n)) -> swaps (n + n) s2.
Proof.
  intros H E. assert (P : 0 < 256 ^ Z.of_nat n) by (apply Z.pow_pos_nonneg; lia).
  assert (EP : 256 ^ Z.of_nat (n + n) = 256 ^ Z.of_nat n * 256 ^ Z.of_nat n) by (rewrite Nat2Z.inj_add; apply Z.pow_add_r; lia).
  intros v Hv. pose proof (Z.mod_pos_bound v (256 ^ Z.of_nat n) P) as M.
  assert (D : 0 <= v / 256 ^ Z.of_nat n < 256 ^ Z.of_nat n) by (split; [apply Z.div_pos; lia|apply Z.div_lt_upper_bound; lia]).
  destruct (H _ M) as (A1 & A2 & A3). destruct (H _ D) as (B1 & B2 & B3).
  rewrite EP in *. assert (R : 0 <= s2 v < 256 ^ Z.of_nat n * 256 ^ Z.of_nat n) by (rewrite E by auto; clear - P A1 B1; nia).
  split; [exact R|]. split.
  - rewrite E by auto. rewrite le_split by auto. rewrite A2, B2. rewrite <- be_split by auto. f_equal. rewrite (Z.div_mod v (256 ^ Z.of_nat n)) at 3 by lia. ring.
  - rewrite (E (s2 v)) by auto. rewrite (E v) by auto. set (p := 256 ^ Z.of_nat n) in *. set (x := s (v mod p)) in *. set (y := s (v / p)) in *.
    replace ((x * p + y) mod p) with y by (rewrite Z.add_comm, Z.mod_add, Z.mod_small; lia).
    replace ((x * p + y) / p) with x by (rewrite Z.div_add_l, (Z.div_small y); lia).
    rewrite A3, B3. rewrite (Z.div_mod v p) at 3 by lia. ring.
Qed.

Lemma swap_shift b s v : 0 < b -> (forall u, 0 <= u < 2 ^ b -> 0 <= s u < 2 ^ b) -> 0 <= v < 2 ^ (b + b) ->
  wrap (b + b) (Z.lor (Z.shiftl (s (wrap b (Z.land v (2 ^ b - 1)))) b) (s (wrap b (Z.shiftr v b)))) = s (v mod 2 ^ b) * 2 ^ b + s (v / 2 ^ b).
Proof.
  intros Hb Hs Hv. assert (P : 0 < 2 ^ b) by (apply Z.pow_pos_nonneg; lia). rewrite Z.pow_add_r in Hv by lia.
  replace (Z.land v (2 ^ b - 1)) with (v mod 2 ^ b) by (rewrite <- Z.land_ones by lia; f_equal; rewrite Z.ones_equiv; lia).
  rewrite Z.shiftr_div_pow2 by lia. pose proof (Z.mod_pos_bound v (2 ^ b) P) as M.
  assert (D : 0 <= v / 2 ^ b < 2 ^ b) by (split; [apply Z.div_pos; lia|apply Z.div_lt_upper_bound; lia]).
  rewrite (wrap_small b (v mod 2 ^ b)), (wrap_small b (v / 2 ^ b)) by auto. pose proof (Hs _ M) as A. pose proof (Hs _ D) as C.
  rewrite lor_shift by (auto; lia). apply wrap_small. rewrite Z.pow_add_r by lia. clear - P A C. nia.
Qed.

Lemma swaps1 : swaps 1 swap8.
Proof. intros v Hv. change (256 ^ Z.of_nat 1) with 256 in *. split; [exact Hv|]. split; [|reflexivity]. cbn [le be swap8 Z.of_nat]. change (256 ^ 0) with 1. rewrite Z.div_1_r. reflexivity. Qed.
Lemma swaps2 : swaps 2 swap16.
Proof.
  apply (swap_step 1 swap8); [apply swaps1|]. change (256 ^ Z.of_nat (1 + 1)) with (2 ^ (8 + 8)). change (256 ^ Z.of_nat 1) with (2 ^ 8).
  intros v Hv. apply (swap_shift 8 swap8); auto; lia.
Qed.
Lemma swaps4 : swaps 4 swap32.
Proof.
  apply (swap_step 2 swap16); [apply swaps2|]. change (256 ^ Z.of_nat (2 + 2)) with (2 ^ (16 + 16)). change (256 ^ Z.of_nat 2) with (2 ^ 16).
  intros v Hv. apply (swap_shift 16 swap16); auto; [lia|]. intros u Hu. apply (swaps2 u Hu).
Qed.
Lemma swaps8 : swaps 8 swap64.
Proof.
  apply (swap_step 4 swap32); [apply swaps4|]. change (256 ^ Z.of_nat (4 + 4)) with (2 ^ (32 + 32)). change (256 ^ Z.of_nat 4) with (2 ^ 32).
  intros v Hv. apply (swap_shift 32 swap32); auto; [lia|]. intros u Hu. apply (swaps4 u Hu).
Qed.

(** The widths that occur. *)
Definition wok (w : nat) : Prop := w = 1%nat \/ w = 2%nat \/ w = 8%nat.
Lemma swaps_w w : wok w -> swaps w (swap_endian w).
Proof. intros [-> |[-> | ->]]; [apply swaps1|apply swaps2|apply swaps8]. Qed.
Lemma wok8 : wok 8. Proof. right. right. reflexivity. Qed.
Lemma widths_ok lay : Forall wok (elem_widths lay).
Proof. destruct lay; cbn [elem_widths]; repeat (apply Forall_cons; [unfold wok; auto|]); apply Forall_nil. Qed.

Lemma put_be w v : wok w -> 0 <= v < 256 ^ Z.of_nat w -> put w v = be w v.
Proof. intros W H. apply (swaps_w w W v H). Qed.

(** ** Numbers and bytes *)
Lemma rd_app_le w : forall v pre rest, 0 <= v < 256 ^ Z.of_nat w -> rd w (pre ++ le w v ++ rest) (zlen pre) = v.
Proof.
  induction w as [|w IH]; intros v pre rest Hv; [change (256 ^ Z.of_nat 0) with 1 in Hv; cbn; lia|].
  rewrite Nat2Z.inj_succ, Z.pow_succ_r in Hv by lia. cbn [rd le app]. unfold zn, zlen. rewrite Nat2Z.id, app_nth2, Nat.sub_diag by lia. cbn [nth].
  replace (pre ++ v mod 256 :: le w (v / 256) ++ rest) with ((pre ++ [v mod 256]) ++ le w (v / 256) ++ rest) by (rewrite <- app_assoc; reflexivity).
  replace (Z.of_nat (length pre) + 1) with (zlen (pre ++ [v mod 256])) by (unfold zlen; rewrite app_length; cbn; lia).
  rewrite IH by (set (p := 256 ^ Z.of_nat w) in *; clearbody p; lia). lia.
Qed.
Lemma rd_le w v : 0 <= v < 256 ^ Z.of_nat w -> rd w (le w v) 0 = v.
Proof. intros H. pose proof (rd_app_le w v [] [] H) as E. rewrite app_nil_r in E. exact E. Qed.

Lemma ntoh_put w v : wok w -> 0 <= v < 256 ^ Z.of_nat w -> ntoh w (rd w (put w v) 0) = v.
Proof. intros W H. destruct (swaps_w w W v H) as (A & _ & C). unfold ntoh, put, hton. rewrite rd_le by auto. exact C. Qed.

Lemma rd_shift w : forall (x : Z) a p, 0 <= p -> rd w (x :: a) (p + 1) = rd w a p.
Proof.
  induction w as [|w IH]; intros x a p Hp; [reflexivity|]. cbn [rd]. rewrite IH by lia. f_equal. unfold zn. replace (Z.to_nat (p + 1)) with (S (Z.to_nat p)) by lia. reflexivity.
Qed.
Lemma bytes_cons x a : bytes_ok (x :: a) <-> 0 <= x < 256 /\ bytes_ok a.
Proof.
  unfold bytes_ok. split.
  - intros H. split; [apply (H 0); unfold zlen; cbn [length]; lia|]. intros k Hk. specialize (H (k + 1)). unfold zn, zlen in *. cbn [length] in H.
    replace (Z.to_nat (k + 1)) with (S (Z.to_nat k)) in H by lia. cbn [nth] in H. apply H. lia.
  - intros (H1 & H2) k Hk. destruct (Z.eq_dec k 0) as [->|]; [exact H1|]. unfold zn, zlen in *. cbn [length] in Hk. replace (Z.to_nat k) with (S (Z.to_nat (k - 1))) by lia. cbn [nth]. apply H2. lia.
Qed.
Lemma rd_range w : forall a, bytes_ok a -> 0 <= rd w a 0 < 256 ^ Z.of_nat w.
Proof.
  induction w as [|w IH]; intros a H; [change (256 ^ Z.of_nat 0) with 1; cbn; lia|]. rewrite Nat2Z.inj_succ, Z.pow_succ_r by lia. cbn [rd].
  destruct a as [|x a].
  - assert (E : forall n p, rd n [] p = 0) by (induction n as [|n IHn]; intros p; [reflexivity|]; cbn [rd]; rewrite IHn; unfold zn; destruct (Z.to_nat p); reflexivity).
    rewrite E. change (zn 0 [] 0) with 0. assert (0 < 256 ^ Z.of_nat w) by (apply Z.pow_pos_nonneg; lia). lia.
  - apply bytes_cons in H. destruct H as (H1 & H2). rewrite (rd_shift w x a 0) by lia. specialize (IH a H2). change (zn 0 (x :: a) 0) with x. lia.
Qed.
Lemma le_rd w : forall a, bytes_ok a -> (w <= length a)%nat -> le w (rd w a 0) = firstn w a.
Proof.
  induction w as [|w IH]; intros a H L; [reflexivity|]. destruct a as [|x a]; [cbn in L; lia|]. apply bytes_cons in H. destruct H as (H1 & H2).
  cbn [rd le firstn]. rewrite (rd_shift w x a 0) by lia. change (zn 0 (x :: a) 0) with x. pose proof (rd_range w a H2) as R.
  replace ((x + 256 * rd w a 0) mod 256) with x by (set (q := rd w a 0) in *; clearbody q; lia).
  replace ((x + 256 * rd w a 0) / 256) with (rd w a 0) by (set (q := rd w a 0) in *; clearbody q; lia). f_equal. apply IH; auto. cbn in L. lia.
Qed.
Lemma bytes_skip w : forall a, bytes_ok a -> bytes_ok (skipn w a).
Proof. induction w as [|w IH]; intros a H; [exact H|]. destruct a as [|x a]; [exact H|]. apply bytes_cons in H. apply IH. apply H. Qed.
Lemma bytes_app a b : bytes_ok a -> bytes_ok b -> bytes_ok (a ++ b).
Proof. intros H1 H2. induction a as [|x a IH]; [exact H2|]. apply bytes_cons in H1. cbn [app]. apply bytes_cons. split; [apply H1|apply IH, H1]. Qed.

Lemma cells_range w n : forall a, bytes_ok a -> Forall (fun v => 0 <= v < 256 ^ Z.of_nat w) (cells w n a).
Proof. induction n as [|n IH]; intros a H; cbn [cells]; constructor; [apply rd_range; auto|apply IH, bytes_skip, H]. Qed.
Lemma length_cells w n : forall a, length (cells w n a) = n.
Proof. induction n; intros; cbn; auto. Qed.

(** ** Reading what was written *)
Lemma is_read_app w x rest : length x = w -> is_read w (stream (x ++ rest)) = (x, stream rest).
Proof.
  intros L. unfold is_read, stream. cbn [is_fail is_data]. rewrite app_length. destruct (Nat.leb_spec w (length x + length rest)); [|lia].
  rewrite firstn_app, skipn_app. rewrite firstn_all2, (skipn_all2 x) by lia. replace (w - length x)%nat with 0%nat by lia. cbn. rewrite app_nil_r. reflexivity.
Qed.
Lemma length_put w v : length (put w v) = w.
Proof. apply length_le. Qed.

Lemma get_put v rest : 0 <= v < 2 ^ 64 -> get (stream (put 8 v ++ rest)) = Ok (v, stream rest).
Proof.
  intros H. unfold get. rewrite is_read_app by apply length_put. rewrite length_put. cbn [Nat.ltb Nat.leb]. rewrite ntoh_put by (apply wok8 || exact H). reflexivity.
Qed.

Lemma read_cells_put w n : wok w -> forall a rest, bytes_ok a -> length a = (w * n)%nat ->
  read_cells w n (stream (flat_map (put w) (cells w n a) ++ rest)) = (a, stream rest).
Proof.
  intros W. induction n as [|n IH]; intros a rest H L.
  - replace (w * 0)%nat with 0%nat in L by lia. destruct a; [reflexivity|discriminate].
  - cbn [read_cells cells flat_map]. rewrite <- app_assoc. rewrite is_read_app by apply length_put. rewrite IH; [|apply bytes_skip, H|rewrite skipn_length; lia].
    rewrite ntoh_put; [|exact W|apply rd_range, H]. rewrite le_rd by (auto; lia). rewrite firstn_skipn. reflexivity.
Qed.

Lemma lor_page x : 0 <= x -> Z.lor (4 * 1024 - 1) x = x / 4096 * 4096 + 4095.
Proof.
  intros H. pose proof (Z.div_mod x (2 ^ 12) ltac:(lia)) as E. pose proof (Z.mod_pos_bound x (2 ^ 12) ltac:(lia)) as R. change 4096 with (2 ^ 12).
  set (q := x / 2 ^ 12) in *. set (r := x mod 2 ^ 12) in *. clearbody q r. rewrite E, (Z.mul_comm (2 ^ 12)).
  rewrite <- (lor_shift q r 12), <- (lor_shift q 4095 12) by lia. rewrite Z.lor_comm, <- Z.lor_assoc. f_equal. change (4 * 1024 - 1) with (Z.ones 12).
  rewrite Z.lor_ones_low; [reflexivity|lia|]. destruct (Z.eq_dec r 0) as [->|]; [cbn; lia|]. apply Z.log2_lt_pow2; lia.
Qed.
Lemma page_aligned_ok w n : wok w -> 0 <= n -> n * Z.of_nat w <= 2 ^ 63 -> page_aligned w n = page_bytes (n * Z.of_nat w).
Proof.
  intros W Hn Hm. unfold page_aligned, page_bytes. rewrite (wrap_small 64 (n * Z.of_nat w)) by nia. set (m := n * Z.of_nat w) in *.
  destruct (Z.eq_dec m 0) as [->|N]; [reflexivity|]. assert (0 < m) by (subst m; nia). clearbody m. rewrite (wrap_small 64 (m - 1)) by lia.
  rewrite lor_page by lia. rewrite wrap_small by lia. lia.
Qed.
Lemma page_bytes_ge m : m <= page_bytes m.
Proof. unfold page_bytes. lia. Qed.

Definition arr_ok (w : nat) (a : list Z) : Prop := bytes_ok a /\ zlen a mod Z.of_nat w = 0 /\ zlen a <= 2 ^ 63.

Lemma arr_size w a : wok w -> arr_ok w a -> darray_size w a * Z.of_nat w = zlen a /\ 0 <= darray_size w a <= 2 ^ 63.
Proof. intros W (_ & M & L). unfold darray_size. pose proof (Zle_0_nat (length a)) as P. fold (zlen a) in P. destruct W as [-> |[-> | ->]]; lia. Qed.

Lemma load_save_darray w a rest : wok w -> arr_ok w a -> load_darray w (stream (save_darray w a ++ rest)) = Ok (a, stream rest).
Proof.
  intros W H. destruct (arr_size w a W H) as (E & R). pose proof H as (HB & _ & HL). unfold load_darray, save_darray. rewrite <- app_assoc.
  rewrite get_put by lia. cbn [bind]. rewrite page_aligned_ok by (auto; lia). rewrite E. pose proof (page_bytes_ge (zlen a)).
  destruct (Z.ltb_spec (page_bytes (zlen a)) (zlen a)); [lia|]. rewrite read_cells_put; auto. unfold zlen in E. nia.
Qed.

Lemma load_save_arrays : forall ws arrs rest, Forall wok ws -> Forall2 arr_ok ws arrs -> load_arrays ws (stream (save_arrays ws arrs ++ rest)) = Ok (arrs, stream rest).
Proof.
  induction ws as [|w ws IH]; intros arrs rest HW H; inversion H; subst; [reflexivity|]. inversion HW; subst. cbn [save_arrays load_arrays]. rewrite <- app_assoc.
  rewrite load_save_darray by auto. cbn [bind]. rewrite IH by auto. reflexivity.
Qed.

Lemma get_levels_put : forall l rest, Forall (fun v => 0 <= v < 2 ^ 64) l -> get_levels (length l) (stream (flat_map (put 8) l ++ rest)) = Ok (l, stream rest).
Proof.
  induction l as [|v l IH]; intros rest H; [reflexivity|]. inversion H; subst. cbn [length get_levels flat_map]. rewrite <- app_assoc. rewrite get_put by auto. cbn [bind]. rewrite IH by auto. reflexivity.
Qed.

Definition saveable (t : ftree) : Prop :=
  0 <= ft_size t < 2 ^ 64 /\ zlen (ft_level t) < 2 ^ 64 /\ Forall (fun v => 0 <= v < 2 ^ 64) (ft_level t) /\
  (is_l (ft_lay t) = false -> ft_level t = []) /\ Forall2 arr_ok (elem_widths (ft_lay t)) (ft_arr t).

Lemma load_save t t0 rest : saveable t -> ft_lay t0 = ft_lay t -> ft_bound t0 = ft_bound t -> ft_load t0 (stream (ft_save t ++ rest)) = Ok (t, stream rest).
Proof.
  intros (H1 & H2 & H3 & H4 & H5) EL EB. unfold ft_load, ft_save. rewrite <- !app_assoc. rewrite get_put by auto. cbn [bind]. rewrite EL, EB.
  destruct (is_l (ft_lay t)) eqn:Q.
  - rewrite <- !app_assoc. rewrite get_put by (unfold zlen in *; lia). cbn [bind]. unfold zlen. rewrite Nat2Z.id. rewrite get_levels_put by auto. cbn [bind].
    rewrite load_save_arrays by (auto; apply widths_ok). cbn [bind]. destruct t; reflexivity.
  - cbn [app bind]. rewrite load_save_arrays by (auto; apply widths_ok). cbn [bind]. rewrite <- (H4 eq_refl). destruct t; reflexivity.
Qed.
