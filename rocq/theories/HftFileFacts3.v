(** The format of the files of the Fenwick trees, files cut short, hybrids, and
    bitCount. *)
From Coq Require Import ZifyBool.
From Verif Require Import Base BaseFacts Mem MemFacts SpecHft SpecHftFile Hft HftHybrid HftFile HftFileFacts HftFileFacts2.
Ltac Zify.zify_post_hook ::= Z.div_mod_to_equations.

Lemma state_saveable sh lay B t : ft_state sh lay B t -> saveable t /\ ft_lay t = lay /\ ft_bound t = B.
Proof.
  intros (A & ops & o & t0 & HF & HB & HR). apply runs_keeps in HR. split; [exact (keeps_saveable _ _ HR (build_saveable _ _ _ _ _ HF HB))|].
  destruct (build_class _ _ _ _ _ HB) as (C1 & C2 & _). destruct HR as (K1 & K2 & _). split; congruence.
Qed.

Lemma reads_back sh lay B t t0 rest : can_load lay = true -> ft_state sh lay B t -> ft_lay t0 = lay -> ft_bound t0 = B ->
  ft_load t0 (stream (ft_save t ++ rest)) = Ok (t, stream rest).
Proof. intros _ H E1 E2. destruct (state_saveable _ _ _ _ H) as (HS & L & BD). apply load_save; congruence || exact HS. Qed.

(** ** Format *)
Lemma flat_put w l : wok w -> Forall (fun v => 0 <= v < 256 ^ Z.of_nat w) l -> flat_map (put w) l = flat_map (be w) l.
Proof. intros W. induction 1; [reflexivity|]. cbn [flat_map]. rewrite put_be by auto. congruence. Qed.
Lemma cells_mem w n : forall a, bytes_ok a -> length a = (w * n)%nat -> flat_map (le w) (cells w n a) = a.
Proof.
  induction n as [|n IH]; intros a H L; [destruct a; [reflexivity|cbn in L; lia]|]. cbn [cells flat_map]. rewrite IH by (try apply bytes_skip; auto; rewrite skipn_length; lia).
  rewrite le_rd by (auto; lia). apply firstn_skipn.
Qed.
Definition contents (w : nat) (a : list Z) : list Z := cells w (Z.to_nat (darray_size w a)) a.
Lemma save_darray_file w a : wok w -> arr_ok w a -> save_darray w a = array_file w (contents w a) /\ flat_map (le w) (contents w a) = a.
Proof.
  intros W H. destruct (arr_size w a W H) as (E & R). pose proof H as (HB & _ & HL). split.
  - unfold save_darray, array_file. fold (contents w a). rewrite flat_put by (auto; apply cells_range; auto). f_equal.
    rewrite put_be by (try apply wok8; change (256 ^ Z.of_nat 8) with (2 ^ 64); lia). f_equal. unfold contents, zlen. rewrite length_cells. lia.
  - apply cells_mem; auto. unfold zlen in E. nia.
Qed.
Lemma save_arrays_file : forall ws arrs, Forall wok ws -> Forall2 arr_ok ws arrs ->
  exists xs, save_arrays ws arrs = arrays_file ws xs /\ Forall2 (fun '(w, x) a => flat_map (le w) x = a) (combine ws xs) arrs /\ length xs = length ws.
Proof.
  induction ws as [|w ws IH]; intros arrs HW H; inversion H; subst; [exists []; repeat split; constructor|]. inversion HW; subst.
  destruct (IH l') as (xs & E1 & E2 & E3); auto. destruct (save_darray_file w y) as (F1 & F2); auto. exists (contents w y :: xs). cbn [save_arrays arrays_file combine length].
  split; [congruence|]. split; [constructor; auto|congruence].
Qed.

Lemma file_format sh lay B t : ft_state sh lay B t -> exists arrays,
  ft_save t = tree_file lay (ft_size t) (ft_level t) arrays /\ length arrays = length (elem_widths lay) /\
  Forall2 (fun '(w, xs) a => flat_map (le w) xs = a) (combine (elem_widths lay) arrays) (ft_arr t).
Proof.
  intros H. destruct (state_saveable _ _ _ _ H) as ((H1 & H2 & H3 & H4 & H5) & L & _). destruct (save_arrays_file _ _ (widths_ok _) H5) as (xs & E1 & E2 & E3). rewrite L in *.
  exists xs. split; [|auto]. unfold ft_save, tree_file, array_file. rewrite L, E1. change (256 ^ Z.of_nat 8) with (2 ^ 64).
  rewrite put_be by (try apply wok8; exact H1). destruct (is_l lay); [|reflexivity]. rewrite put_be, flat_put; [reflexivity|apply wok8|exact H3|apply wok8|].
  pose proof (Zle_0_nat (length (ft_level t))). unfold zlen in *. change (256 ^ Z.of_nat 8) with (2 ^ 64). lia.
Qed.

Lemma zlen_flat w l : zlen (flat_map (be w) l) = Z.of_nat w * zlen l.
Proof. induction l as [|x l IH]; [cbn; lia|]. cbn [flat_map]. unfold zlen in *. rewrite app_length, length_be. cbn [length]. nia. Qed.
Lemma zlen_flat_le w l : zlen (flat_map (le w) l) = Z.of_nat w * zlen l.
Proof. induction l as [|x l IH]; [cbn; lia|]. cbn [flat_map]. unfold zlen in *. rewrite app_length, length_le. cbn [length]. nia. Qed.
Lemma arrays_file_size : forall ws xs arrs, Forall2 (fun '(w, x) a => flat_map (le w) x = a) (combine ws xs) arrs -> length xs = length ws ->
  zlen (arrays_file ws xs) = fold_right Z.add 0 (map (fun a => 8 + zlen a) arrs).
Proof.
  induction ws as [|w ws IH]; intros xs arrs H L; destruct xs as [|x xs]; try discriminate L; cbn [combine] in H; inversion H; subst; [reflexivity|].
  cbn [arrays_file map fold_right]. unfold array_file. rewrite <- IH with (xs := xs) by (auto; cbn in L; lia). rewrite zlen_flat_le. pose proof (zlen_flat w x) as Q. pose proof (length_be 8 (zlen x)). unfold zlen in *. rewrite !app_length. lia.
Qed.
Lemma file_size sh lay B t : ft_state sh lay B t ->
  zlen (ft_save t) = 8 + (if is_l lay then 8 + 8 * zlen (ft_level t) else 0) + fold_right Z.add 0 (map (fun a => 8 + zlen a) (ft_arr t)).
Proof.
  intros H. destruct (file_format _ _ _ _ H) as (xs & E & L & F). rewrite E. rewrite <- (arrays_file_size _ _ _ F L). unfold tree_file, array_file.
  pose proof (length_be 8 (ft_size t)). pose proof (length_be 8 (zlen (ft_level t))). pose proof (zlen_flat 8 (ft_level t)). unfold zlen in *. destruct (is_l lay); rewrite !app_length; cbn [length]; lia.
Qed.

(** ** Files cut short *)
Lemma get_short f : (length f < 8)%nat -> get (stream f) = Ub UB_uninit.
Proof.
  intros H. unfold get, is_read, stream. cbn [is_fail is_data]. destruct (Nat.leb_spec 8 (length f)); [lia|]. destruct (Nat.ltb_spec (length f) 8); [reflexivity|lia].
Qed.
Lemma firstn_put k v rest : (8 <= k)%nat -> firstn k (put 8 v ++ rest) = put 8 v ++ firstn (k - 8) rest.
Proof. intros H. rewrite firstn_app, length_put. rewrite firstn_all2 by (rewrite length_put; lia). reflexivity. Qed.
Lemma get_cut k v rest : (k < 8)%nat -> get (stream (firstn k (put 8 v ++ rest))) = Ub UB_uninit.
Proof. intros H. apply get_short. rewrite firstn_length. lia. Qed.

Lemma get_levels_cut : forall l k rest, Forall (fun v => 0 <= v < 2 ^ 64) l ->
  ((k < 8 * length l)%nat -> get_levels (length l) (stream (firstn k (flat_map (put 8) l ++ rest))) = Ub UB_uninit) /\
  ((8 * length l <= k)%nat -> get_levels (length l) (stream (firstn k (flat_map (put 8) l ++ rest))) = Ok (l, stream (firstn (k - 8 * length l) rest))).
Proof.
  induction l as [|v l IH]; intros k rest H.
  - split; [cbn; lia|]. intros _. cbn [length get_levels flat_map app]. rewrite Nat.mul_0_r, Nat.sub_0_r. reflexivity.
  - inversion H; subst. cbn [length get_levels flat_map]. rewrite <- app_assoc. destruct (Nat.lt_ge_cases k 8) as [K|K].
    + split; [|lia]. intros _. rewrite get_cut by auto. reflexivity.
    + rewrite firstn_put by auto. rewrite get_put by auto. cbn [bind]. destruct (IH (k - 8)%nat rest H3) as (I1 & I2). split; intros Q.
      * rewrite I1 by lia. reflexivity.
      * rewrite I2 by lia. cbn [bind]. replace (k - 8 * S (length l))%nat with (k - 8 - 8 * length l)%nat by lia. reflexivity.
Qed.

Lemma le_zero w : le w 0 = repeat 0 w.
Proof. induction w; [reflexivity|]. cbn [le repeat]. rewrite Z.mod_0_l, Z.div_0_l by lia. congruence. Qed.
Lemma rd_nil w : forall p, rd w [] p = 0.
Proof. induction w as [|w IH]; intros p; [reflexivity|]. cbn [rd]. rewrite IH. unfold zn. destruct (Z.to_nat p); reflexivity. Qed.
Lemma read_failed w n : wok w -> read_cells w n failed = (repeat 0 (w * n), failed).
Proof.
  intros W. induction n as [|n IH]; [rewrite Nat.mul_0_r; reflexivity|]. cbn [read_cells]. change (is_read w failed) with (@nil Z, failed). cbn iota. rewrite IH. rewrite rd_nil.
  replace (ntoh w 0) with 0 by (destruct W as [-> |[-> | ->]]; reflexivity). rewrite le_zero, <- repeat_app. replace (w * S n)%nat with (w + w * n)%nat by lia. reflexivity.
Qed.

Lemma read_cut w n : wok w -> forall a k, bytes_ok a -> length a = (w * n)%nat -> (k < w * n)%nat ->
  exists mid, length mid = w /\ (Nat.modulo k w = 0%nat -> mid = repeat 0 w) /\
  read_cells w n (stream (firstn k (flat_map (put w) (cells w n a)))) = (firstn (w * (k / w)) a ++ mid ++ repeat 0 (w * (n - k / w - 1)), failed).
Proof.
  intros W. assert (W0 : w <> 0%nat) by (destruct W as [-> |[-> | ->]]; lia). induction n as [|n IH]; intros a k H L K; [lia|]. cbn [read_cells cells flat_map].
  destruct (Nat.lt_ge_cases k w) as [KW|KW].
  - rewrite (Nat.div_small k w) by auto. rewrite Nat.mul_0_r. cbn [firstn app]. rewrite firstn_app, length_put. replace (k - w)%nat with 0%nat by lia. cbn [firstn]. rewrite app_nil_r.
    exists (le w (ntoh w (rd w (firstn k (put w (rd w a 0))) 0))). split; [apply length_le|]. split.
    + rewrite Nat.mod_small by auto. intros ->. cbn [firstn]. rewrite rd_nil. replace (ntoh w 0) with 0 by (destruct W as [-> |[-> | ->]]; reflexivity). apply le_zero.
    + unfold is_read at 1, stream. cbn [is_fail is_data]. rewrite firstn_length, length_put. destruct (Nat.leb_spec w (Nat.min k w)); [lia|]. fold failed.
      rewrite read_failed by auto. replace (S n - 0 - 1)%nat with n by lia. reflexivity.
  - rewrite firstn_app, length_put. rewrite firstn_all2 by (rewrite length_put; lia). rewrite is_read_app by apply length_put.
    destruct (IH (skipn w a) (k - w)%nat) as (mid & M1 & M2 & M3); [apply bytes_skip, H|rewrite skipn_length; lia|lia|]. exists mid. split; [exact M1|].
    assert (D : (k / w = 1 + (k - w) / w)%nat). { replace k with ((k - w) + 1 * w)%nat at 1 by lia. rewrite Nat.div_add by auto. lia. }
    assert (M : (k mod w = (k - w) mod w)%nat). { replace k with ((k - w) + 1 * w)%nat at 1 by lia. apply Nat.mod_add. auto. }
    split; [rewrite M; exact M2|]. rewrite M3. rewrite ntoh_put; [|exact W|apply rd_range, H]. rewrite le_rd by (auto; lia). rewrite D. f_equal.
    rewrite app_assoc. replace (S n - (1 + (k - w) / w) - 1)%nat with (n - (k - w) / w - 1)%nat by lia. f_equal.
    replace (w * (1 + (k - w) / w))%nat with (w + w * ((k - w) / w))%nat by lia. rewrite <- (firstn_skipn w a) at 3. rewrite firstn_app.
    rewrite firstn_length, Nat.min_l by lia. rewrite (firstn_all2 (firstn w a)) by (rewrite firstn_length; lia). replace (w + w * ((k - w) / w) - w)%nat with (w * ((k - w) / w))%nat by lia. reflexivity.
Qed.

Lemma darray_cut w a k : wok w -> arr_ok w a ->
  ((k < 8)%nat -> load_darray w (stream (firstn k (save_darray w a))) = Ub UB_uninit) /\
  ((8 <= k < 8 + length a)%nat -> exists mid, length mid = w /\ (Nat.modulo (k - 8) w = 0%nat -> mid = repeat 0 w) /\
     load_darray w (stream (firstn k (save_darray w a))) = Ok (firstn (w * ((k - 8) / w)) a ++ mid ++ repeat 0 (length a - w * ((k - 8) / w) - w), failed)).
Proof.
  intros W H. destruct (arr_size w a W H) as (E & R). pose proof H as (HB & _ & HL). split; intros K; unfold load_darray, save_darray.
  - rewrite get_cut by auto. reflexivity.
  - rewrite firstn_put by lia. rewrite get_put by lia. cbn [bind]. rewrite page_aligned_ok by (auto; lia). rewrite E. pose proof (page_bytes_ge (zlen a)).
    destruct (Z.ltb_spec (page_bytes (zlen a)) (zlen a)); [lia|]. assert (LA : length a = (w * Z.to_nat (darray_size w a))%nat) by (unfold zlen in E; nia).
    destruct (read_cut w (Z.to_nat (darray_size w a)) W a (k - 8) HB LA ltac:(lia)) as (mid & M1 & M2 & M3). exists mid. split; [exact M1|]. split; [exact M2|]. rewrite M3. replace (length a - w * ((k - 8) / w) - w)%nat with (w * (Z.to_nat (darray_size w a) - (k - 8) / w - 1))%nat; [reflexivity|]. rewrite LA. rewrite !Nat.mul_sub_distr_l, Nat.mul_1_r. reflexivity.
Qed.

(** ** The trees that can be loaded have one array. *)
Lemma one_array lay : can_load lay = true -> exists w, elem_widths lay = [w] /\ wok w.
Proof. destruct lay; intros H; try discriminate H; eexists; (split; [reflexivity|]); unfold wok; auto. Qed.


Lemma load_cut sh lay B t t0 k : can_load lay = true -> ft_state sh lay B t -> ft_lay t0 = lay -> ft_bound t0 = B ->
  ((k < header_bytes lay (length (ft_level t)))%nat -> ft_load t0 (stream (firstn k (ft_save t))) = Ub UB_uninit) /\
  forall w a, elem_widths lay = [w] -> ft_arr t = [a] ->
  let d := (k - header_bytes lay (length (ft_level t)))%nat in
  (header_bytes lay (length (ft_level t)) <= k < length (ft_save t))%nat ->
  exists mid, length mid = w /\ (Nat.modulo d w = 0%nat -> mid = repeat 0 w) /\
    ft_load t0 (stream (firstn k (ft_save t))) =
      Ok (with_first t (firstn (w * (d / w)) a ++ mid ++ repeat 0 (length a - w * (d / w) - w)), {| is_data := []; is_fail := true |}).
Proof.
  intros HC H E1 E2. destruct (state_saveable _ _ _ _ H) as ((H1 & H2 & H3 & H4 & H5) & L & BD). destruct (one_array lay HC) as (w0 & EW & W). rewrite L, EW in H5.
  assert (X : exists a0, ft_arr t = [a0] /\ arr_ok w0 a0) by (inversion H5 as [|? a0 ? ? HA HN]; inversion HN; eauto). destruct X as (a0 & EQ2 & HA). clear H5.
  unfold ft_save. rewrite L, EW, EQ2. cbn [save_arrays]. rewrite app_nil_r.
  unfold ft_load. rewrite E1, EW. unfold header_bytes.
  assert (LZ : 0 <= zlen (ft_level t) < 2 ^ 64) by (split; [apply Zle_0_nat|exact H2]).
  assert (LS : length (save_darray w0 a0) = (8 + length a0)%nat).
  { destruct (save_darray_file w0 a0 W HA) as (F1 & F2). rewrite F1. unfold array_file. rewrite app_length, length_be. pose proof (zlen_flat w0 (contents w0 a0)). pose proof (zlen_flat_le w0 (contents w0 a0)) as Q. rewrite F2 in Q. unfold zlen in *. lia. }
  rewrite L in H4. destruct (is_l lay) eqn:Q.
  - rewrite <- !app_assoc. split.
    + intros K. destruct (Nat.lt_ge_cases k 8) as [K8|K8]; [rewrite get_cut by auto; reflexivity|]. rewrite firstn_put, get_put by auto. cbn [bind].
      destruct (Nat.lt_ge_cases (k - 8) 8) as [K9|K9]; [rewrite get_cut by auto; reflexivity|]. rewrite firstn_put, get_put by auto. cbn [bind].
      unfold zlen. rewrite Nat2Z.id. destruct (get_levels_cut (ft_level t) (k - 8 - 8) (save_darray w0 a0) H3) as (G1 & G2).
      destruct (Nat.lt_ge_cases (k - 8 - 8) (8 * length (ft_level t))) as [K1|K1]; [rewrite G1 by auto; reflexivity|]. rewrite G2 by auto. cbn [bind load_arrays].
      rewrite (proj1 (darray_cut w0 a0 _ W HA)) by lia. reflexivity.
    + intros w a EW' EA K. set (d := (k - (16 + (8 + 8 * length (ft_level t))))%nat). assert (w = w0) by congruence. assert (a = a0) by congruence. subst w a. rewrite !app_length, !length_put, LS in K.
      assert (LF : length (flat_map (put 8) (ft_level t)) = (8 * length (ft_level t))%nat) by (clear; induction (ft_level t) as [|v l IH]; [reflexivity|]; cbn [flat_map length]; rewrite app_length, length_put, IH; lia).
      rewrite LF in K. rewrite firstn_put, get_put by (auto; lia). cbn [bind]. rewrite firstn_put, get_put by (auto; lia). cbn [bind]. unfold zlen. rewrite Nat2Z.id.
      destruct (get_levels_cut (ft_level t) (k - 8 - 8) (save_darray w0 a0) H3) as (_ & G2). rewrite G2 by lia. cbn [bind load_arrays].
      destruct (proj2 (darray_cut w0 a0 (k - 8 - 8 - 8 * length (ft_level t)) W HA)) as (mid & M1 & M2 & M3); [lia|].
      replace (k - 8 - 8 - 8 * length (ft_level t) - 8)%nat with d in * by (subst d; lia). exists mid. split; [exact M1|]. split; [exact M2|]. rewrite M3. cbn [bind]. unfold with_first. rewrite L, BD, E2. reflexivity.
  - cbn [app]. split.
    + intros K. destruct (Nat.lt_ge_cases k 8) as [K8|K8]; [rewrite get_cut by auto; reflexivity|]. rewrite firstn_put, get_put by auto. cbn [bind load_arrays].
      rewrite (proj1 (darray_cut w0 a0 _ W HA)) by lia. reflexivity.
    + intros w a EW' EA K. set (d := (k - (16 + 0))%nat). assert (w = w0) by congruence. assert (a = a0) by congruence. subst w a. rewrite !app_length, !length_put, LS in K. cbn [length] in K.
      rewrite firstn_put, get_put by (auto; lia). cbn [bind load_arrays].
      destruct (proj2 (darray_cut w0 a0 (k - 8) W HA)) as (mid & M1 & M2 & M3); [lia|].
      replace (k - 8 - 8)%nat with d in * by (subst d; lia). exists mid. split; [exact M1|]. split; [exact M2|]. rewrite M3. cbn [bind]. unfold with_first. rewrite L, BD, E2, (H4 eq_refl). reflexivity.
Qed.

(** ** Hybrids *)
Lemma swap_grows n : 1 <= n < 2 ^ 32 -> 2 ^ 32 <= hton 8 n /\ hton 8 n < 2 ^ 64.
Proof.
  intros H. destruct (swaps_w 8 wok8 n) as (R & _); [change (256 ^ Z.of_nat 8) with (2 ^ 64); lia|]. change (256 ^ Z.of_nat 8) with (2 ^ 64) in R. split; [|apply R].
  change (2 ^ 32 <= swap64 n). unfold swap64. change 64 with (32 + 32). unfold u64, u32.
  change (2 ^ 32 <= wrap (32 + 32) (Z.lor (Z.shiftl (swap32 (wrap 32 (Z.land n (2 ^ 32 - 1)))) 32) (swap32 (wrap 32 (Z.shiftr n 32))))).
  rewrite swap_shift; [|lia|intros u Hu; apply (swaps4 u Hu)|lia]. rewrite (Z.mod_small n), (Z.div_small n) by lia. change (swap32 0) with 0.
  destruct (swaps4 n) as (S1 & _ & S3); [change (256 ^ Z.of_nat 4) with (2 ^ 32); lia|]. change (256 ^ Z.of_nat 4) with (2 ^ 32) in S1.
  assert (swap32 n <> 0) by (intros E; rewrite E in S3; vm_compute in S3; lia).
  clear S3 R. generalize dependent (swap32 n). intros v S1 S3. clear -S1 S3. lia.
Qed.

Lemma walk_off bots : forall n lo acc, 0 <= lo <= zlen bots -> zlen bots < lo + Z.of_nat n ->
  foldM (fun l i => let* b := getb bots i in Ok (l ++ ft_save b)) (zrange lo n) acc = Ub UB_bounds.
Proof.
  induction n as [|n IH]; intros lo acc H1 H2; [lia|]. cbn [zrange foldM]. unfold getb at 1. destruct (Z.ltb_spec lo 0); [lia|].
  destruct (nth_error bots (Z.to_nat lo)) as [b|] eqn:E; [|reflexivity]. cbn [bind].
  assert (Z.to_nat lo < length bots)%nat by (apply nth_error_Some; congruence). apply IH; unfold zlen in *; lia.
Qed.
Lemma hybrid_write h : 1 <= zlen (hy_bots h) < 2 ^ 32 -> hy_save h = Ub UB_bounds.
Proof.
  intros H. unfold hy_save. destruct (swap_grows (zlen (hy_bots h)) H) as (G1 & G2). rewrite walk_off; [reflexivity|lia|]. rewrite Z2Nat.id by lia. lia.
Qed.

Lemma build_bots_len sh lay B cut seq n l : build_bots sh lay B cut seq n = Ok l -> 0 <= n -> zlen l = n + 1.
Proof.
  unfold build_bots. intros H Hn. match type of H with foldM ?f _ _ = _ => assert (G : forall r acc l, foldM f r acc = Ok l -> zlen l = zlen acc + zlen r) end.
  { clear. induction r as [|i r IH]; intros acc l H; cbn [foldM] in H; [injection H as <-; unfold zlen; cbn; lia|]. unbind H. apply IH in H. unbind E. unbind E. injection E as <-.
    unfold zlen in *. rewrite app_length in H. cbn [length] in *. lia. }
  rewrite (G _ _ _ H). unfold zlen. rewrite length_zrange. cbn [length]. lia.
Qed.
Lemma hybrid_build_write sh top bot B cut A h : 0 <= cut < 64 -> zlen A / 2 ^ cut < 2 ^ 32 - 1 -> hy_build sh top bot B cut A = Ok h -> hy_save h = Ub UB_bounds.
Proof.
  intros Hc HN H. assert (P : 0 < 2 ^ cut) by (apply Z.pow_pos_nonneg; lia). assert (Q : 0 <= zlen A / 2 ^ cut) by (apply Z.div_pos; [apply Zle_0_nat|lia]).
  apply hybrid_write. unfold hy_build in H. unbind H. unbind H. unbind H. injection H as <-. cbn [hy_bots].
  assert (ES : ft_size a = zlen A / 2 ^ cut).
  { unfold build_top in E. unbind E. apply build_class in E. destruct E as (_ & _ & ->).
    match type of E2 with foldM ?f _ _ = _ => assert (G : forall r acc l, foldM f r acc = Ok l -> zlen l = zlen acc + zlen r) end.
    { clear. induction r as [|i r IH]; intros acc l H; cbn [foldM] in H; [injection H as <-; unfold zlen; cbn; lia|]. unbind H. apply IH in H. unbind E. injection E as <-.
      unfold zlen in *. rewrite app_length in H. cbn [length] in *. lia. }
    rewrite (G _ _ _ E2). unfold zlen at 2. rewrite length_zrange. rewrite Z.shiftr_div_pow2 by lia. change (zlen []) with 0. rewrite Z2Nat.id by lia. lia. }
  rewrite (build_bots_len _ _ _ _ _ _ _ E0) by lia. lia.
Qed.

(** What reading leaves of a stream. *)
Definition left (s : istr) : Z := zlen (is_data s).
Lemma is_read_left n s bs s' : is_read n s = (bs, s') -> left s' <= left s.
Proof.
  unfold is_read, left. destruct (is_fail s); [intros [= <- <-]; lia|]. destruct (n <=? length (is_data s))%nat; intros [= <- <-]; cbn [stream is_data]; unfold zlen; [rewrite skipn_length|cbn [length]]; lia.
Qed.
Lemma ok_pair {A B} (a : A) (b : B) c d : Ok (a, b) = Ok (c, d) -> b = d.
Proof. intros H. inversion H. reflexivity. Qed.
Lemma get_left s v s' : get s = Ok (v, s') -> left s' + 8 <= left s.
Proof.
  unfold get, is_read, left. destruct (is_fail s); [discriminate|]. destruct (Nat.leb_spec 8 (length (is_data s))).
  - destruct (length (firstn 8 (is_data s)) <? 8)%nat; [discriminate|]. intros H0. apply ok_pair in H0. subst s'. cbn [stream is_data]. unfold zlen. rewrite skipn_length. lia.
  - destruct (Nat.ltb_spec (length (is_data s)) 8); [discriminate|lia].
Qed.
Lemma read_cells_left w n : forall s a s', read_cells w n s = (a, s') -> left s' <= left s.
Proof.
  induction n as [|n IH]; intros s a s' H; cbn [read_cells] in H; [injection H as <- <-; lia|]. destruct (is_read w s) as (bs & s1) eqn:E. destruct (read_cells w n s1) as (r & s2) eqn:E2.
  injection H as <- <-. apply is_read_left in E. apply IH in E2. lia.
Qed.
Lemma darray_left w s a s' : load_darray w s = Ok (a, s') -> left s' <= left s.
Proof.
  unfold load_darray. intros H. unbind H. destruct a0 as (n & s1). apply get_left in E. destruct (page_aligned w n <? n * Z.of_nat w); [discriminate|]. injection H as H. apply read_cells_left in H. lia.
Qed.
Lemma arrays_left : forall ws s a s', load_arrays ws s = Ok (a, s') -> left s' <= left s.
Proof.
  induction ws as [|w ws IH]; intros s a s' H; cbn [load_arrays] in H; [injection H as <- <-; lia|]. unbind H. destruct a0 as (a1 & s1). unbind H. destruct a0 as (a2 & s2). injection H as <- <-.
  apply darray_left in E. apply IH in E0. lia.
Qed.
Lemma levels_left : forall n s a s', get_levels n s = Ok (a, s') -> left s' <= left s.
Proof.
  induction n as [|n IH]; intros s a s' H; cbn [get_levels] in H; [injection H as <- <-; lia|]. unbind H. destruct a0 as (a1 & s1). unbind H. destruct a0 as (a2 & s2). injection H as <- <-.
  apply get_left in E. apply IH in E0. lia.
Qed.
Lemma load_left t s t' s' : ft_load t s = Ok (t', s') -> left s' + 8 <= left s.
Proof.
  unfold ft_load. intros H. unbind H. destruct a as (n & s1). unbind H. destruct a as (lv & s2). unbind H. destruct a as (ar & s3). injection H as <- <-.
  apply get_left in E. apply arrays_left in E1. assert (left s2 <= left s1); [|lia]. destruct (is_l (ft_lay t)).
  - unbind E0. destruct a as (m & s4). apply get_left in E2. apply levels_left in E0. lia.
  - injection E0 as <- <-. lia.
Qed.

Lemma bots_left sh bot B : forall (r : list Z) bots s bots' s', foldM (fun '(bots, s) (_ : Z) => let* b := ft_build sh bot B [] in let* '(b, s) := ft_load b s in Ok (bots ++ [b], s)) r (bots, s) = Ok (bots', s') ->
  left s' + 8 * zlen r <= left s /\ exists more, bots' = bots ++ more /\ zlen more = zlen r.
Proof.
  induction r as [|i r IH]; intros bots s bots' s' H; cbn [foldM] in H.
  - injection H as <- <-. change (zlen []) with 0. split; [lia|]. exists []. rewrite app_nil_r. auto.
  - unbind H. destruct a as (b1 & s1). unbind E. unbind E. destruct a0 as (b & s2). injection E as <- <-. apply IH in H. destruct H as (H1 & more & -> & H2). apply load_left in E1.
    replace (zlen (i :: r)) with (zlen r + 1) by (unfold zlen; cbn [length]; lia). split; [lia|]. exists (b :: more). rewrite <- app_assoc. split; [reflexivity|]. unfold zlen in *. cbn [length]. lia.
Qed.

Lemma hybrid_read sh bot B h n m rest : 1 <= n < 2 ^ 32 -> zlen rest < 2 ^ 32 -> forall r, hy_load sh bot B h (stream (be 8 m ++ be 8 n ++ rest)) <> Ok r.
Proof.
  intros Hn Hr r H. unfold hy_load in H. rewrite is_read_app in H by apply length_be. rewrite is_read_app in H by apply length_be. unbind H. destruct a as (top & s1).
  rewrite length_be in H. cbn [Nat.ltb Nat.leb] in H. unbind H. destruct a as (bots & s2). apply bots_left in E0. destruct E0 as (L1 & _). apply load_left in E.
  destruct (swap_grows n Hn) as (G1 & G2). rewrite <- (put_be 8 n) in L1 by (try apply wok8; change (256 ^ Z.of_nat 8) with (2 ^ 64); lia).
  unfold put in L1. rewrite rd_le in L1 by (change (256 ^ Z.of_nat 8) with (2 ^ 64); lia). unfold zlen in L1. rewrite length_zrange in L1. change (left (stream rest)) with (zlen rest) in E.
  assert (0 <= left s2) by apply Zle_0_nat. lia.
Qed.

Lemma hybrid_read_keeps sh bot B h s h' s' : hy_load sh bot B h s = Ok (h', s') -> hy_size h' = hy_size h /\ exists more, hy_bots h' = hy_bots h ++ more.
Proof.
  unfold hy_load. destruct (is_read 8 s) as (b1 & s1). destruct (is_read 8 s1) as (nb & s2). intros H. unbind H. destruct a as (top & s3). destruct (length nb <? 8)%nat; [discriminate|].
  unbind H. destruct a as (bots & s4). injection H as <- <-. cbn [hy_size hy_bots]. split; [reflexivity|]. apply bots_left in E0. destruct E0 as (_ & more & -> & _). eauto.
Qed.

(** ** bitCount *)
Definition eqm (a b : Z) : Prop := u64 a = u64 b.
Lemma eqm_add a b c d : eqm a b -> eqm c d -> eqm (a + c) (b + d).
Proof. unfold eqm, u64, wrap. intros H1 H2. rewrite (Z.add_mod a c), (Z.add_mod b d) by lia. rewrite H1, H2. reflexivity. Qed.
Lemma eqm_u a : eqm (u64 a) a.
Proof. unfold eqm, u64, wrap. apply Z.mod_mod. lia. Qed.
Lemma eqm_refl a : eqm a a.
Proof. reflexivity. Qed.
Lemma eqm_sum f g (l : list ftree) : (forall t, In t l -> eqm (f t) (g t)) -> forall acc acc', eqm acc acc' -> eqm (fold_left (fun s t => u64 (s + f t)) l acc) (acc' + fold_right Z.add 0 (map g l)).
Proof.
  induction l as [|x l IH]; intros H acc acc' HA; cbn [fold_left map fold_right]; [rewrite Z.add_0_r; exact HA|].
  replace (acc' + (g x + fold_right Z.add 0 (map g l))) with ((acc' + g x) + fold_right Z.add 0 (map g l)) by ring. apply IH; [intros; apply H; right; auto|].
  unfold eqm. rewrite (eqm_u (acc + f x)). apply eqm_add; auto. apply H. left. reflexivity.
Qed.

Lemma darray_bits_ok w a : wok w -> arr_ok w a -> eqm (darray_bits w a - 16) (8 * page_bytes (zlen a) + 112).
Proof.
  intros W H. destruct (arr_size w a W H) as (E & R). pose proof H as (_ & _ & HL). unfold darray_bits. rewrite page_aligned_ok by (auto; lia). rewrite E.
  replace (8 * page_bytes (zlen a) + 112) with (16 * 8 + page_bytes (zlen a) * 8 + (-16)) by ring. unfold Z.sub. apply eqm_add; [apply eqm_u|apply eqm_refl].
Qed.
Lemma arrays_bits_ok : forall ws arrs, Forall wok ws -> Forall2 arr_ok ws arrs ->
  eqm (arrays_bits ws arrs) (8 * fold_right Z.add 0 (map page_bytes (map (@zlen Z) arrs)) + 112 * zlen arrs).
Proof.
  induction ws as [|w ws IH]; intros arrs HW H; inversion H; subst; [reflexivity|]. inversion HW; subst. cbn [arrays_bits map fold_right].
  replace (8 * (page_bytes (zlen y) + fold_right Z.add 0 (map page_bytes (map (zlen (A:=Z)) l'))) + 112 * zlen (y :: l'))
    with ((8 * page_bytes (zlen y) + 112) + (8 * fold_right Z.add 0 (map page_bytes (map (zlen (A:=Z)) l')) + 112 * zlen l')) by (unfold zlen; cbn [length]; lia).
  apply eqm_add; [apply darray_bits_ok; auto|apply IH; auto].
Qed.

Lemma f2_length {A B} (R : A -> B -> Prop) l l' : Forall2 R l l' -> length l = length l'.
Proof. induction 1; cbn [length]; congruence. Qed.
Lemma tree_bits_ok sh lay B t : ft_state sh lay B t ->
  eqm (ft_bits t) (tree_bits lay (zlen (ft_level t)) (map (@zlen Z) (ft_arr t)) + 112 * zlen (elem_widths lay)).
Proof.
  intros H. destruct (state_saveable _ _ _ _ H) as ((H1 & H2 & H3 & H4 & H5) & L & _). unfold ft_bits. pose proof (arrays_bits_ok _ _ (widths_ok _) H5) as AB. pose proof (f2_length _ _ _ H5) as LE. rewrite L in *.
  unfold eqm. rewrite (eqm_u _). unfold tree_bits.
  replace (zlen (elem_widths lay)) with (zlen (ft_arr t)) by (unfold zlen; lia).
  replace (8 * (object_bytes lay + 8 * zlen (ft_level t) + fold_right Z.add 0 (map page_bytes (map (zlen (A:=Z)) (ft_arr t)))) + 112 * zlen (ft_arr t))
    with (tree_sizeof lay * 8 + (8 * fold_right Z.add 0 (map page_bytes (map (zlen (A:=Z)) (ft_arr t))) + 112 * zlen (ft_arr t)) + (if is_l lay then zlen (ft_level t) * 8 * 8 else 0)).
  - apply eqm_add; [apply eqm_add; [apply eqm_refl|exact AB]|apply eqm_refl].
  - replace (object_bytes lay) with (tree_sizeof lay) by (destruct lay; reflexivity). destruct (is_l lay); [|rewrite (H4 eq_refl); change (zlen []) with 0]; ring.
Qed.
Lemma tree_bits_eq sh lay B t : ft_state sh lay B t ->
  ft_bits t = (tree_bits lay (zlen (ft_level t)) (map (@zlen Z) (ft_arr t)) + 112 * zlen (elem_widths lay)) mod 2 ^ 64.
Proof. intros H. pose proof (tree_bits_ok _ _ _ _ H) as E. unfold eqm in E. unfold ft_bits in *. rewrite (eqm_u _) in E. exact E. Qed.

Lemma hybrid_bits_eq sh top bot B B2 h : ft_state sh top B2 (hy_top h) -> Forall (ft_state sh bot B) (hy_bots h) ->
  hy_bits bot h = (hybrid_bits (bits_of (hy_top h)) (map bits_of (hy_bots h)) + 112 * (zlen (elem_widths top) + zlen (hy_bots h) * zlen (elem_widths bot)) + object_bytes bot - 336) mod 2 ^ 64.
Proof.
  intros HT HB. unfold hy_bits.
  assert (S : eqm (fold_left (fun s t => u64 (s + ft_bits t)) (hy_bots h) 0) (0 + fold_right Z.add 0 (map (fun t => bits_of t + 112 * zlen (elem_widths bot)) (hy_bots h)))).
  { apply eqm_sum; [|apply eqm_refl]. intros t Ht. rewrite Forall_forall in HB. specialize (HB t Ht). destruct (state_saveable _ _ _ _ HB) as (_ & L & _). pose proof (tree_bits_ok _ _ _ _ HB) as Q.
    unfold bits_of. rewrite L. exact Q. }
  assert (S2 : forall l, fold_right Z.add 0 (map (fun t => bits_of t + 112 * zlen (elem_widths bot)) l) = fold_right Z.add 0 (map bits_of l) + 112 * (zlen l * zlen (elem_widths bot))).
  { clear. induction l as [|x l IH]; [reflexivity|]. cbn [map fold_right]. rewrite IH. unfold zlen. cbn [length]. nia. }
  rewrite S2 in S. destruct (state_saveable _ _ _ _ HT) as (_ & L & _). pose proof (tree_bits_ok _ _ _ _ HT) as Q. rewrite <- L in Q. fold (bits_of (hy_top h)) in Q. rewrite L in Q.
  unfold hybrid_bits. replace (tree_sizeof bot) with (object_bytes bot) by (destruct bot; reflexivity).
  match goal with |- u64 ?a = ?b mod 2 ^ 64 => change (eqm a b) end.
  match goal with |- eqm _ ?b => replace b with ((0 + (fold_right Z.add 0 (map bits_of (hy_bots h)) + 112 * (zlen (hy_bots h) * zlen (elem_widths bot)))) + (24 + object_bytes bot + 24) + (bits_of (hy_top h) + 112 * zlen (elem_widths top))) by ring end.
  apply eqm_add; [apply eqm_add; [exact S|apply eqm_refl]|exact Q].
Qed.
