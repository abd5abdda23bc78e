(** Facts about the poppy index of bitmaps of 2^32 bits and more: constructor and rank. *)
From Coq Require Import ZifyBool.
From Verif Require Import Base BaseFacts Words WordFacts BlockFacts NodeFacts Spec BitmapFacts ProgramFacts SpecPoppy SpecPoppyBig Poppy PoppyFacts PoppyFacts2 PoppyBigFacts.
Ltac Zify.zify_post_hook ::= Z.div_mod_to_equations.

Lemma cap_fits ws i : piece ws i + 8191 < 2 ^ 32 -> cap_of ws i = cdiv (piece ws i) 8192.
Proof. intros H. pose proof (piece_bound ws i). unfold cap_of. rewrite !(wrap_small 32) by (rewrite ?(wrap_small 32); lia). reflexivity. Qed.
Lemma cap_wraps ws i : 2 ^ 32 <= piece ws i + 8191 -> cap_of ws i = 0.
Proof. intros H. pose proof (piece_bound ws i). unfold cap_of, wrap. lia. Qed.
Lemma cap_bound ws i : 0 <= cap_of ws i < 2 ^ 32.
Proof. unfold cap_of. assert (0 <= u32 (u32 (piece ws i) + 8192 - 1) < 2 ^ 32) by (unfold wrap; apply Z.mod_pos_bound; lia). lia. Qed.

(** The locations of piece i. *)
Definition locs_ok (ws : list Z) (i : Z) (loc : list Z) : Prop :=
  zlen loc = cdiv (piece ws i) 8192 /\
  forall j, 0 <= j < zlen loc -> 0 <= zn 0 loc j < 2 ^ 32 /\ mb ws (2 ^ 32 * i + zn 0 loc j) = 1 /\
    ms ws (2 ^ 32 * i) (2 ^ 32 * i + zn 0 loc j) = 8192 * j.

Lemma loc_step_big ws junk i locs cnts : words ws -> 64 * zlen ws < 2 ^ 49 -> 0 <= i -> 2 ^ 32 * (i + 1) <= 64 * zlen ws ->
  (piece ws i + 8191 < 2 ^ 32 /\ exists loc, locs_ok ws i loc /\
     loc_step ws junk (64 * zlen ws / 512) (2 ^ 23 * i, locs, cnts) (cap_of ws i) =
     Ok (2 ^ 23 * (i + 1), locs ++ [loc], cnts ++ [cdiv (piece ws i) 8192])) \/
  (2 ^ 32 <= piece ws i + 8191 /\ loc_step ws junk (64 * zlen ws / 512) (2 ^ 23 * i, locs, cnts) (cap_of ws i) = Ub UB_bounds).
Proof.
  intros W Hn Hi Hin. unfold loc_step. set (loc := map junk _). pose proof (cap_bound ws i) as HC.
  assert (Hloc : zlen loc = cap_of ws i) by (unfold loc; rewrite zlen_map; unfold zlen; rewrite length_zrange; lia).
  clearbody loc. pose proof (piece_bound ws i) as PB.
  assert (EP : ms ws (2 ^ 32 * i) (2 ^ 32 * i + 2 ^ 32) = piece ws i) by (unfold piece; f_equal; lia).
  destruct (pass2_big ws i (cap_of ws i) loc W Hn Hi Hin Hloc HC) as [([[ones loc'] cnt] & E2 & P2)|(E2 & P2)]; rewrite E2; cbn [bind].
  - destruct P2 as (_ & EC & LL & LC & PJ). rewrite EP in *.
    destruct (Z_lt_le_dec (piece ws i + 8191) (2 ^ 32)) as [F|F].
    + left. split; [exact F|]. rewrite (cap_fits ws i F) in *. exists loc'. split.
      * split; [exact LL|]. intros j Hj. apply PJ. lia.
      * rewrite EC. reflexivity.
    + exfalso. rewrite (cap_wraps ws i F) in LC. unfold cdiv in *. lia.
  - right. split; [|reflexivity]. destruct (Z_lt_le_dec (piece ws i + 8191) (2 ^ 32)) as [F|F]; [|exact F].
    rewrite (cap_fits ws i F) in P2. lia.
Qed.

Lemma locs_big ws junk : words ws -> 64 * zlen ws < 2 ^ 49 -> forall n i locs cnts, 0 <= i -> 2 ^ 32 * (i + Z.of_nat n) <= 64 * zlen ws ->
  ((forall j, i <= j < i + Z.of_nat n -> piece ws j + 8191 < 2 ^ 32) /\
     exists more, length more = n /\ (forall j, 0 <= j < Z.of_nat n -> locs_ok ws (i + j) (zn [] more j)) /\
     foldM (loc_step ws junk (64 * zlen ws / 512)) (map (cap_of ws) (zrange i n)) (2 ^ 23 * i, locs, cnts) =
     Ok (2 ^ 23 * (i + Z.of_nat n), locs ++ more, cnts ++ map (fun j => cdiv (piece ws j) 8192) (zrange i n))) \/
  ((exists j, i <= j < i + Z.of_nat n /\ 2 ^ 32 <= piece ws j + 8191) /\
     foldM (loc_step ws junk (64 * zlen ws / 512)) (map (cap_of ws) (zrange i n)) (2 ^ 23 * i, locs, cnts) = Ub UB_bounds).
Proof.
  intros W Hn. induction n as [|n IH]; intros i locs cnts Hi Hin.
  - left. split; [intros; lia|]. exists []. split; [reflexivity|]. split; [intros; lia|]. cbn [zrange map foldM].
    rewrite !app_nil_r. do 3 f_equal. lia.
  - cbn [zrange map foldM].
    destruct (loc_step_big ws junk i locs cnts W Hn Hi ltac:(lia)) as [(F & loc & LO & E)|(F & E)]; rewrite E; cbn [bind].
    + destruct (IH (i + 1) (locs ++ [loc]) (cnts ++ [cdiv (piece ws i) 8192]) ltac:(lia) ltac:(lia)) as [(FA & more & LM & PM & EM)|((j & Hj & Bj) & EM)].
      * left. split. { intros j Hj. destruct (Z.eq_dec j i) as [->|]; [exact F|]. apply FA. lia. }
        exists (loc :: more). split; [cbn; lia|]. split.
        { intros j Hj. destruct (Z.eq_dec j 0) as [->|]; [rewrite Z.add_0_r; exact LO|].
          replace (i + j) with (i + 1 + (j - 1)) by lia. replace (zn [] (loc :: more) j) with (zn [] more (j - 1)).
          - apply PM. lia.
          - unfold zn. replace (Z.to_nat j) with (S (Z.to_nat (j - 1))) by lia. reflexivity. }
        rewrite EM. rewrite <- !app_assoc. cbn [app]. do 3 f_equal. lia.
      * right. split; [exists j; split; [lia|exact Bj]|exact EM].
    + right. split; [exists i; split; [lia|exact F]|reflexivity].
Qed.

(** The index of [ws]. *)
Record binv (ws : list Z) (t : poppy) : Prop := {
  bi_bits : p_bits t = ws;
  bi_n : p_nbits t = 64 * zlen ws;
  bi_l1len : zlen (p_l1 t) = 64 * zlen ws / 2 ^ 32;
  bi_l1 : forall j, 0 <= j < 64 * zlen ws / 2 ^ 32 -> zn 0 (p_l1 t) j = ms ws 0 (2 ^ 32 * j);
  bi_l2len : zlen (p_l2 t) = 64 * zlen ws / 2048;
  bi_l2 : forall g, 0 <= g < 2 ^ 21 * (64 * zlen ws / 2 ^ 32) -> zn 0 (p_l2 t) g = big_entry ws (2 ^ 32 * (g / 2 ^ 21)) g;
  bi_loc : forall i, 0 <= i < 64 * zlen ws / 2 ^ 32 -> locs_ok ws i (zn [] (p_loc t) i);
  bi_cnt : p_loc_count t = map (fun j => cdiv (piece ws j) 8192) (zrange 0 (Z.to_nat (64 * zlen ws / 2 ^ 32)));
  bi_count : p_count t = ms ws 0 (2 ^ 32 * (64 * zlen ws / 2 ^ 32)) }.

Lemma cum_exact ws m : (forall j, 0 <= j < m -> piece ws j + 8191 < 2 ^ 32) -> 0 <= m -> cum_ones ws m = ms ws 0 (2 ^ 32 * m).
Proof.
  intros F Hm. revert F. pattern m. apply natlike_ind; [reflexivity| |exact Hm]. intros i Hi IH F. unfold Z.succ in *.
  unfold cum_ones in *. rewrite sumf_succ by lia. rewrite IH by (intros; apply F; lia).
  rewrite (ms_split ws 0 (2 ^ 32 * i) (2 ^ 32 * (i + 1))) by lia. f_equal.
  fold (piece ws i). pose proof (piece_bound ws i). specialize (F i ltac:(lia)). apply wrap_small. lia.
Qed.

Lemma poppy_new_big junk ws : words ws -> 2 ^ 32 <= 64 * zlen ws < 2 ^ 48 ->
  ((forall i, 0 <= i < 64 * zlen ws / 2 ^ 32 -> piece ws i + 8191 < 2 ^ 32) /\
     exists t, poppy_new junk ws (64 * zlen ws) = Ok t /\ binv ws t /\
       forall g, 2 ^ 21 * (64 * zlen ws / 2 ^ 32) <= g < 64 * zlen ws / 2048 -> zn 0 (p_l2 t) g = junk g) \/
  ((exists i, 0 <= i < 64 * zlen ws / 2 ^ 32 /\ 2 ^ 32 <= piece ws i + 8191) /\ poppy_new junk ws (64 * zlen ws) = Ub UB_bounds).
Proof.
  intros W Hn. unfold poppy_new. cbv zeta. rewrite !Z.shiftr_div_pow2 by lia. change (2 ^ 11) with 2048.
  set (n := 64 * zlen ws) in *. set (m := n / 2 ^ 32). replace (Z.max m 1) with m by (unfold m; lia).
  set (l1 := map junk (zrange 0 (Z.to_nat m))). set (l2 := map junk (zrange 0 (Z.to_nat (n / 2048)))).
  assert (Hm : 1 <= m) by (unfold m; lia).
  destruct (foldM_inv (l1_step ws (n / 2048)) (pass1_inv junk ws) (Z.to_nat m) 0 (l1, l2, 0, 0, [], 0)) as (st & E1 & P1).
  - assert (LZ : forall k, 0 <= k -> zlen (map junk (zrange 0 (Z.to_nat k))) = k).
    { intros k Hk. rewrite zlen_map. unfold zlen. rewrite length_zrange. lia. }
    unfold pass1_inv. fold n. split; [apply LZ; lia|]. split; [apply LZ; lia|]. repeat split; intros; try lia.
    unfold l2 in *. rewrite LZ in H by lia. rewrite (zn_map junk 0 0) by (unfold zlen in *; rewrite length_zrange; lia). f_equal. rewrite zn_zrange; lia.
  - intros k st Hk P. apply l1_step_big; auto; fold n; fold m; lia.
  - rewrite E1. cbn [bind]. replace (0 + Z.of_nat (Z.to_nat m)) with m in P1 by lia.
    destruct st as [[[[[l1' l2'] id] b] caps] p]. destruct P1 as (L1 & L2 & -> & -> & -> & -> & Q1 & Q2 & Q3).
    assert (RM : 2 ^ 32 * m <= n) by (unfold m; lia).
    destruct (locs_big ws junk W ltac:(fold n; lia) (Z.to_nat m) 0 [] [] ltac:(lia) ltac:(fold n; lia)) as [(FA & more & LM & PM & EM)|((j & Hj & Bj) & EM)];
      replace (2 ^ 23 * 0) with 0 in EM by lia; fold n in EM; rewrite EM; cbn [bind app].
    + left. assert (F : forall i, 0 <= i < m -> piece ws i + 8191 < 2 ^ 32) by (intros i Hi; apply FA; lia). split; [exact F|].
      eexists. split; [reflexivity|]. split; [|cbn [p_l2]; intros g Hg; apply Q3; rewrite L2; exact Hg].
      constructor; cbn [p_bits p_nbits p_l1 p_l2 p_loc p_loc_count p_count]; fold n; fold m; auto.
      * intros j Hj. rewrite Q1 by lia. apply cum_exact; [|lia]. intros; apply F; lia.
      * intros i Hi. apply (PM i). lia.
      * apply cum_exact; [exact F|lia].
    + right. split; [|reflexivity]. exists j. split; [lia|exact Bj].
Qed.

(** ** rank *)
Lemma big_low ws B G : B <= 2048 * G < B + 2 ^ 32 -> Z.land (big_entry ws B G) 0xFFFFFFFF = ms ws B (2048 * G).
Proof.
  intros Hg. change 0xFFFFFFFF with (Z.ones 32). rewrite Z.land_ones by lia. unfold big_entry.
  pose proof (ms_bound ws B (2048 * G) ltac:(lia)). rewrite (Z.mul_comm (2 ^ 32)), Z.mod_add by lia. apply Z.mod_small. lia.
Qed.
Lemma big_high ws B G : B <= 2048 * G < B + 2 ^ 32 ->
  Z.shiftr (big_entry ws B G) 32 = blk ws (4 * G) + 1024 * (blk ws (4 * G + 1) + 1024 * blk ws (4 * G + 2)).
Proof.
  intros Hg. rewrite Z.shiftr_div_pow2 by lia. unfold big_entry.
  pose proof (ms_bound ws B (2048 * G) ltac:(lia)). rewrite (Z.mul_comm (2 ^ 32)), Z.div_add by lia. rewrite Z.div_small by lia. lia.
Qed.

Lemma big_rank_ok dbg ws t pos : words ws -> 64 * zlen ws < 2 ^ 48 -> binv ws t -> 0 <= pos < 2 ^ 32 * (64 * zlen ws / 2 ^ 32) ->
  poppy_rank dbg t pos = Ok (ms ws 0 pos).
Proof.
  intros W Hn I Hp. assert (Hpn : pos < 64 * zlen ws) by lia.
  unfold poppy_rank. rewrite massert_true by (rewrite (bi_n _ _ I); lia). cbn [bind].
  rewrite !(Z.shiftr_div_pow2 pos) by lia. change (2 ^ 11) with 2048.
  set (i := pos / 2 ^ 32). assert (Hi : 0 <= i < 64 * zlen ws / 2 ^ 32) by (unfold i; lia).
  set (g := pos / 2048). assert (Hg : 0 <= g < 2 ^ 21 * (64 * zlen ws / 2 ^ 32)) by (unfold g; lia).
  assert (Ei : g / 2 ^ 21 = i) by (unfold g, i; lia). assert (HB : 2 ^ 32 * i <= 2048 * g < 2 ^ 32 * i + 2 ^ 32) by lia.
  rewrite geti_ok by (rewrite (bi_l2len _ _ I); lia). cbn [bind]. rewrite (bi_l2 _ _ I) by lia. rewrite Ei.
  rewrite geti_ok by (rewrite (bi_l1len _ _ I); lia). cbn [bind]. rewrite (bi_l1 _ _ I) by lia.
  rewrite big_low by lia. rewrite big_high by lia.
  change 2047 with (Z.ones 11). change 511 with (Z.ones 9). rewrite !Z.land_ones by lia. change (2 ^ 11) with 2048. change (2 ^ 9) with 512.
  set (q := pos mod 2048 / 512). assert (Hq : 0 <= q < 4) by (unfold q; lia).
  assert (Ep : pos = 2048 * g + 512 * q + pos mod 512) by (unfold g, q; lia).
  rewrite (bi_bits _ _ I). rewrite (wrap_small 64 ((g * 4 + q) * 8)) by lia.
  rewrite popcount_linear_ok by (auto; lia).
  replace (64 * ((g * 4 + q) * 8) + pos mod 512) with pos by lia. replace (64 * ((g * 4 + q) * 8)) with (2048 * g + 512 * q) by lia.
  rewrite <- ms_split by lia.
  pose proof (ms_bound ws 0 (2048 * g) ltac:(lia)). pose proof (blk_bound ws (4 * g)). pose proof (blk_bound ws (4 * g + 1)).
  pose proof (blk_bound ws (4 * g + 2)). pose proof (ms_bound ws (2048 * g + 512 * q) pos ltac:(lia)).
  rewrite (wrap_small 64 (ms ws 0 (2048 * g))) by lia.
  assert (B0 : ms ws 0 (2048 * g) + blk ws (4 * g) = ms ws 0 (2048 * g + 512)).
  { rewrite (ms_split ws 0 (2048 * g) (2048 * g + 512)) by lia. unfold blk. f_equal. f_equal; lia. }
  assert (B1 : ms ws 0 (2048 * g + 512) + blk ws (4 * g + 1) = ms ws 0 (2048 * g + 1024)).
  { rewrite (ms_split ws 0 (2048 * g + 512) (2048 * g + 1024)) by lia. unfold blk. f_equal. f_equal; lia. }
  assert (B2 : ms ws 0 (2048 * g + 1024) + blk ws (4 * g + 2) = ms ws 0 (2048 * g + 1536)).
  { rewrite (ms_split ws 0 (2048 * g + 1024) (2048 * g + 1536)) by lia. unfold blk. f_equal. f_equal; lia. }
  assert (SP : ms ws 0 pos = ms ws 0 (2048 * g + 512 * q) + ms ws (2048 * g + 512 * q) pos) by (apply ms_split; lia).
  pose proof (ms_bound ws 0 pos ltac:(lia)).
  assert (Cq : q = 0 \/ q = 1 \/ q = 2 \/ q = 3) by lia. clear Hg Hi HB Ei Ep. clearbody i g q.
  destruct Cq as [Eq|[Eq|[Eq|Eq]]]; rewrite Eq in *.
  - change (zrange 0 (Z.to_nat 0)) with (@nil Z). cbn [fold_left bind]. rewrite Z.mul_0_r, Z.add_0_r in *. rewrite <- SP. rewrite wrap_small by lia. reflexivity.
  - change (zrange 0 (Z.to_nat 1)) with [0]. cbn [fold_left bind]. rewrite low10 by lia. rewrite B0. change (512 * 1) with 512 in *.
    rewrite !(wrap_small 64) by (rewrite ?(wrap_small 64); lia). rewrite SP. reflexivity.
  - change (zrange 0 (Z.to_nat 2)) with [0; 1]. cbn [fold_left bind]. rewrite low10, high10 by lia. rewrite B0, low10 by lia.
    rewrite (wrap_small 64 (ms ws 0 (2048 * g + 512))) by lia. rewrite B1. change (512 * 2) with 1024 in *.
    rewrite !(wrap_small 64) by (rewrite ?(wrap_small 64); lia). rewrite SP. reflexivity.
  - change (zrange 0 (Z.to_nat 3)) with [0; 1; 2]. cbn [fold_left bind]. rewrite low10, high10 by lia. rewrite B0, low10, high10 by lia.
    rewrite (wrap_small 64 (ms ws 0 (2048 * g + 512))) by lia. rewrite B1.
    rewrite (wrap_small 64 (ms ws 0 (2048 * g + 1024))) by lia.
    replace (Z.land (blk ws (4 * g + 2)) 1023) with (blk ws (4 * g + 2)).
    2:{ change 1023 with (Z.ones 10). rewrite Z.land_ones by lia. rewrite Z.mod_small; lia. }
    rewrite B2. change (512 * 3) with 1536 in *.
    rewrite !(wrap_small 64) by (rewrite ?(wrap_small 64); lia). rewrite SP. reflexivity.
Qed.

Lemma big_rank_out dbg ws t pos : binv ws t -> 2 ^ 32 * (64 * zlen ws / 2 ^ 32) <= pos <= 64 * zlen ws ->
  poppy_rank dbg t pos = Ub UB_bounds.
Proof.
  intros I Hp. pose proof (zlen_nonneg ws). unfold poppy_rank. rewrite massert_true by (rewrite (bi_n _ _ I); lia). cbn [bind].
  rewrite !Z.shiftr_div_pow2 by lia. change (2 ^ 11) with 2048. unfold geti at 1. rewrite (bi_l2len _ _ I).
  destruct ((0 <=? pos / 2048) && (pos / 2048 <? 64 * zlen ws / 2048)) eqn:E; [|reflexivity]. cbn [bind].
  unfold geti. rewrite (bi_l1len _ _ I).
  replace ((0 <=? pos / 2 ^ 32) && (pos / 2 ^ 32 <? 64 * zlen ws / 2 ^ 32)) with false by lia. reflexivity.
Qed.
