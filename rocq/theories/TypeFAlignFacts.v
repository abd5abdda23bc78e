(** Proofs about the alignment of TypeF. *)
From Coq Require Import ZifyBool.
From Verif Require Import Base BaseFacts Mem MemFacts SpecHft SpecTypeF Hft HftFacts HftBuild HftLayF HftClient MrMpeFacts3 TypeFAlign.
Ltac Zify.zify_post_hook ::= Z.div_mod_to_equations.

Lemma pos_width B i n : 0 <= B < 2 ^ 64 -> 1 <= i <= n -> n <= 2 ^ 48 -> bound_size B + Z.log2 n <= 64 ->
  typef_pos (bound_size B) i = tp (bound_size B) (i - 1) /\ 1 <= bound_size B <= 64 /\ bound_size B = width B /\ 0 <= ht i <= Z.log2 n.
Proof.
  intros HB Hi Hn HL. destruct (bound_size_ok B HB) as (E & R & _). pose proof (ht_log i n Hi). split; [apply typef_pos_ok; lia|]. unfold width. lia.
Qed.

Lemma log_small n k : 0 <= k -> 1 <= n < 2 ^ k -> Z.log2 n < k.
Proof. intros Hk Hn. apply Z.log2_lt_pow2; lia. Qed.

(** Below the size of [first_misaligned] every node is aligned. *)
Lemma aligned B n i : 0 <= B < 2 ^ 64 -> 1 <= i <= n -> n <= 2 ^ 48 -> bound_size B + Z.log2 n <= 64 -> first_misaligned B n = false ->
  typef_pos (bound_size B) i mod Z.of_nat (type_width (bound_size B + ht i)) = 0.
Proof.
  intros HB Hi Hn HL HM. destruct (pos_width B i n HB Hi Hn HL) as (-> & Hb & EW & Hh). unfold first_misaligned in HM. rewrite <- EW in HM.
  set (b := bound_size B) in *. clearbody b. unfold tp, type_width. destruct (Z.leb_spec b 8).
  - pose proof (log_small n (9 - b) ltac:(lia) ltac:(lia)). replace (17 <=? b + ht i) with false by lia. replace (9 <=? b + ht i) with false by lia. cbn [andb]. apply Z.mod_1_r.
  - destruct (Z.leb_spec b 16).
    + pose proof (log_small n (17 - b) ltac:(lia) ltac:(lia)). replace (17 <=? b + ht i) with false by lia. replace (9 <=? b + ht i) with true by lia. replace (b + ht i <=? 16) with true by lia. cbn [andb].
      change (2 ^ 0) with 1. rewrite Z.div_1_r. set (y := (i - 1) / 2 ^ (17 - b)). clearbody y. change (Z.of_nat 2) with 2. lia.
    + replace (17 <=? b + ht i) with true by lia. replace (b + ht i <=? 64) with true by lia. cbn [andb]. change (2 ^ 0) with 1. rewrite Z.div_1_r. change (Z.of_nat 8) with 8. lia.
Qed.

(** The first node of more than 8, or of more than 16 bits, is not. *)
Definition first_at (B : Z) : Z := if width B <=? 8 then 2 ^ (9 - width B) else 2 ^ (17 - width B).

Lemma first_range B n : 0 <= B < 2 ^ 64 -> first_misaligned B n = true -> 1 <= first_at B <= n /\ first_misaligned B (first_at B - 1) = false /\ width B <= 16.
Proof.
  intros HB H. destruct (bound_size_ok B HB) as (EB & R & _). unfold first_misaligned, first_at, width in *. rewrite <- EB in *. set (b := bound_size B) in *. clearbody b.
  destruct (Z.leb_spec b 8); [assert (0 < 2 ^ (9 - b)) by (apply Z.pow_pos_nonneg; lia); lia|].
  destruct (Z.leb_spec b 16); [assert (0 < 2 ^ (17 - b)) by (apply Z.pow_pos_nonneg; lia); lia|discriminate].
Qed.

Lemma first_bad B n : 0 <= B < 2 ^ 64 -> n <= 2 ^ 48 -> bound_size B + Z.log2 n <= 64 -> first_misaligned B n = true ->
  typef_pos (bound_size B) (first_at B) mod Z.of_nat (type_width (bound_size B + ht (first_at B))) <> 0.
Proof.
  intros HB Hn HL HM. destruct (first_range B n HB HM) as (HR & _ & H16).
  destruct (pos_width B (first_at B) n HB HR Hn HL) as (-> & Hb & EW & _). unfold first_at in *. rewrite <- EW in *. set (b := bound_size B) in *. clearbody b. clear HM HL.
  unfold tp. destruct (Z.leb_spec b 8) as [L|L].
  - replace (ht (2 ^ (9 - b))) with (9 - b) by (symmetry; apply (ht_unique _ _ 0); lia). replace (b + (9 - b)) with 9 by lia. change (type_width 9) with 2%nat. change (Z.of_nat 2) with 2.
    replace (b <=? 16) with true by lia.
    assert (P : 2 ^ (9 - b) = 2 * 2 ^ (8 - b)) by (rewrite <- Z.pow_succ_r by lia; f_equal; lia).
    assert (P2 : 2 ^ (9 - b) <= 2 ^ (17 - b)) by (apply Z.pow_le_mono_r; lia).
    rewrite (Z.div_small _ (2 ^ (9 - b))), (Z.div_small _ (2 ^ (17 - b))) by lia. lia.
  - replace (ht (2 ^ (17 - b))) with (17 - b) by (symmetry; apply (ht_unique _ _ 0); lia). replace (b + (17 - b)) with 17 by lia. change (type_width 17) with 8%nat. change (Z.of_nat 8) with 8.
    replace (b <=? 16) with true by lia. change (2 ^ 0) with 1. rewrite Z.div_1_r.
    assert (P : 2 ^ (17 - b) = 2 * 2 ^ (16 - b)) by (rewrite <- Z.pow_succ_r by lia; f_equal; lia).
    rewrite (Z.div_small _ (2 ^ (17 - b))) by lia. set (x := 2 ^ (16 - b)) in *. clearbody x. lia.
Qed.

(** ** The same as without the rule where all nodes are aligned *)
Definition tfree (B n : Z) (t : ftree) : Prop := ft_lay t = TypeF /\ ft_bound t = B /\ ft_size t = n.

Definition okb (B n : Z) : Prop := 0 <= B < 2 ^ 64 /\ n <= 2 ^ 48 /\ bound_size B + Z.log2 n <= 64 /\ first_misaligned B n = false.

Lemma get_same B n t i : okb B n -> tfree B n t -> 1 <= i <= n -> tf_get t i = node_get t i.
Proof.
  intros (HB & Hn & HL & HM) (EL & EB & _) Hi. unfold tf_get, node_get. rewrite EL, EB, rho_ok by lia. cbn [bind]. unfold cast_load.
  rewrite (aligned B n i HB Hi Hn HL HM). reflexivity.
Qed.
Lemma bump_same sh B n t i d : okb B n -> tfree B n t -> 1 <= i <= n -> tf_bump t i d = node_add sh t i d.
Proof.
  intros (HB & Hn & HL & HM) (EL & EB & _) Hi. unfold tf_bump, node_add. rewrite EL, EB, rho_ok by lia. cbn [bind]. unfold cast_load, cast_store.
  rewrite (aligned B n i HB Hi Hn HL HM). reflexivity.
Qed.
Lemma leaf_same sh B n t i v : okb B n -> tfree B n t -> 1 <= i <= n -> tf_leaf t i v = leaf_set sh t i v.
Proof.
  intros (HB & Hn & HL & HM) (EL & EB & _) Hi. unfold tf_leaf, leaf_set. rewrite EL, EB, rho_ok by lia. cbn [bind]. unfold cast_store.
  rewrite (aligned B n i HB Hi Hn HL HM). reflexivity.
Qed.

Lemma bump_keeps sh B n t i d t' : tfree B n t -> node_add sh t i d = Ok t' -> tfree B n t'.
Proof.
  intros (EL & EB & ES) H. unfold node_add in H. rewrite EL in H. destruct (rho i) as [h| |]; cbn [bind] in H; try discriminate.
  destruct (load _ _ _) as [v| |]; cbn [bind] in H; try discriminate. destruct (store _ _ _ _) as [m| |]; cbn [bind] in H; try discriminate.
  injection H as <-. repeat split; assumption.
Qed.
Lemma leaf_keeps sh B n t i d t' : tfree B n t -> leaf_set sh t i d = Ok t' -> tfree B n t'.
Proof.
  intros (EL & EB & ES) H. unfold leaf_set in H. rewrite EL in H. destruct (rho i) as [h| |]; cbn [bind] in H; try discriminate.
  destruct (store _ _ _ _) as [m| |]; cbn [bind] in H; try discriminate. injection H as <-. repeat split; assumption.
Qed.
Lemma combine_same sh B n t i j : okb B n -> tfree B n t -> 1 <= i <= n -> 1 <= j <= n -> tf_combine t i j = node_combine sh t i j /\ forall t', node_combine sh t i j = Ok t' -> tfree B n t'.
Proof.
  intros K T Hi Hj. pose proof T as (EL & _). unfold tf_combine, node_combine. rewrite EL, (get_same B n t j K T Hj). destruct (node_get t j) as [v| |]; cbn [bind]; try (split; [reflexivity|discriminate]).
  split; [apply bump_same with (B := B) (n := n); auto|]. intros t' H. apply (bump_keeps _ _ _ _ _ _ _ T H).
Qed.

(** Two loops that do the same from every state they reach. *)
Lemma foldM_same {S} (f g : S -> Z -> res S) (I : S -> Prop) : forall l s, I s ->
  (forall s x, I s -> In x l -> f s x = g s x /\ forall s', g s x = Ok s' -> I s') -> foldM f l s = foldM g l s /\ forall s', foldM g l s = Ok s' -> I s'.
Proof.
  induction l as [|x l IH]; intros s HI H; cbn [foldM].
  - split; [reflexivity|]. intros s' E. injection E as <-. exact HI.
  - destruct (H s x HI (or_introl eq_refl)) as (-> & K). destruct (g s x) as [s1| |]; cbn [bind]; try (split; [reflexivity|discriminate]).
    apply IH; [apply K; reflexivity|]. intros s2 y H2 Hy. apply H; [exact H2|right; exact Hy].
Qed.

Lemma in_zrange_iff x n : forall lo, In x (zrange lo n) -> lo <= x < lo + Z.of_nat n.
Proof.
  induction n as [|n IH]; intros lo H; cbn [zrange In] in H; [contradiction|]. destruct H as [->|H]; [lia|]. apply IH in H. lia.
Qed.

Lemma round_same sh B n e t : okb B n -> tfree B n t -> 0 <= n -> 1 <= e -> tf_round n e t = combine_round sh n e t /\ forall t', combine_round sh n e t = Ok t' -> tfree B n t'.
Proof.
  intros K T Hn He. unfold tf_round, combine_round. apply foldM_same with (I := tfree B n); [exact T|].
  intros s k HS Hk. apply in_zrange_iff in Hk. cbv zeta.
  assert (P : 2 ^ e = 2 * 2 ^ (e - 1)) by (rewrite <- Z.pow_succ_r by lia; f_equal; lia). assert (P1 : 0 < 2 ^ (e - 1)) by (apply Z.pow_pos_nonneg; lia).
  replace (2 ^ e / 2) with (2 ^ (e - 1)) by (rewrite P, (Z.mul_comm 2), Z.div_mul by lia; reflexivity).
  assert (Q : (k + 1) * 2 ^ e <= n). { rewrite Z2Nat.id in Hk by (apply Z.div_pos; lia). pose proof (Z.mul_div_le n (2 ^ e) ltac:(lia)). nia. }
  assert (Q2 : 2 ^ e <= (k + 1) * 2 ^ e) by nia.
  apply combine_same with (B := B) (n := n); auto; lia.
Qed.

Lemma build_same sh B A : okb B (zlen A) -> tf_build B A (zlen A) = ft_build sh TypeF B A /\ forall t, ft_build sh TypeF B A = Ok t -> tfree B (zlen A) t.
Proof.
  intros K. pose proof (zlen_nonneg A) as Hn. unfold tf_build, ft_build, build_f. cbn [is_l].
  set (t0 := {| ft_lay := TypeF |}). assert (T0 : tfree B (zlen A) t0) by (repeat split).
  destruct (foldM_same (fun t j => let* v := geti A (j - 1) in tf_leaf t j v) (fun t j => let* v := geti A (j - 1) in leaf_set sh t j v) (tfree B (zlen A)) (zrange 1 (Z.to_nat (zlen A))) t0 T0) as (E1 & K1).
  { intros s j HS Hj. apply in_zrange_iff in Hj. destruct (geti A (j - 1)) as [v| |]; cbn [bind]; try (split; [reflexivity|discriminate]).
    split; [apply leaf_same with (B := B) (n := zlen A); auto; lia|]. intros s'. apply leaf_keeps; auto. }
  rewrite E1. clear E1. destruct (foldM _ _ t0) as [t1| |]; cbn [bind]; try (split; [reflexivity|discriminate]).
  apply foldM_same with (I := tfree B (zlen A)); [apply K1; reflexivity|]. intros s e HS He. apply in_zrange_iff in He. apply round_same; auto; lia.
Qed.

Lemma prefix_same B n t : okb B n -> tfree B n t -> forall fuel i sum, 0 <= i <= n -> tf_prefix fuel t i sum = prefix_loop fuel t i sum.
Proof.
  intros K T. induction fuel as [|f IH]; intros i sum Hi; [reflexivity|]. cbn [tf_prefix prefix_loop]. destruct (Z.eqb_spec i 0); [reflexivity|].
  rewrite (get_same B n t i K T) by lia. destruct (node_get t i); cbn [bind]; try reflexivity. apply IH.
  pose proof K as (_ & ? & _). rewrite clear_rho_ok by lia. pose proof (low_le i ltac:(lia)). pose proof (low_pos i). lia.
Qed.

Lemma add_same sh B n d : okb B n -> forall fuel t i, tfree B n t -> 1 <= i -> tf_add fuel t i d = add_loop sh fuel t i d /\ forall t', add_loop sh fuel t i d = Ok t' -> tfree B n t'.
Proof.
  intros K. induction fuel as [|f IH]; intros t i T Hi; [split; [reflexivity|discriminate]|]. cbn [tf_add add_loop]. pose proof T as (_ & _ & ES). rewrite ES.
  destruct (Z.leb_spec i n) as [L|L].
  - rewrite (bump_same sh B n t i d K T) by lia. destruct (node_add sh t i d) as [t1| |] eqn:E; cbn [bind]; try (split; [reflexivity|discriminate]).
    apply IH; [apply (bump_keeps _ _ _ _ _ _ _ T E)|]. pose proof K as (_ & ? & _). rewrite mask_rho_ok by lia. pose proof (low_le i ltac:(lia)). pose proof (low_pos i). rewrite wrap_small by lia. lia.
  - split; [reflexivity|]. intros t' E. injection E as <-. exact T.
Qed.

Lemma find_same comp B n t : okb B n -> tfree B n t -> forall fuel m node val, 0 <= m <= 2 ^ 48 -> 0 <= node <= n -> tf_find fuel comp t m node val = find_f fuel comp t m node val.
Proof.
  intros K T. pose proof K as (_ & Hn & _). pose proof T as (_ & _ & ES). induction fuel as [|f IH]; intros m node v Hm Hk; [reflexivity|]. cbn [tf_find find_f]. rewrite ES.
  destruct (Z.eqb_spec m 0); [reflexivity|]. rewrite wrap_small by lia. assert (HS : 0 <= Z.shiftr m 1 <= 2 ^ 48) by (rewrite Z.shiftr_div_pow2 by lia; change (2 ^ 1) with 2; lia).
  destruct (Z.ltb_spec n (node + m)); [apply IH; lia|]. rewrite (get_same B n t (node + m) K T) by lia. destruct (node_get t (node + m)) as [x| |]; cbn [bind]; try reflexivity.
  destruct (if comp then _ else _) as [y| |]; cbn [bind]; try reflexivity. destruct (y <=? v); apply IH; lia.
Qed.

Lemma search_same comp B n t v : okb B n -> 0 <= n -> tfree B n t -> tf_search comp t v = ft_find comp t v.
Proof.
  intros K Hn T. pose proof K as (_ & HN & _). pose proof T as (EL & _ & ES). unfold tf_search, ft_find. rewrite EL, ES. cbn [is_l].
  unfold mask_lambda, clzll. destruct (Z.eqb_spec n 0); cbn [bind]; [reflexivity|]. unfold shr.
  assert (L : 0 <= Z.log2 n < 49) by (split; [apply Z.log2_nonneg|apply Z.log2_lt_pow2; lia]).
  replace ((0 <=? 63 - Z.log2 n) && (63 - Z.log2 n <? 64)) with true by lia. cbn [bind]. apply find_same with (B := B) (n := n); auto; [|lia].
  rewrite Z.shiftr_div_pow2 by lia. replace 63 with (Z.log2 n + (63 - Z.log2 n)) at 1 3 by lia. rewrite Z.pow_add_r by lia. rewrite Z.div_mul by (apply Z.pow_nonzero; lia).
  split; [apply Z.pow_nonneg; lia|apply Z.pow_le_mono_r; lia].
Qed.

Lemma step_same sh B n t p : okb B n -> 0 <= n -> tfree B n t -> fop_inside n p -> tf_step t p = ft_step sh t p /\ forall o t', ft_step sh t p = Ok (o, t') -> tfree B n t'.
Proof.
  intros K Hn T HP. destruct p as [i|i inc|v|v|]; cbn [tf_step ft_step fop_inside] in *.
  - unfold ft_prefix. rewrite (prefix_same B n t K T) by lia. split; [reflexivity|]. intros o t' E. destruct (prefix_loop _ _ _ _); try discriminate. injection E as _ <-. exact T.
  - unfold ft_add. destruct (add_same sh B n inc K 65 t i T HP) as (-> & H). split; [reflexivity|]. intros o t' E. destruct (add_loop _ _ _ _ _) as [t1| |]; try discriminate. injection E as _ <-. apply H. reflexivity.
  - rewrite (search_same false B n t v K Hn T). split; [reflexivity|]. intros o t' E. destruct (ft_find _ _ _) as [(k & r)| |]; try discriminate. injection E as _ <-. exact T.
  - rewrite (search_same true B n t v K Hn T). split; [reflexivity|]. intros o t' E. destruct (ft_find _ _ _) as [(k & r)| |]; try discriminate. injection E as _ <-. exact T.
  - split; [reflexivity|]. intros o t' E. injection E as _ <-. exact T.
Qed.

Lemma run_same sh B n : okb B n -> 0 <= n -> forall ops t, tfree B n t -> Forall (fop_inside n) ops -> tf_run t ops = ft_run sh t ops.
Proof.
  intros K Hn. induction ops as [|p r IH]; intros t T HO; [reflexivity|]. inversion HO as [|? ? HP HR]; subst. cbn [tf_run ft_run].
  destruct (step_same sh B n t p K Hn T HP) as (-> & H). destruct (ft_step sh t p) as [(o & t1)| |]; cbn [bind]; try reflexivity.
  rewrite (IH t1 (H o t1 eq_refl) HR). reflexivity.
Qed.

Lemma okb_fits B n : fits TypeF B n -> first_misaligned B n = false -> okb B n.
Proof. intros (HB & Hn & HL) HM. destruct (bound_size_ok B HB) as (E & _). unfold width in HL. repeat split; try lia; auto. Qed.

Lemma client_same sh B A ops : fits TypeF B (zlen A) -> first_misaligned B (zlen A) = false -> Forall (fop_inside (zlen A)) ops ->
  tf_client B A ops = ft_client sh TypeF B A ops.
Proof.
  intros HF HM HO. pose proof (okb_fits _ _ HF HM) as K. unfold tf_client, ft_client. destruct (build_same sh B A K) as (-> & H).
  destruct (ft_build sh TypeF B A) as [t| |]; cbn [bind]; try reflexivity. apply run_same with (B := B) (n := zlen A); auto. apply zlen_nonneg.
Qed.

Lemma ops_inside B : forall ops A, fops_ok B A ops -> Forall (fop_inside (zlen A)) ops.
Proof.
  induction ops as [|p r IH]; intros A H; constructor; destruct H as (HP & HR).
  - destruct p; cbn in *; intuition lia.
  - apply IH in HR. destruct p; cbn [fop_after] in HR; auto. unfold seq_add in HR. rewrite zlen_upd in HR. exact HR.
Qed.

Lemma client_aligned B A ops : fits TypeF B (zlen A) -> first_misaligned B (zlen A) = false -> elems_ok B A -> fops_ok B A ops -> (searches ops -> zlen A <> 0) ->
  exists outs, tf_client B A ops = Ok outs /\ fanswers B A ops outs.
Proof.
  intros HF HM HE HO HS. destruct (client_ok false TypeF B A ops HF ltac:(discriminate) HE HO) as (outs & E & H).
  - intros S. split; [intros Z0; destruct (HS S Z0)|discriminate].
  - exists outs. split; [|exact H]. rewrite <- E. apply client_same; auto. apply (ops_inside B). exact HO.
Qed.

(** ** The constructor stops at the first misaligned node *)
Lemma zrange_split lo a b : zrange lo (a + b) = zrange lo a ++ zrange (lo + Z.of_nat a) b.
Proof.
  revert lo. induction a as [|a IH]; intros lo; [cbn; rewrite Z.add_0_r; reflexivity|]. cbn [Nat.add zrange app]. rewrite IH. do 2 f_equal. f_equal. lia.
Qed.

Lemma client_misaligned B A ops : fits TypeF B (zlen A) -> first_misaligned B (zlen A) = true -> tf_client B A ops = Ub UB_align.
Proof.
  intros (HB & Hn & HL) HM. destruct (bound_size_ok B HB) as (EB & Hb & _). unfold width in HL. rewrite <- EB in HL. set (n := zlen A) in *.
  destruct (first_range B n HB HM) as (HR & HF & H16). set (k := first_at B) in *.
  unfold tf_client. fold n. unfold tf_build. set (t0 := {| ft_lay := TypeF |}).
  assert (EF : f_bytes TypeF B n = tp (bound_size B) n).
  { unfold f_bytes. rewrite (wrap_small 64 (n + 1)) by lia. rewrite typef_pos_ok by lia. f_equal. lia. }
  pose proof (tp_bound (bound_size B) n Hb ltac:(lia)) as TB.
  assert (I0 : tfree B n t0 /\ zlen (arr t0 0) = tp (bound_size B) n).
  { split; [repeat split|]. unfold arr, t0, darray. cbn [ft_arr nth]. rewrite EF. unfold zlen. rewrite repeat_length. lia. }
  replace (Z.to_nat n) with (Z.to_nat (k - 1) + (S (Z.to_nat (n - k))))%nat by lia. rewrite zrange_split, foldM_app.
  destruct (foldM_range (fun t j => let* v := geti A (j - 1) in tf_leaf t j v) (fun _ t => tfree B n t /\ zlen (arr t 0) = tp (bound_size B) n) 1 (Z.to_nat (k - 1)) t0) as (t1 & E1 & I1); [|exact I0|].
  - intros j s Hj ((EL & EBd & ES) & EZ). rewrite geti_ok by (fold n; lia). cbn [bind]. unfold tf_leaf. rewrite EBd, rho_ok by lia. cbn [bind].
    assert (LK : Z.log2 (k - 1) <= Z.log2 n) by (apply Z.log2_le_mono; lia).
    unfold cast_store. rewrite (aligned B (k - 1) (1 + j)) by (auto; lia). cbn [Z.eqb].
    pose proof (ht_log (1 + j) n ltac:(lia)). destruct (tp_step (bound_size B) (1 + j) ltac:(lia) ltac:(lia) ltac:(lia)) as (S1 & S2).
    pose proof (tp_mono (bound_size B) (1 + j) n Hb ltac:(lia)). pose proof (tp_bound (bound_size B) (1 + j - 1) Hb ltac:(lia)).
    rewrite typef_pos_ok by lia. rewrite store_ok by lia. cbn [bind]. eexists. split; [reflexivity|]. split; [repeat split; assumption|].
    unfold arr, with_arr in *. cbn [ft_arr]. destruct (ft_arr s) as [|a r] eqn:EA; cbn [nth] in *; cbn; [exact EZ|]. rewrite zlen_wr. exact EZ.
  - rewrite E1. cbn [bind zrange foldM]. replace (1 + Z.of_nat (Z.to_nat (k - 1))) with k by lia. rewrite geti_ok by (fold n; lia). cbn [bind].
    destruct I1 as ((_ & EBd & _) & _). unfold tf_leaf. rewrite EBd, rho_ok by lia. cbn [bind]. unfold cast_store.
    pose proof (first_bad B n HB ltac:(lia) HL HM) as NB. fold k in NB. replace (_ =? 0) with false by lia. reflexivity.
Qed.

Lemma four_words : exists B A, fits TypeF B (zlen A) /\ elems_ok B A /\ tf_client B A [] = Ub UB_align /\ ft_client false TypeF B A [FPrefix 4] = Ok [FNum 74].
Proof.
  exists 64, [3; 0; 64; 7]. split; [vm_compute; intuition congruence|]. split; [repeat constructor; vm_compute; congruence|]. split; vm_compute; reflexivity.
Qed.
