(** What happens when a caller breaks a precondition. *)
From Coq Require Import ZifyBool.
From Verif Require Import Base BaseFacts Mem MemFacts Nodes NodeFacts SearchFacts Trees LevelFacts RootFacts TreeFacts TreeBuild
  Words WordFacts Blocks BlockFacts Spec Bitmap Usage BitmapFacts ProgramFacts PropFacts LimitFacts DenseFacts NdebugFacts.
Ltac Zify.zify_post_hook ::= Z.div_mod_to_equations.

(** ** Preliminaries *)
Definition stuck {T} (r : res T) : Prop := forall a, r <> Ok a.

Lemma stuck_bind {S T} (e : res S) (f : S -> res T) : stuck e -> stuck (bind e f).
Proof. intros H a E. apply bind_inv in E as (x & E & _). apply (H x E). Qed.

Lemma stuck_after {S T} (e : res S) (f : S -> res T) : (forall a, e = Ok a -> stuck (f a)) -> stuck (bind e f).
Proof. intros H a E. apply bind_inv in E as (x & E & E2). apply (H x E a E2). Qed.

Lemma massert_fail b : b = false -> massert true b = AssertFail.
Proof. intros ->; reflexivity. Qed.

(** The bitmap after a program, and what follows. *)
Lemma program_after c ty addr s input ops rest : history c ty addr s input ops ->
  exists b s' outs, binv ty (cdiv (zlen input) (words_in_block (ty_block ty))) b (current ty input ops) /\
    addr_ok c ty (b_addr b) /\ statics_ok (ty_block ty) s' /\
    program c ty addr s input (ops ++ rest) = (let* '(l, _) := run c ty (b, s') rest in Ok (outs ++ l)).
Proof.
  intros (Hu & Hs & Hv & Hsel). destruct (new_bitmap_ok c ty addr input Hu) as (b & E & Ea & Hb).
  apply reachable_statics_ok in Hs. pose proof Hu as (_ & Ha & _).
  destruct (run_ok c ty _ ops b s _ Hb Hs ltac:(rewrite Ea; exact Ha) Hv Hsel) as (outs & b' & s' & Er & _ & Ea' & Hb' & Hs').
  exists b', s', outs. split; [exact Hb'|]. split; [rewrite Ea', Ea; exact Ha|]. split; [exact Hs'|].
  unfold program. rewrite E. cbn [bind]. rewrite run_app, Er. cbn [bind].
  destruct (run c ty (b', s') rest) as [[l st]| |]; reflexivity.
Qed.

(** ** Positions outside the bitmap *)

Lemma ldw_inv x j w : ldw x j = Ok w -> 0 <= w_off x + j < zlen (w_arr x).
Proof. unfold ldw, geti. destruct ((0 <=? w_off x + j) && (w_off x + j <? zlen (w_arr x))) eqn:E; [lia|discriminate]. Qed.

Lemma rib_inv c pm x i r : rank_in_block c pm x i = Ok r -> w_off x + i / 64 < zlen (w_arr x).
Proof. unfold rank_in_block. intros E. apply bind_inv in E as (w & E & _). apply ldw_inv in E. lia. Qed.

Ltac find_rib := repeat match goal with
  | H : bind (rank_in_block _ _ _ _) _ = Ok _ |- _ => apply bind_inv in H as (? & H & _); apply rib_inv in H; exact H
  | H : bind _ _ = Ok _ |- _ => apply bind_inv in H as (? & _ & H)
  | H : context [let '(_, _) := ?p in _] |- _ => destruct p
  end.

Lemma block_rank_bounds c bt s x i r : 0 <= i -> block_rank c bt s x i = Ok r -> w_off x < zlen (w_arr x).
Proof.
  intros Hi E. assert (D : 0 <= i / 64) by (apply Z.div_pos; lia).
  destruct bt as [|rm sm|rm sm]; cbn [block_rank] in E.
  - apply bind_inv in E as (v & E & _). unfold rank_b64 in E. apply bind_inv in E as (mk & _ & E).
    apply bind_inv in E as (w & E & _). apply ldw_inv in E. lia.
  - apply bind_inv in E as ([v st] & E & _). enough (w_off x + i / 64 < zlen (w_arr x)) by lia.
    destruct rm; cbn [rank_u256] in E;
      unfold rank_generic, rank_vec_loop, rank_vec_unrolled, rank_vec_parallel, rank_u256_builtin_parallel in E; cbv zeta in E; find_rib.
  - apply bind_inv in E as ([v st] & E & _). enough (w_off x + i / 64 < zlen (w_arr x)) by lia.
    destruct rm; cbn [rank_u512] in E;
      unfold rank_generic, rank_vec_loop, rank_vec_unrolled, rank_vec_parallel, rank_u512_builtin_parallel in E; cbv zeta in E; find_rib.
Qed.

Lemma select_loop_bounds c pm x n k cnt r : select_loop c pm x (S n) 0 k cnt = Ok r -> w_off x < zlen (w_arr x).
Proof. cbn [select_loop]. intros E. apply bind_inv in E as (w & E & _). apply ldw_inv in E. lia. Qed.

Lemma ldws_bounds x n r : ldws x 0 (S n) = Ok r -> w_off x < zlen (w_arr x).
Proof. cbn [ldws]. intros E. apply bind_inv in E as (w & E & _). apply ldw_inv in E. lia. Qed.

Lemma block_select_bounds c bt s x k r : c_debug c = true -> block_select c bt s x k = Ok r -> w_off x < zlen (w_arr x).
Proof.
  intros D E. destruct bt as [|rm sm|rm sm]; cbn [block_select] in E.
  - apply bind_inv in E as (v & E & _). apply ldw_inv in E. lia.
  - apply bind_inv in E as ([v st] & E & _).
    assert (G : forall m, select_generic c 4 m (s_select s) x k = Ok (v, st) -> w_off x < zlen (w_arr x)).
    { intros m. unfold select_generic. destruct (sl_scm_loop m).
      - intros H. apply bind_inv in H as (? & H & _). apply select_loop_bounds in H. exact H.
      - rewrite D. discriminate. }
    destruct sm; cbn [select_u256] in E; try (apply (G _ E)).
    + unfold select_vec_builtin in E. apply bind_inv in E as (? & E & _). cbn [zrange foldM] in E. apply bind_inv in E as (? & E & _).
      apply bind_inv in E as (? & E & _). apply ldw_inv in E. lia.
    + unfold select_vec_simd in E. apply bind_inv in E as (? & E & _). apply ldws_bounds in E. exact E.
  - apply bind_inv in E as ([v st] & E & _).
    assert (G : forall m, select_generic c 8 m (s_select s) x k = Ok (v, st) -> w_off x < zlen (w_arr x)).
    { intros m. unfold select_generic. destruct (sl_scm_loop m).
      - intros H. apply bind_inv in H as (? & H & _). apply select_loop_bounds in H. exact H.
      - rewrite D. discriminate. }
    destruct sm; cbn [select_u512] in E; try (apply (G _ E)).
    + unfold select_vec_builtin in E. apply bind_inv in E as (? & E & _). cbn [zrange foldM] in E. apply bind_inv in E as (? & E & _).
      apply bind_inv in E as (? & E & _). apply ldw_inv in E. lia.
    + unfold select_vec_simd in E. apply bind_inv in E as (? & E & _). apply ldws_bounds in E. exact E.
Qed.

Lemma words_beyond bt (ws : list Z) n i : zlen ws = words_in_block bt * n -> 64 * zlen ws <= i -> zlen ws <= words_in_block bt * (i / block_size bt).
Proof.
  intros E H. unfold words_in_block in *. destruct bt; cbn [block_size] in *; change (64 / 64) with 1 in *; change (256 / 64) with 4 in *; change (512 / 64) with 8 in *; lia.
Qed.

Lemma access_stuck c ws i : 64 * zlen ws <= i -> bm_access c ws i = if c_debug c then AssertFail else Ub UB_bounds.
Proof.
  intros H. unfold bm_access, bm_size. pose proof (zlen_nonneg ws). replace (i <? zlen ws * 8 * 8) with false by lia.
  destruct (c_debug c); [reflexivity|]. cbn [massert andb negb bind]. unfold geti. replace (i / 64 <? zlen ws) with false by lia.
  rewrite Bool.andb_false_r. reflexivity.
Qed.

Lemma flip_stuck c ty ws v i : 64 * zlen ws <= i -> bm_flip c ty ws v i = if c_debug c then AssertFail else Ub UB_bounds.
Proof.
  intros H. unfold bm_flip. rewrite access_stuck by auto. unfold bm_size. replace (i <? zlen ws * 8 * 8) with false by lia.
  destruct (c_debug c); reflexivity.
Qed.

Lemma rank_stuck c ty s n ws v i : winv ty n ws v -> 64 * zlen ws <= i -> stuck (bm_rank c ty s ws v i).
Proof.
  intros (_ & _ & E & _) H. pose proof (zlen_nonneg ws). unfold bm_rank. apply stuck_after. intros _ _. apply stuck_after. intros a _. apply stuck_bind.
  intros r E2. apply block_rank_bounds in E2.
  - cbn [w_off w_arr] in E2. pose proof (words_beyond (ty_block ty) ws n i E H). lia.
  - rewrite land_bs by lia. assert (0 < block_size (ty_block ty)) by (destruct (ty_block ty); reflexivity).
    apply Z.mod_pos_bound. auto.
Qed.

(** The four calls that take a position or a rank. *)
Definition op_arg (o : op) : option Z := match o with Flip i | Access i | Rank i | Select i => Some i | _ => None end.

Lemma step_out_of_range c ty n b s B o i : binv ty n b B -> op_arg o = Some i -> zlen B <= i -> c_debug c = true ->
  step c ty (b, s) o = AssertFail.
Proof.
  intros (Hw & <- & Hz) Ho Hi D. rewrite zlen_bits in Hi.
  assert (S : (i <? bm_size (b_words b)) = false) by (unfold bm_size; lia).
  destruct o; cbn [op_arg] in Ho; inversion Ho; subst; cbn [step].
  - rewrite flip_stuck by lia. rewrite D. reflexivity.
  - rewrite access_stuck by lia. rewrite D. reflexivity.
  - unfold bm_rank. rewrite D, S. reflexivity.
  - unfold bm_select. rewrite D, S. reflexivity.
Qed.

Lemma out_of_range_asserts c ty addr s input ops o i rest : history c ty addr s input ops -> op_arg o = Some i ->
  zlen (current ty input ops) <= i -> c_debug c = true ->
  program c ty addr s input (ops ++ o :: rest) = AssertFail.
Proof.
  intros H Ho Hi D. destruct (program_after c ty addr s input ops (o :: rest) H) as (b & s' & outs & Hb & _ & _ & ->).
  cbn [run]. rewrite (step_out_of_range c ty _ b s' _ o i Hb) by auto. reflexivity.
Qed.

Lemma out_of_range_stuck c ty addr s input ops o i rest : history c ty addr s input ops ->
  o = Flip i \/ o = Access i \/ o = Rank i ->
  zlen (current ty input ops) <= i ->
  stuck (program c ty addr s input (ops ++ o :: rest)).
Proof.
  intros H Ho Hi. destruct (program_after c ty addr s input ops (o :: rest) H) as (b & s' & outs & Hb & _ & _ & ->).
  apply stuck_bind. cbn [run]. apply stuck_bind. destruct Hb as (Hw & EB & _). rewrite <- EB, zlen_bits in Hi.
  destruct Ho as [-> |[-> | ->]]; cbn [step]; apply stuck_bind.
  - rewrite flip_stuck by lia. destruct (c_debug c); discriminate.
  - rewrite access_stuck by lia. destruct (c_debug c); discriminate.
  - eapply rank_stuck; [exact Hw|lia].
Qed.

(** ** Ranks beyond the number of ones *)

Lemma leaf_past c N cnt q m F G n mx k a y : c_debug c = true -> level_inv N cnt q m (V_leaf F G) -> F = fan N -> is_leaf_class N = true ->
  (forall i, 0 <= G i <= mx) ->
  mx * nd_seg (desc N) < 2 ^ (kbits (desc N) - 1) -> mx * F < 2 ^ (sbits (desc N) - 1) ->
  0 <= k < cnt -> 0 <= y < 2 ^ 64 -> a = q + k * bytes_of N -> sumf G (k * F) n <= y ->
  node_search c N m a y = AssertFail \/
  exists r z, node_search c N m a y = Ok (r, z) /\ 0 <= r < F /\ n <= k * F + r.
Proof.
  intros D L -> HL HG B1 B2 Hk Hy -> HT. pose proof (HG 0) as H0. pose proof (fan_pos N) as HF.
  assert (K0 : 0 <= k * fan N) by nia.
  destruct (Z.lt_ge_cases y (sumf G (k * fan N) ((k + 1) * fan N))) as [Y|Y].
  - right. set (e := (k + 1) * fan N) in *. assert (He : e = k * fan N + fan N) by (unfold e; ring).
    set (A := fun i => if i <? e then G i else 0).
    assert (EA : forall j, j <= e -> sumf A (k * fan N) j = sumf G (k * fan N) j).
    { intros j Hj. apply sumf_ext. intros i Hi. unfold A. replace (i <? e) with true by lia. reflexivity. }
    destruct (leaf_search_ok c N cnt q m G A e mx k y L HG) as (r & E & R1 & R2 & R3); auto.
    { intros i Hi. unfold A. replace (i <? e) with true by lia. reflexivity. }
    { intros i Hi. unfold A. replace (i <? e) with false by lia. reflexivity. }
    { intros i. unfold A. destruct (i <? e); [apply HG|lia]. }
    { fold e. rewrite EA by lia. lia. }
    exists r. eexists. split; [exact E|]. split; [lia|].
    destruct (Z.lt_ge_cases (k * fan N + r) n) as [C|C]; auto. exfalso.
    rewrite !EA in R3 by lia. pose proof (sumf_mono G (k * fan N) (k * fan N + r + 1) n ltac:(lia)) as M.
    specialize (M (fun i _ => proj1 (HG i))). lia.
  - left.
    assert (P : node_sum c N m (q + k * bytes_of N) (fan N - 1) = Ok (sumf G (k * fan N) ((k + 1) * fan N))).
    { rewrite (leaf_sum_ok c N cnt q m G mx k (fan N - 1)); auto; try lia.
      - f_equal. f_equal. lia.
      - pose proof (pow_half (kbits (desc N)) ltac:(destruct N; cbn; lia)). nia.
      - pose proof (pow_half (sbits (desc N)) ltac:(destruct N; cbn; lia)). nia. }
    unfold node_search. destruct N; cbn [is_leaf_class] in HL; try discriminate; rewrite D, P; cbn [bind];
      (rewrite massert_fail by lia); reflexivity.
Qed.

(** Looking for a leaf beyond the buffer. *)
Lemma leaf_outside c N m a y : c_debug c = true -> is_leaf_class N = true -> zlen m <= a -> 0 <= a ->
  stuck (node_search c N m a y).
Proof.
  intros D HL Ha H0. unfold node_search.
  assert (P : stuck (node_sum c N m a (fan N - 1))).
  { intros r E. unfold node_sum in E. apply bind_inv in E as (_ & _ & E). apply bind_inv in E as (z & E & _).
    unfold load_sm, load, in_bounds, sm_addr in E.
    destruct N; cbn [is_leaf_class] in HL; try discriminate; cbn [desc nd_sb nd_seg nd_fanout] in E.
    - change (128 - 1) with 127 in E. change (127 / 16) with 7 in E. change (Z.of_nat 4) with 4 in E.
      destruct ((0 <=? a + 4 * 7) && (a + 4 * 7 + 4 <=? zlen m)) eqn:Q; [lia|discriminate].
    - change (512 - 1) with 511 in E. change (511 / 32) with 15 in E. change (Z.of_nat 4) with 4 in E.
      destruct ((0 <=? a + 4 * 15) && (a + 4 * 15 + 4 <=? zlen m)) eqn:Q; [lia|discriminate]. }
  destruct N; cbn [is_leaf_class] in HL; try discriminate; rewrite D; apply stuck_bind; apply stuck_bind; exact P.
Qed.

Lemma root_past c N q m F S A mx x : level_inv N 1 q m (V_in F S A) -> F = fan N -> is_leaf_class N = false ->
  (forall i, 0 <= A i <= mx) -> 0 < S -> 0 <= mx ->
  mx * S * nd_seg (desc N) < 2 ^ (kbits (desc N) - 1) -> mx * S * F < 2 ^ (sbits (desc N) - 1) ->
  0 <= x < 2 ^ 31 -> x < 2 ^ (kbits (desc N) - 1) -> x < 2 ^ (sbits (desc N) - 1) -> sumf A 0 ((F - 1) * S) <= x ->
  node_search c N m q x = Ok (F, sumf A 0 ((F - 1) * S)).
Proof.
  intros L -> NL HA HS H0 B1 B2 Hx X1 X2 HT. pose proof (desc_wf N) as W. pose proof (fan_pos N) as HF.
  pose proof (wf_seg _ W) as Hseg. pose proof (wf_sb _ W). pose proof (wf_kb _ W).
  pose proof (pow_half (sbits (desc N)) ltac:(unfold sbits; lia)) as P2.
  pose proof (pow_half (kbits (desc N)) ltac:(unfold kbits; lia)) as P3.
  set (V := V_in (fan N) S A 0).
  assert (PRE : forall t, 0 <= t -> sumf V 0 (t + 1) = sumf A 0 (t * S)).
  { intros t Ht. unfold V. rewrite V_in_prefix by lia. f_equal; lia. }
  assert (VB : forall i, 0 <= V i <= mx * S) by (intros; apply V_in_bound; auto; lia).
  assert (G : range (desc N) V).
  { apply range_bounded with (b := mx * S); auto; nia. }
  assert (LS : forall j, 0 <= j -> (j + 1) * nd_seg (desc N) <= fan N -> sumf V (j * nd_seg (desc N)) ((j + 1) * nd_seg (desc N)) <= mx * S * nd_seg (desc N)).
  { intros j J1 J2. pose proof (sumf_bound V (mx * S) (j * nd_seg (desc N)) ((j + 1) * nd_seg (desc N)) ltac:(nia) (fun i _ => VB i)). nia. }
  assert (TOT : sumf V 0 (fan N) <= mx * S * fan N).
  { pose proof (sumf_bound V (mx * S) 0 (fan N) ltac:(lia) (fun i _ => VB i)). nia. }
  pose proof (last_seg _ W) as HL1.
  destruct (node_search_ok c N m q V x) as (r & E & B & F1 & F2); auto.
  { pose proof (level_node_in _ _ _ _ _ 0 L ltac:(lia)) as I. rewrite Z.mul_0_l, Z.add_0_r in I. exact I. }
  { destruct L as (_ & _ & L). specialize (L 0 ltac:(lia)). rewrite Z.mul_0_l, Z.add_0_r in L. exact L. }
  { intros _. split.
    - intros j Hj. pose proof (seg_in _ j W Hj) as [J1 J2]. specialize (LS j ltac:(lia) J2). lia.
    - pose proof (sumf_mono V 0 ((nd_nseg (desc N) - 1) * nd_seg (desc N)) (fan N) ltac:(lia) (fun i _ => proj1 (VB i))). lia.
    - lia.
    - pose proof (sumf_nonneg V 0 ((nd_nseg (desc N) - 1) * nd_seg (desc N)) (fun i _ => proj1 (VB i))). lia. }
  { lia. }
  { rewrite NL. discriminate. }
  assert (r = fan N).
  { destruct (Z.eq_dec r (fan N)) as [|NE]; auto. exfalso. specialize (F2 ltac:(lia)). cbv beta in F2. rewrite PRE in F2 by lia.
    assert (r * S <= (fan N - 1) * S) by (apply Z.mul_le_mono_nonneg_r; lia).
    assert (0 <= r * S) by (apply Z.mul_nonneg_nonneg; lia).
    pose proof (sumf_mono A 0 (r * S) ((fan N - 1) * S) ltac:(lia) (fun i _ => proj1 (HA i))). lia. }
  subst r. rewrite E. do 2 f_equal. rewrite <- PRE by lia. f_equal. lia.
Qed.

(** Search beyond the total, up to two levels. *)
Lemma tree_search_past c f H mx n v A x : c_debug c = true -> tinv f H mx n v A -> (H <= 2)%nat ->
  zlen (v_mem v) = total_of f H n -> v_ptr v = Z.of_nat H * 4 -> sumf A 0 n <= x < 2 ^ 31 ->
  stuck (tree_search c f H v x) \/ exists i z, tree_search c f H v x = Ok (i, z) /\ n <= i.
Proof.
  intros D T H2 HZ HP Hx. pose proof T as (Hs & Hn & Hmx & HA & A0 & G & HG & GA & L).
  assert (HB : forall a b, 0 <= a <= b -> b <= 2 ^ 26 -> 0 <= sumf A a b < 2 ^ 36) by (intros; eapply tinv_bound; eauto).
  pose proof (HA 0) as H0.
  assert (NN : 0 <= sumf A 0 n) by (apply sumf_nonneg; intros; apply HA).
  assert (EG : forall a, 0 <= a -> sumf G a n = sumf A a n) by (intros; apply sumf_ext; intros; apply GA; lia).
  assert (LE : forall e, 0 <= e -> sumf A 0 e <= x).
  { intros e He. destruct (Z.le_gt_cases e n).
    - pose proof (sumf_mono A 0 e n ltac:(lia) (fun i _ => proj1 (HA i))). lia.
    - rewrite (sumf_split A 0 n e) by lia. rewrite (sumf_const0 A n e) by (intros; apply A0; lia). lia. }
  assert (ST : forall T (e : res T), e = AssertFail -> stuck e) by (intros T' e -> a; discriminate).
  unfold tree_search.
  destruct f, H as [|[|[|H]]]; try lia; cbn [levels_inv total_of] in *; try contradiction; lits.
  - destruct L as (Hb & L0).
    destruct (leaf_past c A2_128 _ _ _ _ G n mx 0 (v_ptr v) x D L0) as [E|(r & z & E & R)]; auto; try side.
    { change (0 * 128) with 0. rewrite EG by lia. lia. }
    right. exists r, z. split; [exact E|]. lia.
  - destruct L as (Hb & L1 & L0).
    rewrite (root_past c A2_64 _ _ _ _ A mx x L1) by (auto; try side; apply LE; lia). cbn [bind].
    change (64 - 1) with 63. change (63 * 128) with 8064.
    pose proof (LE 8064 ltac:(lia)). pose proof (HB 0 8064 ltac:(lia) ltac:(lia)).
    rewrite (wrap_small 64 (x - _)) by lia. change (u64 63) with 63. change (u64 (63 * bytes_of A2_128)) with (63 * bytes_of A2_128).
    destruct (Z.le_gt_cases n 8064) as [N|N].
    + left. apply stuck_bind. apply leaf_outside; auto; [|side]. rewrite HZ, HP. side.
    + destruct (leaf_past c A2_128 _ _ _ _ G n mx 63 (v_ptr v + bytes_of A2_64 + 63 * bytes_of A2_128) (x - sumf A 0 8064) D L0) as [E|(r & z & E & R)]; auto; try side.
      { change (63 * 128) with 8064. rewrite EG by lia. rewrite (sumf_split A 0 8064 n) in Hx by lia. lia. }
      { left. rewrite E. apply ST; reflexivity. }
      right. rewrite E. cbn [bind]. do 2 eexists. split; [reflexivity|]. rewrite wrap_small; lia.
  - destruct L as (Hb & L0).
    destruct (leaf_past c A5_512 _ _ _ _ G n mx 0 (v_ptr v) x D L0) as [E|(r & z & E & R)]; auto; try side.
    { change (0 * 512) with 0. rewrite EG by lia. lia. }
    right. exists r, z. split; [exact E|]. lia.
  - destruct L as (Hb & L1 & L0).
    rewrite (root_past c A5_256 _ _ _ _ A mx x L1) by (auto; try side; apply LE; lia). cbn [bind].
    change (256 - 1) with 255. change (255 * 512) with 130560.
    pose proof (LE 130560 ltac:(lia)). pose proof (HB 0 130560 ltac:(lia) ltac:(lia)).
    rewrite (wrap_small 64 (x - _)) by lia. change (u64 255) with 255. change (u64 (255 * bytes_of A5_512)) with (255 * bytes_of A5_512).
    destruct (Z.le_gt_cases n 130560) as [N|N].
    + left. apply stuck_bind. apply leaf_outside; auto; [|side]. rewrite HZ, HP. side.
    + destruct (leaf_past c A5_512 _ _ _ _ G n mx 255 (v_ptr v + bytes_of A5_256 + 255 * bytes_of A5_512) (x - sumf A 0 130560) D L0) as [E|(r & z & E & R)]; auto; try side.
      { change (255 * 512) with 130560. rewrite EG by lia. rewrite (sumf_split A 0 130560 n) in Hx by lia. lia. }
      { left. rewrite E. apply ST; reflexivity. }
      right. rewrite E. cbn [bind]. do 2 eexists. split; [reflexivity|]. rewrite wrap_small; lia.
Qed.

Lemma select_past_stuck c ty n b s B k : binv ty n b B -> c_debug c = true -> (ty_height ty <= 2)%nat -> count_true B <= k ->
  stuck (bm_select c ty s (b_words b) (own_view ty b) k).
Proof.
  intros (Hw & <- & Hz) D H2 Hk. pose proof Hw as (Hsup & HW & E & A & T & HA).
  pose proof (winv_n _ _ _ _ Hw) as Hn. pose proof (winv_size _ _ _ _ Hw) as Hsz.
  pose proof (bsz_cases (ty_block ty)) as BC. fold (bsz ty) in BC.
  assert (ET : count_true (bits_of_words (b_words b)) = sumf A 0 n).
  { rewrite count_true_all, zlen_bits, ones_words by lia. rewrite Hsz. symmetry. apply (sum_blocks ty n _ _ A n Hw); auto; lia. }
  unfold bm_select. rewrite D. unfold bm_size. destruct (Z.ltb_spec k (zlen (b_words b) * 8 * 8)) as [L|L]; [|discriminate].
  change (massert true true) with (Ok tt). cbn [bind].
  assert (N2 : n <= 2 ^ 17).
  { pose proof T as (_ & _ & _ & _ & _ & G & _ & _ & LV). destruct (ty_fam ty), (ty_height ty) as [|[|[|h]]]; cbn [levels_inv] in LV; try contradiction; lia. }
  destruct (tree_search_past c (ty_fam ty) (ty_height ty) (bsz ty) n (own_view ty b) A k D T H2 Hz eq_refl) as [S|(i & z & S & R)].
  { rewrite <- ET. split; [lia|]. destruct BC as [BC|[BC|BC]]; rewrite BC in Hsz; lia. }
  - apply stuck_bind; exact S.
  - rewrite S. cbn [bind]. apply stuck_bind. intros r ER. apply block_select_bounds in ER; auto. cbn [w_off w_arr] in ER.
    assert (0 < words_in_block (ty_block ty)) by (destruct (ty_block ty); reflexivity). rewrite E in ER. nia.
Qed.

Lemma select_past c ty addr s input ops k rest : history c ty addr s input ops -> c_debug c = true -> (ty_height ty <= 2)%nat ->
  count_true (current ty input ops) <= k -> stuck (program c ty addr s input (ops ++ Select k :: rest)).
Proof.
  intros H D H2 Hk. destruct (program_after c ty addr s input ops (Select k :: rest) H) as (b & s' & outs & Hb & _ & _ & ->).
  apply stuck_bind. cbn [run]. apply stuck_bind. cbn [step]. apply stuck_bind. eapply select_past_stuck; eauto.
Qed.

(** ** With three levels a search past the total can come back *)

(** The leaf at [a] read as an inner node. *)
Lemma leaf_as_inner c m a V : c_avx2 c = false -> node_in (desc A2_128) m a -> repr (desc A2_128) m a V ->
  (forall i, 0 <= i < 128 -> V i = 1) -> node_search c A2_64 m a 0 = Ok (0, 0).
Proof.
  intros C (I1 & I2) (R1 & R2) HV. change (nd_bytes (desc A2_128)) with 288 in I2.
  assert (S16 : sumf V 0 16 = 16).
  { rewrite (sumf_ext V (fun _ => 1)) by (intros; apply HV; lia). reflexivity. }
  pose proof (R1 0 ltac:(cbn; lia)) as A0. pose proof (R1 1 ltac:(cbn; lia)) as A1.
  pose proof (R2 0 ltac:(cbn; lia)) as K0. pose proof (R2 1 ltac:(cbn; lia)) as K1.
  change (nd_seg (desc A2_128)) with 16 in *. change (0 * 16) with 0 in *. change (1 * 16) with 16 in *.
  change (0 / 16 * 16) with 0 in K0. change (1 / 16 * 16) with 0 in K1. change (0 + 1) with 1 in K0. change (1 + 1) with 2 in K1.
  rewrite S16 in A1. rewrite (sumf_ext V (fun _ => 1)) in K0, K1 by (intros; apply HV; lia).
  rewrite sumf_empty in A0 by lia.
  change (wrap (kbits (desc A2_128)) (sumf (fun _ : Z => 1) 0 1)) with 1 in K0.
  change (wrap (kbits (desc A2_128)) (sumf (fun _ : Z => 1) 0 2)) with 2 in K1.
  change (wrap (sbits (desc A2_128)) 0) with 0 in A0. change (wrap (sbits (desc A2_128)) 16) with 16 in A1.
  unfold node_search. rewrite C. unfold search_scalar.
  change (zrange 1 (Z.to_nat (nd_nseg (desc A2_64) - 1))) with [1; 2; 3; 4; 5; 6; 7]. cbn [scan_gt].
  rewrite load_sm_ok; [|apply desc_wf|split; [auto|change (nd_bytes (desc A2_64)) with 288; lia]|cbn; lia].
  change (sm (desc A2_64) m a 1) with (sm (desc A2_128) m a 1). rewrite A1. cbn [bind]. change (0 <? 16) with true. cbv iota.
  cbn [bind]. change (0 <? nd_nseg (desc A2_64)) with true. rewrite massert_true by reflexivity. cbn [bind].
  rewrite load_sm_ok; [|apply desc_wf|split; [auto|change (nd_bytes (desc A2_64)) with 288; lia]|cbn; lia].
  change (sm (desc A2_64) m a 0) with (sm (desc A2_128) m a 0). rewrite A0. cbn [bind]. change (u64 (0 - 0)) with 0.
  change (u64 (0 * nd_seg (desc A2_64))) with 0. change (zrange 0 (Z.to_nat (nd_seg (desc A2_64)))) with [0; 1; 2; 3; 4; 5; 6; 7].
  cbn [scan_gt].
  rewrite load_ky_ok; [|apply desc_wf|split; [auto|change (nd_bytes (desc A2_64)) with 288; lia]|cbn; lia].
  cbn [bind].
  assert (K : ky (desc A2_64) m a 0 = 131073).
  { unfold ky, ky_addr in *. cbn [desc nd_nseg nd_sb nd_kb rd] in *. change (Z.of_nat 4) with 4 in *. change (Z.of_nat 2) with 2 in *.
    change (8 * 4) with 32 in *. change (2 * 0) with 0 in *. change (4 * 0) with 0. change (2 * 1) with 2 in *.
    rewrite !Z.add_0_r in *. replace (a + 32 + 1 + 1) with (a + 32 + 2) by lia. lia. }
  rewrite K. change (0 <? 131073) with true. cbv iota. reflexivity.
Qed.

Definition lost_n : Z := 63 * 8192.
Definition lost_ty : btyp := {| ty_fam := F2; ty_height := 3; ty_block := B64 |}.

Lemma lost_search c v A : c_avx2 c = false -> tinv F2 3 64 516096 v A -> (forall j, 0 <= j < 516096 -> A j = 1) ->
  tree_search c F2 3 v 516096 = Ok (515968, 516096).
Proof.
  intros C T HA1. pose proof T as (Hs & Hn & Hmx & HA & A0 & G & HG & GA & L). cbn [levels_inv] in L.
  destruct L as (_ & N1 & L2 & L1 & L0). change (cdiv 516096 8192) with 63 in *. change (cdiv 516096 128) with 4032 in *.
  assert (SA : forall a b, 0 <= a <= b -> b <= 516096 -> sumf A a b = b - a).
  { intros a b Hab Hb. rewrite (sumf_ext A (fun _ => 1)) by (intros; apply HA1; lia).
    pose proof (sumf_bound (fun _ => 1) 1 a b ltac:(lia) ltac:(intros; lia)) as U.
    assert (M : forall k lo, sumn (fun _ => 1) lo k = Z.of_nat k) by (induction k; intros; cbn [sumn]; [reflexivity|rewrite IHk; lia]).
    unfold sumf. rewrite M. lia. }
  unfold tree_search. lits. rewrite (root_past c A2_64 _ _ _ _ A 64 516096 L2) by (auto; try side; rewrite SA; lia).
  cbn [bind]. rewrite SA by lia. change ((64 - 1) * 8192 - 0) with 516096. change (u64 (516096 - 516096)) with 0.
  change (u64 (64 - 1)) with 63. change (u64 ((63 + 1) * bytes_of A2_64)) with 18432.
  rewrite (leaf_as_inner c (v_mem v) (v_ptr v + 18432) (V_leaf 128 G 0)); auto.
  2:{ pose proof (level_node_in _ _ _ _ _ 0 L0 ltac:(lia)) as I. change (bytes_of A2_128) with 288 in I.
      replace (v_ptr v + 18432) with (v_ptr v + 288 + 63 * 288 + 0 * 288) by lia. exact I. }
  2:{ destruct L0 as (_ & _ & L0). specialize (L0 0 ltac:(lia)). change (bytes_of A2_128) with 288 in L0.
      replace (v_ptr v + 18432) with (v_ptr v + 288 + 63 * 288 + 0 * 288) by lia. exact L0. }
  2:{ intros i Hi. unfold V_leaf. rewrite GA by lia. apply HA1. lia. }
  cbn [bind]. rewrite N1. cbn [bind]. change (u64 (0 - 1)) with (2 ^ 64 - 1). change (u64 (0 - 0)) with 0.
  change (u32 (1 + 63)) with 64. change (u64 ((2 ^ 64 - 1 + 63 * 64) * bytes_of A2_128)) with (4031 * 288).
  destruct (leaf_search_ok c A2_128 _ _ _ G A 516096 64 4031 0 L0) as (r & E & R1 & R2 & R3); auto; try side.
  { change (fan A2_128) with 128. rewrite SA by lia. lia. }
  change (fan A2_128) with 128 in *. rewrite SA in R3 by lia. assert (r = 0) by lia. subst r.
  replace (v_ptr v + 64 * bytes_of A2_64 + 4031 * 288) with (v_ptr v + 288 + 63 * 288 + 4031 * bytes_of A2_128) by side.
  rewrite E. cbn [bind]. rewrite SA by lia. reflexivity.
Qed.

Lemma lost_select_returns c input addr s : c_avx2 c = false ->
  zlen input = 516096 -> (forall j, 0 <= j < 516096 -> zn 0 input j = 1) -> words_ok input ->
  usable c lost_ty addr input /\ count_true (initial lost_ty input) = 516096 /\
  program c lost_ty addr s input [Select 516096] = Ok [ONum (64 * 515968)].
Proof.
  intros C HL HI HW.
  assert (U : usable c lost_ty addr input).
  { split; [|split].
    - split; [reflexivity|]. split; [exact HW|]. cbn [lost_ty ty_block ty_fam ty_height block_size]. rewrite HL. split; [lia|]. split; [lia|]. reflexivity.
    - intros _ E. congruence.
    - apply counts_always_ok. left; reflexivity. }
  split; [exact U|]. destruct (new_bitmap_ok c lost_ty addr input U) as (b & E & Ea & Hb).
  change (words_in_block (ty_block lost_ty)) with 1 in Hb. rewrite HL in Hb. change (cdiv 516096 1) with 516096 in Hb.
  pose proof Hb as (Hw & EB & Hz). pose proof Hw as (_ & _ & EW & A & T & HA). change (words_in_block (ty_block lost_ty)) with 1 in EW.
  change (bsz lost_ty) with 64 in *. change (ty_fam lost_ty) with F2 in T. change (ty_height lost_ty) with 3%nat in T.
  assert (PB : initial lost_ty input = bits_of_words input).
  { unfold initial, padded. rewrite zlen_bits, HL. change ((- (64 * 516096)) mod block_size (ty_block lost_ty)) with 0. apply app_nil_r. }
  rewrite PB in *. assert (ZW : zlen (b_words b) = 516096) by lia.
  assert (GB : forall t, 0 <= t < 64 * 516096 -> gbit (b_words b) t = gbit input t).
  { intros t Ht. rewrite !gbit_bit by lia. rewrite EB. reflexivity. }
  assert (ONE : forall j, 0 <= j < 516096 -> sumf (gbit input) (64 * j) (64 * (j + 1)) = 1).
  { intros j Hj. replace (64 * j) with (0 + 64 * j) at 1 by lia. replace (64 * (j + 1)) with (64 + 64 * j) by lia. rewrite <- sumf_shift.
    rewrite (sumf_ext _ (wbit 1)); [reflexivity|]. intros t Ht. unfold gbit.
    replace ((t + 64 * j) / 64) with j by lia. replace ((t + 64 * j) mod 64) with t by lia. rewrite HI by lia. reflexivity. }
  assert (HA1 : forall j, 0 <= j < 516096 -> A j = 1).
  { intros j Hj. rewrite HA by lia. rewrite (sumf_ext _ (gbit input)) by (intros; apply GB; lia). apply ONE. lia. }
  assert (M : forall k lo, sumn (fun _ => 1) lo k = Z.of_nat k) by (induction k; intros; cbn [sumn]; [reflexivity|rewrite IHk; lia]).
  split.
  - rewrite <- EB, count_true_all, zlen_bits, ones_words by lia. rewrite ZW. change (64 * 516096) with (bsz lost_ty * 516096).
    rewrite <- (sum_blocks lost_ty 516096 _ _ A 516096 Hw) by (auto; lia).
    rewrite (sumf_ext A (fun _ => 1)) by (intros; apply HA1; lia). unfold sumf. rewrite M. apply Z2Nat.id. lia.
  - unfold program. rewrite E. cbn [bind run step]. unfold bm_select. rewrite massert_true by (unfold bm_size; lia). cbn [bind].
    change (ty_fam lost_ty) with F2. change (ty_height lost_ty) with 3%nat. rewrite (lost_search c (own_view lost_ty b) A C T HA1). cbn [bind].
    change (ty_block lost_ty) with B64. cbn [block_select block_size]. change (words_in_block B64) with 1. unfold ldw. cbn [w_arr w_off].
    rewrite geti_ok by lia. cbn [bind]. change (u64 (516096 - 516096)) with 0.
    assert (W1 : zn 0 (b_words b) (1 * 515968 + 0) = 1).
    { assert (HB : b_words b = input).
      { unfold new_bitmap in E. apply bind_inv in E as ([[ws m] nn] & E & E'). apply (f_equal (fun r => match r with Ok x => b_words x | _ => [] end)) in E'.
        cbn [b_words] in E'. rewrite <- E'.
        unfold bm_build in E. apply bind_inv in E as (? & _ & E). apply bind_inv in E as (? & _ & E). apply bind_inv in E as (? & _ & E).
        apply (f_equal (fun r => match r with Ok (x, _, _) => x | _ => [] end)) in E. cbv beta iota in E. rewrite <- E. clear E E'.
        change (words_in_block (ty_block lost_ty)) with 1. rewrite HL. change (1 * cdiv 516096 1) with 516096.
        unfold resize. rewrite firstn_nil. cbn [app length]. rewrite Nat.sub_0_r, skipn_repeat.
        replace (Z.to_nat 516096 - length input)%nat with 0%nat by (unfold zlen in HL; lia). apply app_nil_r. }
      rewrite HB. apply HI. lia. }
    rewrite W1. reflexivity.
Qed.

Lemma lost_select : exists c ty addr input k p, c_debug c = true /\ usable c ty addr input /\ count_true (initial ty input) <= k /\
  program c ty addr (statics_init (ty_block ty)) input [Select k] = Ok [ONum p] /\
  program (release c) ty addr (statics_init (ty_block ty)) input [Select k] = Ok [ONum p].
Proof.
  set (c := {| c_debug := true; c_avx2 := false; c_avx512 := false; c_trap := true |}).
  set (N := Z.to_nat 516096). assert (HN : Z.of_nat N = 516096) by (unfold N; lia). clearbody N.
  destruct (lost_select_returns c (repeat 1 N) 0 (statics_init B64)) as (U & K & P).
  - reflexivity.
  - rewrite zlen_repeat. exact HN.
  - intros j Hj. apply zn_repeat. lia.
  - apply Forall_forall. intros w Hw. apply repeat_spec in Hw. subst w. lia.
  - exists c, lost_ty, 0, (repeat 1 N), 516096, (64 * 515968). split; [reflexivity|]. split; [exact U|]. split; [rewrite K; lia|]. split; [exact P|].
    apply (er_program c). exact P.
Qed.

(** ** Builds that break the limits *)
Lemma build_too_large c ty input ow om : c_debug c = true -> 2 ^ 24 * block_size (ty_block ty) < 64 * zlen input ->
  bm_build c ty input ow om = AssertFail.
Proof. intros D H. unfold bm_build. rewrite D. replace (zlen input * 64 <=? 2 ^ 24 * block_size (ty_block ty)) with false by lia. reflexivity. Qed.

Lemma build_empty c ty ow om : c_debug c = true -> bm_build c ty [] ow om = AssertFail.
Proof.
  intros D. assert (R : resize ow (words_in_block (ty_block ty) * cdiv (zlen (@nil Z)) (words_in_block (ty_block ty))) = []).
  { replace (words_in_block (ty_block ty) * cdiv (zlen (@nil Z)) (words_in_block (ty_block ty))) with 0 by (destruct (ty_block ty); reflexivity).
    reflexivity. }
  unfold bm_build. rewrite massert_true by (destruct (ty_block ty); reflexivity). cbn [bind]. rewrite R. cbn [length skipn app].
  replace (block_counts c (ty_block ty) []) with (Ok (@nil Z)) by (destruct (ty_block ty); reflexivity). cbn [bind].
  unfold tree_build. rewrite D. reflexivity.
Qed.

Lemma tree_build_limits c f H input old : c_debug c = true -> input = [] \/ 2 ^ 24 < zlen input -> tree_build c f H input old = AssertFail.
Proof.
  intros D H1. unfold tree_build. rewrite D. rewrite massert_fail; [reflexivity|]. destruct H1 as [-> |H1]; [reflexivity|lia].
Qed.

Lemma tree_index_checked c f H v i sign : c_debug c = true -> v_size v <= i ->
  tree_sum c f H v i = AssertFail /\ tree_update c f H v i sign = AssertFail.
Proof.
  intros D Hi. unfold tree_sum, tree_update. rewrite D. replace (i <? v_size v) with false by lia. split; reflexivity.
Qed.

Lemma node_index_checked c base n m p i sign : c_debug c = true -> nd_fanout (desc n) <= i ->
  node_sum c n m p i = AssertFail /\ (nd_fanout (desc n) < i -> node_update c base n m p i sign = AssertFail).
Proof.
  intros D Hi. split.
  - unfold node_sum. rewrite D. replace (i <? nd_fanout (desc n)) with false by lia. reflexivity.
  - intros H. unfold node_update. replace (i =? nd_fanout (desc n)) with false by lia. rewrite D.
    replace (i <? nd_fanout (desc n)) with false by lia. reflexivity.
Qed.

Lemma block_rank_checked c bt s x i : c_debug c = true -> block_size bt <= i < 2 ^ 64 - 1 ->
  block_rank c bt s x i = if block_size bt =? 64 then Ub UB_shift else AssertFail.
Proof.
  intros D H. destruct bt as [|rm sm|rm sm]; cbn [block_size] in *; cbn [block_rank].
  - unfold rank_b64. replace (u64 (i + 1)) with (i + 1) by (unfold u64, wrap; rewrite Z.mod_small; lia).
    replace (i + 1 =? 64) with false by lia. unfold shl64. replace (i + 1 <? 64) with false by lia. rewrite ?Bool.andb_false_r. reflexivity.
  - replace (rank_u256 c rm (s_rank s) x i) with (@AssertFail (Z * stat)); [reflexivity|].
    destruct rm; cbn [rank_u256]; unfold rank_generic, rank_vec_loop, rank_vec_unrolled, rank_u256_builtin_parallel, rank_vec_parallel;
      rewrite D, massert_fail by lia; reflexivity.
  - replace (rank_u512 c rm (s_rank s) x i) with (@AssertFail (Z * stat)); [reflexivity|].
    destruct rm; cbn [rank_u512]; unfold rank_generic, rank_vec_loop, rank_vec_unrolled, rank_u512_builtin_parallel, rank_vec_parallel;
      rewrite D, massert_fail by lia; reflexivity.
Qed.
