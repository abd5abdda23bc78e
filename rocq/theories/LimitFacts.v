(** What happens outside the limits: unsupported modes, the avx512 debug
    assertion, misaligned buffers, counts above 2^31. *)
From Coq Require Import ZifyBool.
From Verif Require Import Base BaseFacts Mem MemFacts Tables Nodes NodeFacts SearchFacts Trees LevelFacts TreeFacts TreeBuild
  Words WordFacts Blocks BlockFacts Spec Bitmap Usage BitmapFacts ProgramFacts PropFacts2.
Ltac Zify.zify_post_hook ::= Z.div_mod_to_equations.

(** ** Modes without an implementation *)
Lemma popcount_unsupported c pm w : ~ pm_ok pm -> popcount_u64 c pm w = if c_debug c then AssertFail else Ok 0.
Proof. unfold pm_ok. intros H. destruct pm; try tauto; cbn [popcount_u64]; destruct (c_debug c); reflexivity. Qed.

Lemma rank_generic_unsupported c n m st x i : (1 <= n <= 8)%nat -> blk x (Z.of_nat n) -> 0 <= i < 64 * Z.of_nat n -> stat_ok n st ->
  ~ pm_ok (rm_pcm m) ->
  if c_debug c then rank_generic c n m st x i = AssertFail else exists st', rank_generic c n m st x i = Ok (0, st').
Proof.
  intros Hn Hb Hi Hs Hp. unfold rank_generic. rewrite massert_true by lia. cbn [bind]. unfold rank_in_block.
  rewrite (ldw_ok x (Z.of_nat n)) by (auto; lia). cbn [bind]. rewrite popcount_unsupported by auto.
  set (get := fun b => let* w := ldw x b in popcount_u64 c (rm_pcm m) w).
  assert (Hg : c_debug c = false -> forall j, 0 <= j < Z.of_nat n -> get j = Ok 0 /\ 0 <= 0 <= 64).
  { intros D j Hj. split; [|lia]. unfold get. rewrite (ldw_ok x (Z.of_nat n)) by auto. cbn [bind].
    rewrite popcount_unsupported, D by auto. reflexivity. }
  destruct (c_debug c) eqn:D; [reflexivity|]. cbn [bind]. specialize (Hg eq_refl). destruct (rm_psm m).
  - rewrite (sum_loop_ok get (fun _ => 0)); [|intros; apply Hg; lia|lia|lia]. cbn [bind].
    rewrite sumf_const0 by auto. eexists. reflexivity.
  - destruct (fill_counts_ok get (fun _ => 0) n (st_c st)) as (cs & E & L & P); auto; try apply Hs.
    rewrite E. cbn [bind]. rewrite geti_ok by (unfold zlen; lia). cbn [bind].
    rewrite P by lia. rewrite sumf_const0 by auto. eexists. reflexivity.
  - eexists. reflexivity.
Qed.

Lemma rank_unsupported c b s x i : match b with B64 => False | B256 rm _ => rank256_supported rm = false | B512 rm _ => rank512_supported rm = false end ->
  reachable_statics c b s -> block_ok b x -> 0 <= i < block_size b ->
  if c_debug c then block_rank c b s x i = AssertFail else exists s', block_rank c b s x i = Ok (0, s').
Proof.
  intros Hb Hr Hx Hi. apply reachable_statics_ok in Hr as [S1 S2]. apply block_ok_blk in Hx.
  destruct b as [|rm sm|rm sm]; [contradiction| |]; cbn [block_rank block_size nwords] in *;
    [change (words_in_block (B256 rm sm)) with (Z.of_nat 4) in Hx|change (words_in_block (B512 rm sm)) with (Z.of_nat 8) in Hx].
  - assert (G : rank_u256 c rm (s_rank s) x i = rank_generic c 4 rm (s_rank s) x i /\ ~ pm_ok (rm_pcm rm))
      by (destruct rm; try discriminate Hb; split; try reflexivity; intros [P|P]; discriminate P).
    destruct G as [-> G]. pose proof (rank_generic_unsupported c 4 rm (s_rank s) x i ltac:(lia) Hx ltac:(lia) S1 G) as R.
    destruct (c_debug c); [rewrite R; reflexivity|]. destruct R as (st' & ->). cbn [bind]. eauto.
  - assert (G : rank_u512 c rm (s_rank s) x i = rank_generic c 8 rm (s_rank s) x i /\ ~ pm_ok (rm_pcm rm))
      by (destruct rm; try discriminate Hb; split; try reflexivity; intros [P|P]; discriminate P).
    destruct G as [-> G]. pose proof (rank_generic_unsupported c 8 rm (s_rank s) x i ltac:(lia) Hx ltac:(lia) S1 G) as R.
    destruct (c_debug c); [rewrite R; reflexivity|]. destruct R as (st' & ->). cbn [bind]. eauto.
Qed.

Lemma select_loop_unsupported c pm x n : ~ pm_ok pm -> forall fuel i k cnt, blk x n -> 0 <= i -> i + Z.of_nat fuel <= n -> 0 <= k < 2 ^ 64 ->
  (0 < fuel)%nat ->
  select_loop c pm x fuel i k cnt = if c_debug c then AssertFail else Ok (i + Z.of_nat fuel, k, 0).
Proof.
  intros Hp. induction fuel; intros i k cnt Hb Hi Hf Hk H0; [lia|]. cbn [select_loop].
  rewrite (ldw_ok x n) by (auto; lia). cbn [bind]. rewrite popcount_unsupported by auto.
  destruct (c_debug c) eqn:D; [reflexivity|]. cbn [bind]. replace (k <? 0) with false by lia.
  rewrite wrap_small by lia. destruct fuel.
  - cbn [select_loop]. f_equal. f_equal. f_equal; lia.
  - rewrite IHfuel by (auto; lia). f_equal. f_equal. f_equal; lia.
Qed.

Lemma select_unsupported c b s x k :
  match b with B64 => False | B256 _ sm => select256_supported sm = false | B512 _ sm => select512_supported sm = false end ->
  block_ok b x -> 0 <= k < 2 ^ 64 ->
  match b with
  | B256 _ SM_pdep | B512 _ SM_pdep =>
      if c_debug c then block_select c b s x k = AssertFail
      else w_off x + words_in_block b = zlen (w_arr x) -> block_select c b s x k = Ub UB_bounds
  | _ => block_select c b s x k = if c_debug c then AssertFail else Ok (0, s)
  end.
Proof.
  intros Hb Hx Hk. apply block_ok_blk in Hx. pose proof Hx as (X1 & X2 & X3).
  assert (Ho : forall j, w_off x + j = zlen (w_arr x) -> ldw x j = Ub UB_bounds).
  { intros j Hj. unfold ldw, geti. replace ((0 <=? w_off x + j) && (w_off x + j <? zlen (w_arr x))) with false by lia. reflexivity. }
  destruct b as [|rm sm|rm sm]; [contradiction| |]; cbn [block_select] in *;
    [change (words_in_block (B256 rm sm)) with 4 in *|change (words_in_block (B512 rm sm)) with 8 in *];
    destruct sm; try discriminate Hb; cbn [select_u256 select_u512]; unfold select_generic.
  - change (sl_scm_loop SM_pdep) with true. cbn [sl_swm].
    rewrite (select_loop_unsupported c (sl_pcm SM_pdep) x 4) by (auto; try lia; intros [P|P]; discriminate P).
    destruct (c_debug c); [reflexivity|]. intros E. cbn [bind massert]. rewrite Ho by lia. reflexivity.
  - change (sl_scm_loop SM_avx512_avx512_pdep) with false. destruct (c_debug c); [reflexivity|]. destruct s; reflexivity.
  - change (sl_scm_loop SM_pdep) with true.
    rewrite (select_loop_unsupported c (sl_pcm SM_pdep) x 8) by (auto; try lia; intros [P|P]; discriminate P).
    destruct (c_debug c); [reflexivity|]. intros E. cbn [bind massert]. rewrite Ho by lia. reflexivity.
  - change (sl_scm_loop SM_avx2_avx512_pdep) with false. destruct (c_debug c); [reflexivity|]. destruct s; reflexivity.
Qed.

(** ** Misaligned index buffer *)
Lemma leaf_trap c base cnt q m V a t sign k : level_inv A2_128 cnt q m V -> 0 <= k < cnt -> a = q + k * bytes_of A2_128 -> 0 <= t < 128 ->
  c_avx2 c = true -> c_trap c = true -> (base + a) mod 32 <> 0 ->
  node_update c base A2_128 m a t sign = Ub UB_align.
Proof.
  intros (L1 & L2 & _) Hk -> Ht C1 C2 Hm. unfold node_update. change (nd_fanout (desc A2_128)) with 128.
  replace (t =? 128) with false by lia. rewrite massert_true by lia. cbn [bind]. rewrite C1. unfold update_vector.
  change (nd_seg (desc A2_128)) with 16. change (nd_nseg (desc A2_128)) with 8.
  change (nd_sb (desc A2_128)) with 4%nat. change (8 * Z.of_nat 4) with 32.
  destruct (tbl_check_row 32 _ 8 _ 9 _ (t / 16 + 1) sign chk_8_32) as (r & E & _); [lia|lia|].
  change (8 + 1) with 9. rewrite E. cbn [bind]. unfold load_aligned.
  replace (sm_addr (desc A2_128) (q + k * bytes_of A2_128) 0) with (q + k * bytes_of A2_128) by (unfold sm_addr; lia).
  rewrite in_bounds_true by (change (bytes_of A2_128) with 288 in *; lia). rewrite C2.
  change (Z.of_nat (4 * Z.to_nat 8)) with 32. cbn [andb].
  apply Z.eqb_neq in Hm. rewrite Hm. reflexivity.
Qed.

Lemma tree_trap c H mx n v A i sign : tinv F2 H mx n v A -> 0 <= i < n ->
  c_avx2 c = true -> c_trap c = true -> (v_base v + v_ptr v) mod 32 <> 0 ->
  tree_update c F2 H v i sign = Ub UB_align.
Proof.
  intros T Hi C1 C2 Hm. pose proof T as (Hs & Hn & Hmx & HA & A0 & G & HG & GA & L).
  unfold tree_update. rewrite massert_true by lia. cbn [bind].
  destruct H as [|[|[|[|[|H]]]]]; cbn [levels_inv] in L; try contradiction; lits.
  - destruct L as (Hb & L0). apply (leaf_trap c _ _ _ _ _ _ _ _ 0 L0); auto; try side.
  - destruct L as (Hb & L1 & L0). nowrap.
    destruct (inner_update' c (v_base v) A2_64 _ _ _ _ _ _ i sign (v_ptr v) (i / 128 + 1) L1)
      as (m1 & -> & L1' & F1); try side; [discriminate|]. cbn [bind].
    apply (level_frame _ _ _ _ m1 _ _ _ L0) in F1 as L0a; [|side].
    apply (leaf_trap c _ _ _ _ _ _ _ _ (i / 128) L0a); auto; try side.
  - destruct L as (Hb & N1 & L2 & L1 & L0). rewrite N1. cbn [bind]. nowrap.
    destruct (inner_update' c (v_base v) A2_64 _ _ _ _ _ _ i sign (v_ptr v) (i / 8192 + 1) L2)
      as (m1 & -> & L2' & FR1); try side; [discriminate|]. cbn [bind].
    apply (level_frame _ _ _ _ m1 _ _ _ L1) in FR1 as L1a; [|side].
    apply (level_frame _ _ _ _ m1 _ _ _ L0) in FR1 as L0a; [|side].
    destruct (inner_update' c (v_base v) A2_64 _ _ _ _ _ _ i sign (v_ptr v + (i / 8192 + 1) * bytes_of A2_64) (i mod 8192 / 128 + 1) L1a)
      as (m2 & -> & L1' & FR2); try side; [discriminate|]. cbn [bind].
    apply (level_frame _ _ _ _ m2 _ _ _ L0a) in FR2 as L0b; [|side].
    rewrite (wrap_small 32) by side.
    apply (leaf_trap c _ _ _ _ _ _ _ _ (i / 128) L0b); auto; try side.
  - destruct L as (Hb & N1 & N2 & L3 & L2 & L1 & L0). rewrite N1, N2. cbn [bind]. nowrap.
    destruct (inner_update' c (v_base v) A2_32 _ _ _ _ _ _ i sign (v_ptr v) (i / 524288 + 1) L3)
      as (m1 & -> & L3' & FR1); try side; [discriminate|]. cbn [bind].
    apply (level_frame _ _ _ _ m1 _ _ _ L2) in FR1 as L2a; [|side].
    apply (level_frame _ _ _ _ m1 _ _ _ L1) in FR1 as L1a; [|side].
    apply (level_frame _ _ _ _ m1 _ _ _ L0) in FR1 as L0a; [|side].
    destruct (inner_update' c (v_base v) A2_64 _ _ _ _ _ _ i sign (v_ptr v + bytes_of A2_32 + i / 524288 * bytes_of A2_64)
        (i mod 524288 / 8192 + 1) L2a)
      as (m2 & -> & L2' & FR2); try side; [discriminate|]. cbn [bind].
    apply (level_frame _ _ _ _ m2 _ _ _ L1a) in FR2 as L1b; [|side].
    apply (level_frame _ _ _ _ m2 _ _ _ L0a) in FR2 as L0b; [|side].
    destruct (inner_update' c (v_base v) A2_64 _ _ _ _ _ _ i sign (v_ptr v + bytes_of A2_32 + cdiv n 524288 * bytes_of A2_64
        + (i mod 524288 / 8192 + i / 524288 * 64) * bytes_of A2_64) (i mod 8192 / 128 + 1) L1b)
      as (m3 & -> & L1' & FR3); try side; [discriminate|]. cbn [bind].
    apply (level_frame _ _ _ _ m3 _ _ _ L0b) in FR3 as L0c; [|side].
    rewrite (wrap_small 32) by side.
    apply (leaf_trap c _ _ _ _ _ _ _ _ (i / 128) L0c); auto; try side.
Qed.

Lemma flip_trap c ty n b s B i : binv ty n b B -> 0 <= i < zlen B -> ty_fam ty = F2 -> c_avx2 c = true -> c_trap c = true ->
  (b_addr b + Z.of_nat (ty_height ty) * 4) mod 32 <> 0 ->
  step c ty (b, s) (Flip i) = Ub UB_align.
Proof.
  intros (Hw & <- & Hz) Hi HF C1 C2 Hm. pose proof Hw as (Hsup & HW & E & A & T & HA).
  pose proof (winv_n _ _ _ _ Hw) as Hn. pose proof (winv_size _ _ _ _ Hw) as Hsz.
  pose proof (bsz_cases (ty_block ty)) as BC. fold (bsz ty) in BC.
  cbn [step]. unfold bm_flip. rewrite massert_true by (rewrite bm_size_ok; lia). cbn [bind].
  rewrite bm_access_ok by auto. cbn [bind]. rewrite zlen_bits in Hi. rewrite geti_ok by lia. cbn [bind].
  rewrite seti_ok by lia. cbn [bind]. fold (bsz ty).
  pose proof (div_block i (bsz ty) n ltac:(lia) ltac:(lia)) as Hb.
  rewrite HF in *. rewrite (tree_trap c _ (bsz ty) n _ A); auto.
Qed.

Lemma run_app c ty o1 : forall st o2, run c ty st (o1 ++ o2) =
  let* '(r1, st) := run c ty st o1 in let* '(r2, st) := run c ty st o2 in Ok (r1 ++ r2, st).
Proof.
  induction o1 as [|o o1 IH]; intros st o2; cbn [app run].
  - cbn [bind]. destruct (run c ty st o2) as [[r2 st2]| |]; reflexivity.
  - destruct (step c ty st o) as [[a st1]| |]; cbn [bind]; auto. rewrite IH.
    destruct (run c ty st1 o1) as [[r1 st2]| |]; cbn [bind]; auto.
    destruct (run c ty st2 o2) as [[r2 st3]| |]; reflexivity.
Qed.

Lemma contents_no_flip ops : forall B, Forall no_flip ops -> contents_after_all B ops = B.
Proof.
  induction ops as [|o ops IH]; intros B H; auto. inversion H; subst. cbn [contents_after_all]. rewrite IH by auto.
  destruct o; cbn [contents_after no_flip] in *; tauto.
Qed.

Lemma misaligned_flip c ty addr s input qs i rest : buildable ty input -> debug_counts_ok c ty (initial ty input) ->
  reachable_statics c (ty_block ty) s ->
  ty_fam ty = F2 -> c_avx2 c = true -> c_trap c = true -> (addr + Z.of_nat (ty_height ty) * 4) mod 32 <> 0 ->
  Forall no_flip qs -> valid_ops (initial ty input) qs -> selects_safe c ty (initial ty input) qs ->
  0 <= i < zlen (initial ty input) ->
  (exists outs, program c ty addr s input qs = Ok outs /\ answers_ok (initial ty input) qs outs) /\
  program c ty addr s input (qs ++ Flip i :: rest) = Ub UB_align.
Proof.
  intros Hb Hd Hs HF C1 C2 Hm Hq Hv Hsel Hi. destruct (new_bitmap_any c ty addr input Hb Hd) as (b & E & Ea & Hbi).
  apply reachable_statics_ok in Hs. unfold program. rewrite E. cbn [bind].
  destruct (run_ops_ok c ty _ qs b s _ Hbi Hs) as (outs & b' & s' & Er & Ha & Hb' & Hi' & _); auto.
  { eapply Forall_impl; [|exact Hq]. intros [] ?; cbn [no_flip op_addr_ok] in *; tauto. }
  split.
  - rewrite Er. cbn [bind]. eauto.
  - rewrite run_app, Er. cbn [bind]. cbn [run]. rewrite contents_no_flip in Hi' by auto.
    rewrite (flip_trap c ty _ b' s' _ i Hi'); auto. rewrite Hb', Ea. auto.
Qed.

Lemma header_misaligns addr h : addr mod 16 = 0 -> 1 <= h <= 3 -> (addr + h * 4) mod 32 <> 0.
Proof. lia. Qed.

(** ** The debug assertion on block counts *)

(** [r] is [r'] unless an assertion stopped it. *)
Definition upto_assert {T} (r r' : res T) : Prop := r = r' \/ r = AssertFail.

Lemma upto_refl {T} (r : res T) : upto_assert r r.
Proof. left; reflexivity. Qed.

Lemma upto_bind {S T} (e e' : res S) (f f' : S -> res T) : upto_assert e e' -> (forall a, upto_assert (f a) (f' a)) ->
  upto_assert (bind e f) (bind e' f').
Proof.
  intros [-> | ->] H; [|right; reflexivity]. destruct e'; cbn [bind]; auto; left; reflexivity.
Qed.

Lemma upto_massert d b : upto_assert (massert d b) (massert false b).
Proof. destruct d, b; cbn; unfold upto_assert; auto. Qed.

Lemma upto_foldM {S T} (f f' : S -> T -> res S) l : (forall s a, upto_assert (f s a) (f' s a)) ->
  forall s, upto_assert (foldM f l s) (foldM f' l s).
Proof.
  intros H. induction l as [|a l IH]; intros s; cbn [foldM]; [apply upto_refl|]. apply upto_bind; auto.
Qed.

Lemma upto_mapM {S T} (f f' : S -> res T) l : (forall a, upto_assert (f a) (f' a)) -> upto_assert (mapM f l) (mapM f' l).
Proof.
  intros H. induction l as [|a l IH]; cbn [mapM]; [apply upto_refl|]. apply upto_bind; auto. intros b. apply upto_bind; auto.
  intros; apply upto_refl.
Qed.

(** The same configuration without assertions. *)
Definition release (c : cfg) : cfg := {| c_debug := false; c_avx2 := c_avx2 c; c_avx512 := c_avx512 c; c_trap := c_trap c |}.

Ltac upto := repeat match goal with
  | |- upto_assert ?x ?x => apply upto_refl
  | |- upto_assert (massert _ _) (massert _ _) => apply upto_massert
  | |- upto_assert (bind _ _) (bind _ _) => apply upto_bind; [|intros]
  | |- upto_assert (foldM _ _ _) (foldM _ _ _) => apply upto_foldM; intros
  | |- upto_assert (mapM _ _) (mapM _ _) => apply upto_mapM; intros
  | |- upto_assert (match ?x with _ => _ end) _ => destruct x
  end.

Lemma upto_leaf_fill c mx input base : forall js tmp,
  upto_assert (leaf_fill c mx input base js tmp) (leaf_fill (release c) mx input base js tmp).
Proof. induction js; intros; cbn [leaf_fill release c_debug]; upto. apply IHjs. Qed.

Lemma upto_leaves c N mx input nodes b m : upto_assert (build_leaves c N mx input nodes b m) (build_leaves (release c) N mx input nodes b m).
Proof.
  unfold build_leaves. apply upto_bind; [|intros [? ?]; apply upto_refl]. apply upto_foldM. intros [tmp m'] i.
  apply upto_bind; [apply upto_leaf_fill|intros; apply upto_refl].
Qed.

Lemma upto_levels c f H n : upto_assert (levels c f H n) (levels (release c) f H n).
Proof. unfold levels. cbn [release c_debug]. upto. Qed.

Lemma upto_tree_build c f H input old : upto_assert (tree_build c f H input old) (tree_build (release c) f H input old).
Proof.
  unfold tree_build. apply upto_bind; [apply upto_massert|intros _]. apply upto_bind; [apply upto_levels|].
  intros [[[h0 total] x] nn]. upto; apply upto_leaves.
Qed.

Lemma upto_block_counts c bt ws : upto_assert (block_counts c bt ws) (block_counts (release c) bt ws).
Proof. unfold block_counts. upto. Qed.

Lemma upto_build c ty input oldw oldm : upto_assert (bm_build c ty input oldw oldm) (bm_build (release c) ty input oldw oldm).
Proof.
  unfold bm_build. apply upto_bind; [apply upto_massert|intros _]. apply upto_bind; [apply upto_block_counts|intros vals].
  apply upto_bind; [apply upto_tree_build|intros; apply upto_refl].
Qed.

Lemma leaf_fill_checked c mx input base k : c_debug c = true -> forall lo tmp tmp', leaf_fill c mx input base (zrange lo k) tmp = Ok tmp' ->
  forall j, lo <= j < lo + Z.of_nat k -> 0 <= base + lo -> base + j < zlen input -> zn 0 input (base + j) <= mx.
Proof.
  intros D. induction k; intros lo tmp tmp' E j Hj H0 Hb; [lia|]. cbn [zrange leaf_fill] in E.
  replace (base + lo <? zlen input) with true in E by lia. rewrite geti_ok in E by lia. cbn [bind] in E.
  rewrite D in E. destruct (Z.leb_spec (zn 0 input (base + lo)) mx) as [L|L]; [|discriminate E]. change (massert true true) with (Ok tt) in E. cbn [bind] in E.
  apply bind_inv in E as (t & E1 & E2). destruct (Z.eq_dec j lo) as [->|]; auto.
  apply (IHk (lo + 1) _ _ E2); lia.
Qed.

Lemma foldM_step {S T} (f : S -> T -> res S) l : forall s s' a, foldM f l s = Ok s' -> In a l -> exists s1 s2, f s1 a = Ok s2.
Proof.
  induction l as [|b l IH]; intros s s' a E Ha; [contradiction|]. cbn [foldM] in E. apply bind_inv in E as (s1 & E1 & E2).
  destruct Ha as [<-|Ha]; eauto.
Qed.

Lemma leaves_checked c N mx input nodes b m m' : c_debug c = true -> build_leaves c N mx input nodes b m = Ok m' ->
  zlen input <= nodes * fan N -> forall j, 0 <= j < zlen input -> zn 0 input j <= mx.
Proof.
  intros D E Hn j Hj. unfold build_leaves in E. apply bind_inv in E as ([t m1] & E & _). pose proof (fan_pos N) as HF.
  assert (Hi : In (j / fan N) (zrange 0 (Z.to_nat nodes))).
  { apply in_zrange. assert (0 <= j / fan N) by (apply Z.div_pos; lia).
    assert (j / fan N < nodes) by (apply Z.div_lt_upper_bound; lia). lia. }
  destruct (foldM_step _ _ _ _ _ E Hi) as ([t1 m2] & s2 & E1). apply bind_inv in E1 as (t2 & E1 & _).
  pose proof (Z.div_mod j (fan N) ltac:(lia)) as DM. pose proof (Z.mod_pos_bound j (fan N) ltac:(lia)) as MB.
  pose proof (leaf_fill_checked c mx input _ _ D _ _ _ E1 (j mod fan N)) as R.
  assert (0 <= j / fan N) by (apply Z.div_pos; lia).
  replace (j / fan N * fan N + j mod fan N) with j in R by lia. apply R; nia.
Qed.

Lemma tree_build_checked c f H input old m : c_debug c = true -> 1 <= zlen input <= 2 ^ 24 -> Z.of_nat H = tree_height f (zlen input) ->
  tree_build c f H input old = Ok m -> forall j, 0 <= j < zlen input -> zn 0 input j <= max_count f.
Proof.
  intros D Hn HH E j Hj. unfold tree_build in E. rewrite massert_true in E by lia. cbn [bind] in E.
  rewrite levels_ok in E by auto. cbn [bind] in E. pose proof (height_cases f H _ Hn HH) as C. clear HH.
  apply bind_inv in E as (m0 & _ & E). apply bind_inv in E as (nodes & EN & E).
  apply bind_inv in E as (st & E & _). set (n := zlen input) in *.
  assert (N : geti (nn_of f H n) (Z.of_nat H - 1) = Ok (cdiv n (match f with F2 => 128 | F5 => 512 end))).
  { clear -C. destruct f, H as [|[|[|[|[|H]]]]]; try contradiction; reflexivity. }
  assert (HN : nodes = cdiv n (match f with F2 => 128 | F5 => 512 end)) by congruence. clear EN N.
  destruct f; apply bind_inv in E as (m1 & E & _); apply (leaves_checked _ _ _ _ _ _ _ _ D E); auto; subst nodes; fold n.
  - change (fan A2_128) with 128. unfold cdiv. lia.
  - change (fan A5_512) with 512. unfold cdiv. lia.
Qed.

(** A group of [bs] bits with more than [mx] ones. *)
Lemma not_max_ones bs B mx b : 0 <= b -> bs * (b + 1) <= zlen B -> mx < ones_before B (bs * (b + 1)) - ones_before B (bs * b) ->
  ~ max_ones bs B mx.
Proof. intros H1 H2 H3 H. specialize (H b H1 H2). lia. Qed.

Lemma debug_build_asserts c ty addr input b : buildable ty input -> c_debug c = true ->
  0 <= b -> block_size (ty_block ty) * (b + 1) <= zlen (initial ty input) ->
  max_count (ty_fam ty) < ones_before (initial ty input) (block_size (ty_block ty) * (b + 1))
                        - ones_before (initial ty input) (block_size (ty_block ty) * b) ->
  new_bitmap c ty addr input = AssertFail.
Proof.
  intros Hb D H0 H1 H2. pose proof (blocks_bound ty input Hb) as Hn. pose proof Hb as (Hsup & Hin & _ & _ & HH).
  set (bt := ty_block ty) in *. set (n := cdiv (zlen input) (words_in_block bt)) in *.
  destruct (bm_build_ok (release c) ty input [] [] addr) as (m & E & _); auto; try constructor; try discriminate.
  destruct (upto_build c ty input [] []) as [U|U]; unfold new_bitmap; rewrite U; [|reflexivity]. exfalso.
  rewrite E in U. clear E. unfold bm_build in U. fold bt in U. fold n in U.
  assert (Hw : 0 < words_in_block bt) by (destruct bt; reflexivity). destruct (block_size_words bt) as [E1 E2].
  set (ws := built_words bt input []) in *.
  assert (Lw : zlen ws = words_in_block bt * n) by apply zlen_built.
  apply bind_inv in U as (_ & _ & U). change (input ++ skipn (length input) (resize [] (words_in_block bt * n))) with ws in U.
  rewrite (block_counts_ok c bt ws n) in U by (auto; lia). cbn [bind] in U. apply bind_inv in U as (m' & U & _).
  set (cs := counts_of (block_size bt) ws n) in *.
  assert (Lc : zlen cs = n) by (apply zlen_counts; lia).
  unfold initial in *. fold bt in H1, H2. rewrite <- built_words_fresh in H1, H2. fold ws in H1, H2.
  rewrite zlen_bits, Lw, E1 in H1. assert (b < n) by nia.
  pose proof (tree_build_checked c (ty_fam ty) (ty_height ty) cs [] m' D) as T. rewrite Lc in T. specialize (T Hn HH U b ltac:(lia)).
  unfold cs in T. rewrite zn_counts in T by lia.
  assert (Hl : block_size bt * (b + 1) <= zlen (bits_of_words ws)) by (rewrite zlen_bits, Lw; nia).
  rewrite !ones_words in H2 by (rewrite Lw; nia).
  rewrite (sumf_split (gbit ws) 0 (block_size bt * b) (block_size bt * (b + 1))) in H2 by nia. lia.
Qed.

(** No block can trip the assertion. *)
Lemma counts_always_ok c ty B : ty_fam ty = F2 \/ block_size (ty_block ty) <= 256 \/ c_debug c = false -> debug_counts_ok c ty B.
Proof.
  intros H D b Hb Hl. assert (0 < block_size (ty_block ty) <= 512) by (destruct (ty_block ty); cbn; lia).
  set (bs := block_size (ty_block ty)) in *.
  assert (G : ones_before B (bs * (b + 1)) - ones_before B (bs * b) <= bs).
  { rewrite !ones_before_sum by nia. rewrite (sumf_split _ 0 (bs * b) (bs * (b + 1))) by nia.
    pose proof (sumf_bound (fun j => b2z (bit B j)) 1 (bs * b) (bs * (b + 1)) ltac:(lia) ltac:(intros; cbv beta; destruct (bit B _); cbn; lia)). lia. }
  destruct H as [-> |[H|H]]; [lia| |congruence]. destruct (ty_fam ty); lia.
Qed.
