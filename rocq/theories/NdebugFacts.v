(** Debug and release builds run the same code but for the assertions. *)
From Verif Require Import Base BaseFacts Mem Nodes Trees Words Blocks BlockFacts Spec Bitmap System LimitFacts.

(** [r] is what a debug build does, [r'] what a release build does: if the debug
    build returns, the release build returns the same. *)
Definition erases {T} (r r' : res T) : Prop := (forall a, r = Ok a -> r' = Ok a) /\ r' <> AssertFail.

Lemma er_ok {T} (a : T) : erases (Ok a) (Ok a).
Proof. split; [auto|discriminate]. Qed.
Lemma er_ub {T} k : @erases T (Ub k) (Ub k).
Proof. split; [auto|discriminate]. Qed.
Lemma er_massert d b : erases (massert d b) (massert false b).
Proof. destruct d, b; cbn; split; auto; try discriminate; intros [] _; reflexivity. Qed.
Lemma er_bind {S T} (e e' : res S) (f f' : S -> res T) : erases e e' -> (forall a, erases (f a) (f' a)) ->
  erases (bind e f) (bind e' f').
Proof.
  intros (H1 & N) H. split.
  - intros b E. apply bind_inv in E as (a & E & E2). rewrite (H1 a E). cbn [bind]. apply H. exact E2.
  - destruct e'; cbn [bind]; [apply H|discriminate|contradiction].
Qed.
Lemma er_foldM {S T} (f f' : S -> T -> res S) l : (forall s a, erases (f s a) (f' s a)) -> forall s, erases (foldM f l s) (foldM f' l s).
Proof. intros H. induction l as [|a l IH]; intros s; cbn [foldM]; [apply er_ok|]. apply er_bind; auto. Qed.
Lemma er_mapM {S T} (f f' : S -> res T) l : (forall a, erases (f a) (f' a)) -> erases (mapM f l) (mapM f' l).
Proof.
  intros H. induction l as [|a l IH]; cbn [mapM]; [apply er_ok|]. apply er_bind; auto. intros b. apply er_bind; auto. intros; apply er_ok.
Qed.

Create HintDb er.
Ltac er := repeat (cbv zeta; match goal with
  | |- erases (Ok _) _ => apply er_ok
  | |- erases (Ub _) _ => apply er_ub
  | |- erases (massert _ _) (massert _ _) => apply er_massert
  | |- erases (bind _ _) (bind _ _) => apply er_bind; [|intros]
  | |- erases (foldM _ _ _) (foldM _ _ _) => apply er_foldM; intros
  | |- erases (mapM _ _) (mapM _ _) => apply er_mapM; intros
  | |- erases (if ?x then _ else _) (if ?x then _ else _) => destruct x
  | |- erases (match ?x with _ => _ end) (match ?x with _ => _ end) => destruct x
  | |- erases (let '(_, _) := ?x in _) _ => destruct x
  | |- erases ((match ?x with _ => _ end) _) _ => destruct x
  | |- erases _ _ => solve [auto 3 with er]
  end).

Lemma er_geti l i : erases (geti l i) (geti l i). Proof. unfold geti. er. Qed.
Lemma er_seti l i v : erases (seti l i v) (seti l i v). Proof. unfold seti. er. Qed.
Lemma er_load n m o : erases (load n m o) (load n m o). Proof. unfold load. er. Qed.
Lemma er_store n m o v : erases (store n m o v) (store n m o v). Proof. unfold store. er. Qed.
Lemma er_loadu w l m o : erases (loadu w l m o) (loadu w l m o). Proof. unfold loadu. er. Qed.
Lemma er_storeu w m o v : erases (storeu w m o v) (storeu w m o v). Proof. unfold storeu. er. Qed.
Lemma er_load_al t b w l m o : erases (load_aligned t b w l m o) (load_aligned t b w l m o). Proof. unfold load_aligned. er. Qed.
Lemma er_row b n t r : erases (tbl_row b n t r) (tbl_row b n t r). Proof. unfold tbl_row. er. Qed.
Lemma er_ctz x : erases (ctz x) (ctz x). Proof. unfold ctz. er. Qed.
Lemma er_shl x n : erases (shl64 x n) (shl64 x n). Proof. unfold shl64. er. Qed.
Lemma er_shr x n : erases (shr64 x n) (shr64 x n). Proof. unfold shr64. er. Qed.
#[global] Hint Resolve er_geti er_seti er_load er_store er_loadu er_storeu er_load_al er_row er_ctz er_shl er_shr : er.
#[global] Hint Extern 1 (erases (load_sm _ _ _ _) _) => unfold load_sm; apply er_load : er.
#[global] Hint Extern 1 (erases (load_ky _ _ _ _) _) => unfold load_ky; apply er_load : er.
#[global] Hint Extern 1 (erases (store_sm _ _ _ _ _) _) => unfold store_sm; apply er_store : er.
#[global] Hint Extern 1 (erases (store_ky _ _ _ _ _) _) => unfold store_ky; apply er_store : er.

(** ** Nodes *)
Lemma er_build_node d input m o : erases (build_node d input m o) (build_node d input m o).
Proof. unfold build_node. er. Qed.
Lemma er_node_sum c n m p i : erases (node_sum c n m p i) (node_sum (release c) n m p i).
Proof. unfold node_sum. cbn [release c_debug]. er. Qed.
#[global] Hint Resolve er_build_node er_node_sum : er.
Lemma er_update_scalar d m p i s : erases (update_scalar d m p i s) (update_scalar d m p i s).
Proof. unfold update_scalar. er. Qed.
Lemma er_update_vector c b d al r1 r2 m p j : erases r1 r1 -> erases r2 r2 ->
  erases (update_vector c b d al r1 r2 m p j) (update_vector (release c) b d al r1 r2 m p j).
Proof. intros H1 H2. unfold update_vector. cbn [release c_trap]. er. Qed.
#[global] Hint Resolve er_update_scalar er_update_vector : er.
Lemma er_node_update c b n m p i s : erases (node_update c b n m p i s) (node_update (release c) b n m p i s).
Proof.
  unfold node_update. cbn [release c_debug c_avx2 c_avx512]. destruct (i =? nd_fanout (desc n)); [apply er_ok|].
  apply er_bind; [apply er_massert|intros _]. cbv zeta. destruct n;
    match goal with |- erases (if ?x then _ else _) _ => destruct x end; auto with er.
Qed.
Lemma er_scan ld x : (forall z, erases (ld z) (ld z)) -> forall idx i, erases (scan_gt ld x idx i) (scan_gt ld x idx i).
Proof. intros H. induction idx; intros i; cbn [scan_gt]; er. Qed.
#[global] Hint Extern 2 (erases (scan_gt _ _ _ _) _) => apply er_scan; intros; auto with er : er.
Lemma er_search_scalar c d m p x : erases (search_scalar c d m p x) (search_scalar (release c) d m p x).
Proof. unfold search_scalar. cbn [release c_debug]. er. Qed.
Lemma er_search_avx2 c d m p x : erases (search_avx2 c d m p x) (search_avx2 (release c) d m p x).
Proof. unfold search_avx2. cbn [release c_debug]. er. Qed.
Lemma er_search_avx512 c d m p x : erases (search_avx512 c d m p x) (search_avx512 (release c) d m p x).
Proof. unfold search_avx512. cbn [release c_debug]. er. Qed.
Lemma er_search_return c n m p i : erases (search_return c n m p i) (search_return (release c) n m p i).
Proof. unfold search_return. er. Qed.
#[global] Hint Resolve er_node_update er_search_scalar er_search_avx2 er_search_avx512 er_search_return : er.


(** The leaf's assertion evaluates sum(fanout - 1), a release build does not. *)
Lemma er_leaf_check c n m p x :
  erases (if c_debug c then let* t := node_sum c n m p (nd_fanout (desc n) - 1) in massert true (x <? t) else Ok tt)
         (if c_debug (release c) then let* t := node_sum (release c) n m p (nd_fanout (desc n) - 1) in massert true (x <? t) else Ok tt).
Proof. split; [intros [] _; reflexivity|discriminate]. Qed.
Lemma er_node_search c n m p x : erases (node_search c n m p x) (node_search (release c) n m p x).
Proof.
  unfold node_search. destruct n; (try (apply er_bind; [apply er_leaf_check|intros _])); cbn [release c_debug c_avx2 c_avx512]; er.
Qed.
#[global] Hint Resolve er_node_search : er.

(** ** Trees *)
Lemma er_view_nn {T} (v : res T) : v <> AssertFail -> erases v v.
Proof. split; auto. Qed.

Lemma er_tree_sum c f H v i : (forall i, v_nn v i <> AssertFail) -> erases (tree_sum c f H v i) (tree_sum (release c) f H v i).
Proof. intros NN. pose proof (fun i => er_view_nn _ (NN i)). unfold tree_sum. cbn [release c_debug]. er. Qed.
Lemma er_tree_update c f H v i s : (forall i, v_nn v i <> AssertFail) -> erases (tree_update c f H v i s) (tree_update (release c) f H v i s).
Proof. intros NN. pose proof (fun i => er_view_nn _ (NN i)). unfold tree_update. cbn [release c_debug]. er. Qed.
Lemma er_tree_search c f H v x : (forall i, v_nn v i <> AssertFail) -> erases (tree_search c f H v x) (tree_search (release c) f H v x).
Proof. intros NN. pose proof (fun i => er_view_nn _ (NN i)). unfold tree_search. er. Qed.
#[global] Hint Resolve er_tree_sum er_tree_update er_tree_search : er.

Lemma er_lvl_step n st : erases (lvl_step n st) (lvl_step n st).
Proof. unfold lvl_step. er. Qed.
Lemma er_lvl_step_if n st : erases (lvl_step_if n st) (lvl_step_if n st).
Proof. unfold lvl_step_if. destruct st as [[[m t] h] nn]. destruct (1 <? m); [apply er_lvl_step|apply er_ok]. Qed.
#[global] Hint Resolve er_lvl_step er_lvl_step_if : er.
Lemma er_levels c f H n : erases (levels c f H n) (levels (release c) f H n).
Proof. unfold levels. cbn [release c_debug]. er. Qed.
Lemma er_leaf_fill c mx input base : forall js tmp, erases (leaf_fill c mx input base js tmp) (leaf_fill (release c) mx input base js tmp).
Proof. induction js; intros; cbn [leaf_fill release c_debug]; er. Qed.
#[global] Hint Resolve er_levels er_leaf_fill : er.
Lemma er_leaves c n mx input nodes b m : erases (build_leaves c n mx input nodes b m) (build_leaves (release c) n mx input nodes b m).
Proof. unfold build_leaves. er. Qed.
Lemma er_group input : forall fuel base acc, erases (group_sum input base fuel acc) (group_sum input base fuel acc).
Proof. induction fuel; intros; cbn [group_sum]; er. Qed.
#[global] Hint Resolve er_leaves er_group : er.
Lemma er_build_inner n st input nodes b m : erases (build_inner n st input nodes b m) (build_inner n st input nodes b m).
Proof. unfold build_inner. er. Qed.
#[global] Hint Resolve er_build_inner : er.
Lemma er_inner_level n nn input st : erases (inner_level n nn input st) (inner_level n nn input st).
Proof. unfold inner_level. er. Qed.
#[global] Hint Resolve er_inner_level : er.
Lemma er_tree_build c f H input old : erases (tree_build c f H input old) (tree_build (release c) f H input old).
Proof. unfold tree_build. cbn [release c_debug]. er. Qed.
#[global] Hint Resolve er_tree_build : er.

(** ** Blocks *)
Lemma er_popcount c pm x : erases (popcount_u64 c pm x) (popcount_u64 (release c) pm x).
Proof. unfold popcount_u64. cbn [release c_debug]. er. Qed.
#[global] Hint Resolve er_popcount : er.
Lemma er_ldw x j : erases (ldw x j) (ldw x j). Proof. unfold ldw. er. Qed.
#[global] Hint Resolve er_ldw : er.
Lemma er_ldws x : forall n j, erases (ldws x j n) (ldws x j n). Proof. induction n; intros; cbn [ldws]; er. Qed.
Lemma er_rib c pm x i : erases (rank_in_block c pm x i) (rank_in_block (release c) pm x i).
Proof. unfold rank_in_block. er. Qed.
Lemma er_sum_loop g g' : (forall b, erases (g b) (g' b)) -> forall fuel b acc, erases (sum_loop g b fuel acc) (sum_loop g' b fuel acc).
Proof. intros H. induction fuel; intros; cbn [sum_loop]; er. Qed.
Lemma er_fill g g' n cs : (forall b, erases (g b) (g' b)) -> erases (fill_counts g n cs) (fill_counts g' n cs).
Proof. intros H. unfold fill_counts. er. Qed.
Lemma er_store_words a o w : erases (store_words a o w) (store_words a o w).
Proof. unfold store_words. er. Qed.
#[global] Hint Resolve er_ldws er_rib er_store_words : er.
#[global] Hint Extern 2 (erases (sum_loop _ _ _ _) _) => apply er_sum_loop; intros; er : er.
#[global] Hint Extern 2 (erases (fill_counts _ _ _) _) => apply er_fill; intros; er : er.
Lemma er_block_rank c bt s x i : erases (block_rank c bt s x i) (block_rank (release c) bt s x i).
Proof.
  unfold block_rank. destruct bt as [|rm sm|rm sm].
  - unfold rank_b64. er.
  - apply er_bind; [|intros [? ?]; apply er_ok].
    unfold rank_u256, rank_generic, rank_vec_loop, rank_vec_unrolled, rank_vec_parallel, rank_u256_builtin_parallel.
    destruct rm; cbn [release c_debug]; er.
  - apply er_bind; [|intros [? ?]; apply er_ok].
    unfold rank_u512, rank_generic, rank_vec_loop, rank_vec_unrolled, rank_vec_parallel, rank_u512_builtin_parallel.
    destruct rm; cbn [release c_debug]; er.
Qed.
Lemma er_select_u64 c sm x i : erases (select_u64 c sm x i) (select_u64 (release c) sm x i).
Proof.
  unfold select_u64, select_broadword_sdsl, select_broadword_succinct, select_sse4_sdsl, select_sse4_succinct, select_pdep, succinct_tail.
  cbn [release c_debug]. er.
Qed.
#[global] Hint Resolve er_block_rank er_select_u64 : er.
Lemma er_select_loop c pm x : forall fuel i k cnt, erases (select_loop c pm x fuel i k cnt) (select_loop (release c) pm x fuel i k cnt).
Proof. induction fuel; intros; cbn [select_loop]; er. Qed.
#[global] Hint Resolve er_select_loop : er.
Lemma er_vec_tail c cs ms st x k : erases (select_vec_tail c cs ms st x k) (select_vec_tail (release c) cs ms st x k).
Proof. unfold select_vec_tail. er. Qed.
#[global] Hint Resolve er_vec_tail : er.
Lemma er_block_select c bt s x k : erases (block_select c bt s x k) (block_select (release c) bt s x k).
Proof.
  unfold block_select. destruct bt as [|rm sm|rm sm].
  - er.
  - apply er_bind; [|intros [? ?]; apply er_ok]. unfold select_u256, select_generic, select_vec_builtin, select_vec_simd.
    destruct sm; cbn [release c_debug]; er.
  - apply er_bind; [|intros [? ?]; apply er_ok]. unfold select_u512, select_generic, select_vec_builtin, select_vec_simd.
    destruct sm; cbn [release c_debug]; er.
Qed.
#[global] Hint Resolve er_block_select : er.

(** ** Bitmaps *)
Lemma er_access c ws i : erases (bm_access c ws i) (bm_access (release c) ws i).
Proof. unfold bm_access. cbn [release c_debug]. er. Qed.
#[global] Hint Resolve er_access : er.
Lemma er_flip c ty ws v i : (forall i, v_nn v i <> AssertFail) -> erases (bm_flip c ty ws v i) (bm_flip (release c) ty ws v i).
Proof. intros H. unfold bm_flip. cbn [release c_debug]. er. Qed.
Lemma er_rank c ty s ws v i : (forall i, v_nn v i <> AssertFail) -> erases (bm_rank c ty s ws v i) (bm_rank (release c) ty s ws v i).
Proof. intros H. unfold bm_rank. cbn [release c_debug]. er. Qed.
Lemma er_select c ty s ws v i : (forall i, v_nn v i <> AssertFail) -> erases (bm_select c ty s ws v i) (bm_select (release c) ty s ws v i).
Proof. intros H. unfold bm_select. cbn [release c_debug]. er. Qed.
Lemma er_counts c bt ws : erases (block_counts c bt ws) (block_counts (release c) bt ws).
Proof. unfold block_counts. cbn [release c_debug]. er. Qed.
#[global] Hint Resolve er_flip er_rank er_select er_counts : er.
Lemma er_build c ty input ow om : erases (bm_build c ty input ow om) (bm_build (release c) ty input ow om).
Proof. unfold bm_build. cbn [release c_debug]. er. Qed.
#[global] Hint Resolve er_build : er.

Lemma own_nn ty b i : v_nn (own_view ty b) i <> AssertFail.
Proof. cbn [own_view v_nn]. unfold load. destruct (in_bounds _ _ _); discriminate. Qed.
#[global] Hint Resolve own_nn : er.

Lemma er_step c ty st o : erases (step c ty st o) (step (release c) ty st o).
Proof. unfold step. destruct st as [b s]. destruct o; er. Qed.
#[global] Hint Resolve er_step : er.
Lemma er_run c ty : forall ops st, erases (run c ty st ops) (run (release c) ty st ops).
Proof. induction ops as [|o ops IH]; intros st; cbn [run]; er. Qed.
#[global] Hint Resolve er_run : er.
Lemma er_program c ty addr s input ops : erases (program c ty addr s input ops) (program (release c) ty addr s input ops).
Proof. unfold program, new_bitmap. er. Qed.

(** ** Processes *)
Lemma er_sys_nn s x i : v_nn (sys_view s x) i <> AssertFail.
Proof.
  cbn [sys_view v_nn]. destruct (x_nn x) as [[id off]|]; [|discriminate]. destruct (blk_at s id); [|discriminate].
  unfold load. destruct (in_bounds _ _ _); discriminate.
Qed.
#[global] Hint Resolve er_sys_nn : er.
Lemma er_get s o : erases (get_obj s o) (get_obj s o). Proof. unfold get_obj. er. Qed.
Lemma er_free s d : erases (free_blk s d) (free_blk s d). Proof. unfold free_blk. er. Qed.
Lemma er_data s d : erases (data_of s d) (data_of s d). Proof. unfold data_of. er. Qed.
Lemma er_write s d m : erases (write_blk s d m) (write_blk s d m). Proof. unfold write_blk. er. Qed.
#[global] Hint Resolve er_get er_free er_data er_write : er.
Lemma er_store_data s d cap m a : erases (store_data s d cap m a) (store_data s d cap m a). Proof. unfold store_data. er. Qed.
#[global] Hint Resolve er_store_data : er.
Lemma er_call c s o x p : erases (sys_call c s o x p) (sys_call (release c) s o x p).
Proof. unfold sys_call. destruct p; er. Qed.
#[global] Hint Resolve er_call : er.
Lemma er_sys_step c s e : erases (sys_step c s e) (sys_step (release c) s e).
Proof. unfold sys_step. destruct e; er. Qed.
#[global] Hint Resolve er_sys_step : er.
Lemma er_sys_run c : forall es s, erases (sys_run c s es) (sys_run (release c) s es).
Proof. induction es as [|e es IH]; intros s; cbn [sys_run]; er. Qed.
#[global] Hint Resolve er_sys_run : er.
Lemma er_process c es : erases (process c es) (process (release c) es).
Proof. unfold process. er. Qed.

Lemma release_same c : c_debug c = false -> release c = c.
Proof. destruct c; cbn. intros ->. reflexivity. Qed.

Lemma release_program c ty addr s input ops : c_debug c = false -> program c ty addr s input ops <> AssertFail.
Proof. intros H. rewrite <- (release_same c H). apply (er_program c). Qed.

Lemma release_process c es : c_debug c = false -> process c es <> AssertFail.
Proof. intros H. rewrite <- (release_same c H). apply er_process. Qed.
