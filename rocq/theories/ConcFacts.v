(** The actions of a call, run without interruption, are the call of the sequential model. *)
From Coq Require Import ZifyBool.
From Verif Require Import Base BaseFacts Mem Nodes Trees Words Blocks BlockFacts Spec Bitmap Usage BitmapFacts ProgramFacts System Conc.

(** ** Running without interruption *)
Fixpoint run_act {A} (a : act A) (s : shared) : res (A * shared) :=
  match a with
  | Done r => let* x := r in Ok (x, s)
  | Get x k => let* v := cell_get s x in run_act (k v) s
  | Put x v k => let* s' := cell_put s x v in run_act k s'
  | Look o k => match sh_objs s o with Some b => run_act (k b) s | None => Ub UB_freed end
  | Save o x k => run_act k (put_bitmap s o x)
  end.

Lemma run_abind {A B} (a : act A) (f : A -> act B) : forall s,
  run_act (abind a f) s = let* '(x, s') := run_act a s in run_act (f x) s'.
Proof.
  induction a as [r|x k IH|x v k IH|o k IH|o x k IH]; intros s; cbn [abind run_act].
  - destruct r; reflexivity.
  - destruct (cell_get s x); cbn [bind]; auto.
  - destruct (cell_put s x v); cbn [bind]; auto.
  - destruct (sh_objs s o); cbn [bind]; auto.
  - auto.
Qed.

Lemma rank_mode_eqb_ok a b : rank_mode_eqb a b = true <-> a = b.
Proof. destruct a, b; cbn; split; intros H; try reflexivity; try discriminate. Qed.
Lemma select_mode_eqb_ok a b : select_mode_eqb a b = true <-> a = b.
Proof. destruct a, b; cbn; split; intros H; try reflexivity; try discriminate. Qed.
Lemma inst_eqb_ok a b : inst_eqb a b = true <-> a = b.
Proof.
  destruct a as [n m|n m], b as [n' m'|n' m']; cbn [inst_eqb]; split; intros H; try discriminate.
  - apply andb_prop in H as (H1 & H2). apply Nat.eqb_eq in H1. apply rank_mode_eqb_ok in H2. congruence.
  - inversion H; subst. rewrite Nat.eqb_refl. apply rank_mode_eqb_ok. reflexivity.
  - apply andb_prop in H as (H1 & H2). apply Nat.eqb_eq in H1. apply select_mode_eqb_ok in H2. congruence.
  - inversion H; subst. rewrite Nat.eqb_refl. apply select_mode_eqb_ok. reflexivity.
Qed.
Lemma inst_eqb_refl a : inst_eqb a a = true.
Proof. apply inst_eqb_ok. reflexivity. Qed.
Lemma inst_eqb_neq a b : a <> b -> inst_eqb a b = false.
Proof. intros H. destruct (inst_eqb a b) eqn:E; auto. apply inst_eqb_ok in E. contradiction. Qed.

(** ** Simulation *)
Definition len_ok (i : inst) (st : stat) : Prop := length (st_c st) = inst_words i /\ length (st_s st) = S (inst_words i).

(** [a] only touches the statics [i] and transforms them like [f]. *)
Definition sim {A} (i : inst) (a : act A) (f : stat -> res (A * stat)) : Prop := forall s, len_ok i (sh_stat s i) ->
  match f (sh_stat s i) with
  | Ok (r, st) => exists s', run_act a s = Ok (r, s') /\ sh_stat s' i = st /\ len_ok i st /\
      (forall j, j <> i -> sh_stat s' j = sh_stat s j) /\ sh_objs s' = sh_objs s
  | Ub k => run_act a s = Ub k
  | AssertFail => run_act a s = AssertFail
  end.

Lemma sim_ret {A} i (x : A) : sim i (ret x) (fun st => Ok (x, st)).
Proof. intros s H. exists s. repeat split; auto; apply H. Qed.

Lemma sim_res {A} i (r : res A) : sim i (pure r) (fun st => let* x := r in Ok (x, st)).
Proof. intros s H. destruct r; cbn [bind]; [|reflexivity|reflexivity]. exists s. repeat split; auto; apply H. Qed.

Lemma sim_pure {A B} i (r : res A) (g : A -> act B) h : (forall x, r = Ok x -> sim i (g x) (h x)) ->
  sim i (abind (pure r) g) (fun st => let* x := r in h x st).
Proof.
  intros H s L. unfold pure. destruct r as [x|k|]; cbn [abind bind]; [|reflexivity|reflexivity]. apply H; auto.
Qed.

Lemma sim_upd_c {B} i (a : act unit) F (g : unit -> act B) h :
  sim i a (fun st => let* cs := F (st_c st) in Ok (tt, {| st_c := cs; st_s := st_s st |})) -> sim i (g tt) h ->
  sim i (abind a g) (fun st => let* cs := F (st_c st) in h {| st_c := cs; st_s := st_s st |}).
Proof.
  intros Ha Hg s L. specialize (Ha s L). cbn beta in Ha. cbn beta. destruct (F (st_c (sh_stat s i))) as [cs|k|] in Ha |- *; cbn [bind] in *.
  - destruct Ha as (s1 & E & E1 & L1 & FR1 & O1). specialize (Hg s1). rewrite E1 in Hg. specialize (Hg L1). rewrite run_abind, E. cbn [bind].
    destruct (h {| st_c := cs; st_s := st_s (sh_stat s i) |}) as [[r st]|k|]; auto.
    destruct Hg as (s2 & E2 & E3 & L2 & FR2 & O2). exists s2. split; [exact E2|]. split; [exact E3|]. split; [exact L2|].
    split; [|congruence]. intros j Hj. rewrite FR2, FR1; auto.
  - rewrite run_abind, Ha. reflexivity.
  - rewrite run_abind, Ha. reflexivity.
Qed.

Lemma sim_upd_s {B} i (a : act unit) F (g : unit -> act B) h :
  sim i a (fun st => let* ss := F (st_s st) in Ok (tt, {| st_c := st_c st; st_s := ss |})) -> sim i (g tt) h ->
  sim i (abind a g) (fun st => let* ss := F (st_s st) in h {| st_c := st_c st; st_s := ss |}).
Proof.
  intros Ha Hg s L. specialize (Ha s L). cbn beta in Ha. cbn beta. destruct (F (st_s (sh_stat s i))) as [cs|k|] in Ha |- *; cbn [bind] in *.
  - destruct Ha as (s1 & E & E1 & L1 & FR1 & O1). specialize (Hg s1). rewrite E1 in Hg. specialize (Hg L1). rewrite run_abind, E. cbn [bind].
    destruct (h {| st_c := st_c (sh_stat s i); st_s := cs |}) as [[r st]|k|]; auto.
    destruct Hg as (s2 & E2 & E3 & L2 & FR2 & O2). exists s2. split; [exact E2|]. split; [exact E3|]. split; [exact L2|].
    split; [|congruence]. intros j Hj. rewrite FR2, FR1; auto.
  - rewrite run_abind, Ha. reflexivity.
  - rewrite run_abind, Ha. reflexivity.
Qed.

Lemma sim_get_c {B} i j (g : Z -> act B) h : (forall v, sim i (g v) (h v)) ->
  sim i (abind (get_c i j) g) (fun st => let* v := geti (st_c st) j in h v st).
Proof.
  intros H s L. unfold get_c, ret. cbn [abind run_act]. unfold cell_get. cbn [ce_inst ce_sums ce_idx].
  destruct (geti (st_c (sh_stat s i)) j) as [v|k|]; cbn [bind]; [|reflexivity|reflexivity]. apply H; auto.
Qed.

Lemma sim_get_s {B} i j (g : Z -> act B) h : (forall v, sim i (g v) (h v)) ->
  sim i (abind (get_s i j) g) (fun st => let* v := geti (st_s st) j in h v st).
Proof.
  intros H s L. unfold get_s, ret. cbn [abind run_act]. unfold cell_get. cbn [ce_inst ce_sums ce_idx].
  destruct (geti (st_s (sh_stat s i)) j) as [v|k|]; cbn [bind]; [|reflexivity|reflexivity]. apply H; auto.
Qed.

Lemma seti_length l j v l' : seti l j v = Ok l' -> length l' = length l.
Proof. unfold seti. destruct ((0 <=? j) && (j <? zlen l)); [|discriminate]. intros E. inversion E; subst. apply length_upd_nat. Qed.

Lemma sim_put_c i j v : sim i (put_c i j v) (fun st => let* cs := seti (st_c st) j v in Ok (tt, {| st_c := cs; st_s := st_s st |})).
Proof.
  intros s (L1 & L2). unfold put_c, ret. cbn [run_act]. unfold cell_put. cbn [ce_inst ce_sums ce_idx].
  destruct (seti (st_c (sh_stat s i)) j v) as [l|k|] eqn:E; cbn [bind]; [|reflexivity|reflexivity].
  exists (put_inst s i {| st_c := l; st_s := st_s (sh_stat s i) |}). split; [reflexivity|]. cbn [put_inst sh_stat sh_objs]. rewrite inst_eqb_refl.
  split; [reflexivity|]. split; [split; cbn [st_c st_s]; [|auto]; apply seti_length in E; lia|]. split; auto.
  intros k Hk. rewrite inst_eqb_neq by auto. reflexivity.
Qed.

Lemma sim_put_s i j v : sim i (put_s i j v) (fun st => let* cs := seti (st_s st) j v in Ok (tt, {| st_c := st_c st; st_s := cs |})).
Proof.
  intros s (L1 & L2). unfold put_s, ret. cbn [run_act]. unfold cell_put. cbn [ce_inst ce_sums ce_idx].
  destruct (seti (st_s (sh_stat s i)) j v) as [l|k|] eqn:E; cbn [bind]; [|reflexivity|reflexivity].
  exists (put_inst s i {| st_c := st_c (sh_stat s i); st_s := l |}). split; [reflexivity|]. cbn [put_inst sh_stat sh_objs]. rewrite inst_eqb_refl.
  split; [reflexivity|]. split; [split; cbn [st_c st_s]; [auto|]; apply seti_length in E; lia|]. split; auto.
  intros k Hk. rewrite inst_eqb_neq by auto. reflexivity.
Qed.

Lemma stat_eta st : {| st_c := st_c st; st_s := st_s st |} = st.
Proof. destruct st; reflexivity. Qed.

Lemma sim_ext {A} i (a : act A) f f' : (forall st, f st = f' st) -> sim i a f -> sim i a f'.
Proof. intros H S s L. rewrite <- H. apply S; auto. Qed.

Lemma sim_iter_c {X} i (f : X -> act unit) F l :
  (forall a, sim i (f a) (fun st => let* cs := F (st_c st) a in Ok (tt, {| st_c := cs; st_s := st_s st |}))) ->
  sim i (aiter f l) (fun st => let* cs := foldM F l (st_c st) in Ok (tt, {| st_c := cs; st_s := st_s st |})).
Proof.
  intros H. induction l as [|a l IH]; cbn [aiter foldM].
  - eapply sim_ext; [|apply sim_ret]. intros st. cbn [bind]. rewrite stat_eta. reflexivity.
  - eapply sim_ext; [|apply (sim_upd_c i (f a) (fun cs => F cs a) (fun _ => aiter f l) _ (H a) IH)].
    intros st. cbn beta. cbn [st_c st_s]. destruct (F (st_c st) a); reflexivity.
Qed.

Lemma sim_iter_s {X} i (f : X -> act unit) F l :
  (forall a, sim i (f a) (fun st => let* cs := F (st_s st) a in Ok (tt, {| st_c := st_c st; st_s := cs |}))) ->
  sim i (aiter f l) (fun st => let* cs := foldM F l (st_s st) in Ok (tt, {| st_c := st_c st; st_s := cs |})).
Proof.
  intros H. induction l as [|a l IH]; cbn [aiter foldM].
  - eapply sim_ext; [|apply sim_ret]. intros st. cbn [bind]. rewrite stat_eta. reflexivity.
  - eapply sim_ext; [|apply (sim_upd_s i (f a) (fun cs => F cs a) (fun _ => aiter f l) _ (H a) IH)].
    intros st. cbn beta. cbn [st_c st_s]. destruct (F (st_s st) a); reflexivity.
Qed.

Lemma sim_fill i get n : sim i (fill_counts_act i get n) (fun st => let* cs := fill_counts get n (st_c st) in Ok (tt, {| st_c := cs; st_s := st_s st |})).
Proof.
  unfold fill_counts_act, fill_counts.
  eapply sim_ext; [|eapply (sim_upd_c i (put_c i 0 0) (fun cs => seti cs 0 0)); [apply sim_put_c|]].
  2:{ apply (sim_iter_c i _ (fun counts b => let* p := geti counts (b - 1) in let* v := get (b - 1) in seti counts b (u64 (p + v)))).
      intros b. eapply sim_ext; [|apply (sim_get_c i (b - 1) _ (fun p st => let* v := get (b - 1) in let* cs := seti (st_c st) b (u64 (p + v)) in Ok (tt, {| st_c := cs; st_s := st_s st |})))].
      - intros st. cbn beta. destruct (geti (st_c st) (b - 1)); cbn [bind]; try reflexivity. destruct (get (b - 1)); reflexivity.
      - intros p. apply sim_pure. intros v _. apply sim_put_c. }
  intros st. cbn beta. cbn [st_c st_s]. destruct (seti (st_c st) 0 0); reflexivity.
Qed.

Lemma sim_store_c i v : sim i (store_c_act i v) (fun st => let* cs := store_words (st_c st) 0 v in Ok (tt, {| st_c := cs; st_s := st_s st |})).
Proof.
  unfold store_c_act, store_words. apply sim_iter_c. intros [j y]. cbn beta iota. change (0 + j) with j. apply sim_put_c.
Qed.
Lemma sim_store_s i v : sim i (store_s_act i v) (fun st => let* cs := store_words (st_s st) 1 v in Ok (tt, {| st_c := st_c st; st_s := cs |})).
Proof. unfold store_s_act, store_words. apply sim_iter_s. intros [j y]. cbn beta iota. apply sim_put_s. Qed.

Lemma skipn_nth (l : list Z) : forall lo, (lo < length l)%nat -> skipn lo l = nth lo l 0 :: skipn (S lo) l.
Proof.
  induction l as [|a l IH]; intros [|lo] H; cbn [length] in H; try lia; [reflexivity|].
  change (skipn (S lo) (a :: l)) with (skipn lo l). rewrite IH by lia. reflexivity.
Qed.

Lemma load_c_run i n s : (n <= length (st_c (sh_stat s i)))%nat ->
  run_act (load_c_act i n) s = Ok (firstn n (st_c (sh_stat s i)), s).
Proof.
  unfold load_c_act. set (l := st_c (sh_stat s i)). intros Hn.
  assert (G : forall k lo, (lo + k <= length l)%nat -> run_act (amap (get_c i) (zrange (Z.of_nat lo) k)) s = Ok (firstn k (skipn lo l), s)).
  { induction k as [|k IH]; intros lo H; cbn [zrange amap]; [destruct l; reflexivity|].
    unfold get_c at 1, ret. cbn [abind run_act]. unfold cell_get. cbn [ce_inst ce_sums ce_idx]. fold l.
    rewrite geti_ok by (unfold zlen; lia). cbn [bind]. rewrite run_abind. replace (Z.of_nat lo + 1) with (Z.of_nat (S lo)) by lia.
    rewrite IH by lia. cbn [bind run_act]. unfold zn. rewrite Nat2Z.id.
    rewrite (skipn_nth l lo) by lia. reflexivity. }
  apply (G n 0%nat). lia.
Qed.

Lemma sim_load_c {B} i n (g : list Z -> act B) h : (n <= inst_words i)%nat -> (forall l, sim i (g l) (h l)) ->
  sim i (abind (load_c_act i n) g) (fun st => h (firstn n (st_c st)) st).
Proof.
  intros Hn H s L. specialize (H (firstn n (st_c (sh_stat s i))) s L). destruct L as (L1 & L2).
  rewrite run_abind, load_c_run by lia. cbn [bind]. exact H.
Qed.

(** ** Blocks *)
Lemma sim_rank_generic c n m x i : sim (IRank n m) (rank_generic_act c n m x i) (fun st => rank_generic c n m st x i).
Proof.
  unfold rank_generic_act, rank_generic. apply sim_pure. intros _ _. apply sim_pure. intros rib _. destruct (rm_psm m).
  - apply sim_pure. intros v _. apply sim_ret.
  - apply (sim_upd_c (IRank n m) _ _ _ (fun st => let* r := geti (st_c st) (i / 64) in Ok (u64 (r + rib), {| st_c := st_c st; st_s := st_s st |})) (sim_fill _ _ _)).
    apply sim_get_c. intros r. eapply sim_ext; [|apply sim_ret]. intros st. rewrite stat_eta. reflexivity.
  - apply sim_pure. intros _ _. apply sim_ret.
Qed.

Lemma sim_rank_vec_loop I c n x i : sim I (rank_vec_loop_act c n x i) (fun st => rank_vec_loop c n st x i).
Proof. unfold rank_vec_loop_act, rank_vec_loop. repeat (apply sim_pure; intros ? _). apply sim_ret. Qed.

Lemma sim_rank_vec_unrolled c n m x i : sim (IRank n m) (rank_vec_unrolled_act c n m x i) (fun st => rank_vec_unrolled c n st x i).
Proof.
  unfold rank_vec_unrolled_act, rank_vec_unrolled. apply sim_pure. intros _ _. apply sim_pure. intros rib _. apply sim_pure. intros ws _.
  apply (sim_upd_c (IRank n m) _ _ _ (fun st => let* r := geti (st_c st) (i / 64) in Ok (u64 (r + rib), {| st_c := st_c st; st_s := st_s st |})) (sim_fill _ _ _)).
  apply sim_get_c. intros r. eapply sim_ext; [|apply sim_ret]. intros st. rewrite stat_eta. reflexivity.
Qed.

Lemma sim_rank_vec_parallel c n m psum x i : sim (IRank n m) (rank_vec_parallel_act c n m psum x i) (fun st => rank_vec_parallel c n psum st x i).
Proof.
  unfold rank_vec_parallel_act, rank_vec_parallel. apply sim_pure. intros _ _. apply sim_pure. intros rib _. apply sim_pure. intros ws _.
  apply (sim_upd_s (IRank n m) _ (fun ss => store_words ss 1 (psum (popcount_vec ws))) _
    (fun st => let* r := geti (st_s st) (i / 64) in Ok (u64 (r + rib), {| st_c := st_c st; st_s := st_s st |})) (sim_store_s _ _)).
  apply sim_get_s. intros r. eapply sim_ext; [|apply sim_ret]. intros st. rewrite stat_eta. reflexivity.
Qed.

Lemma sim_rank256_bp c x i : sim (IRank 4 RM_builtin_parallel) (rank_u256_builtin_parallel_act c x i) (fun st => rank_u256_builtin_parallel c st x i).
Proof.
  unfold rank_u256_builtin_parallel_act, rank_u256_builtin_parallel. set (I := IRank 4 RM_builtin_parallel). apply sim_pure. intros _ _.
  apply (sim_upd_c I _ (fun cs => seti cs 0 0) _ (fun st => let* cnts := foldM (fun cnts j => let* w := ldw x (j - 1) in seti cnts j (popcount w)) [1; 2; 3] (st_c st) in
     let* rib := rank_in_block c PC_builtin x i in let* cnts := store_words cnts 0 (prefixsum_m256i (firstn 4 cnts)) in
     let* r := geti cnts (i / 64) in Ok (u64 (r + rib), {| st_c := cnts; st_s := st_s st |})) (sim_put_c _ _ _)).
  apply (sim_upd_c I _ (foldM (fun cnts j => let* w := ldw x (j - 1) in seti cnts j (popcount w)) [1; 2; 3]) _ (fun st => 
     let* rib := rank_in_block c PC_builtin x i in let* cnts := store_words (st_c st) 0 (prefixsum_m256i (firstn 4 (st_c st))) in
     let* r := geti cnts (i / 64) in Ok (u64 (r + rib), {| st_c := cnts; st_s := st_s st |}))).
  { apply sim_iter_c. intros j. eapply sim_ext; [|apply sim_pure; intros w _; apply sim_put_c]. intros st. cbn beta. destruct (ldw x (j - 1)); reflexivity. }
  apply sim_pure. intros rib _.
  apply (sim_load_c I 4 _ (fun l st => let* cnts := store_words (st_c st) 0 (prefixsum_m256i l) in
     let* r := geti cnts (i / 64) in Ok (u64 (r + rib), {| st_c := cnts; st_s := st_s st |}))); [cbn; lia|]. intros l.
  apply (sim_upd_c I _ (fun cs => store_words cs 0 (prefixsum_m256i l)) _
    (fun st => let* r := geti (st_c st) (i / 64) in Ok (u64 (r + rib), {| st_c := st_c st; st_s := st_s st |})) (sim_store_c _ _)).
  apply sim_get_c. intros r. eapply sim_ext; [|apply sim_ret]. intros st. rewrite stat_eta. reflexivity.
Qed.

Lemma sim_rank512_bp c x i : sim (IRank 8 RM_builtin_parallel) (rank_u512_builtin_parallel_act c x i) (fun st => rank_u512_builtin_parallel c st x i).
Proof.
  unfold rank_u512_builtin_parallel_act, rank_u512_builtin_parallel. set (I := IRank 8 RM_builtin_parallel). apply sim_pure. intros _ _.
  apply (sim_upd_c I _ (foldM (fun cnts j => let* w := ldw x j in seti cnts j (popcount w)) [0; 1; 2; 3; 4; 5; 6; 7]) _ (fun st => 
     let* rib := rank_in_block c PC_builtin x i in let* sums := store_words (st_s st) 1 (prefixsum_m512i (firstn 8 (st_c st))) in
     let* r := geti sums (i / 64) in Ok (u64 (r + rib), {| st_c := st_c st; st_s := sums |}))).
  { apply sim_iter_c. intros j. eapply sim_ext; [|apply sim_pure; intros w _; apply sim_put_c]. intros st. cbn beta. destruct (ldw x j); reflexivity. }
  apply sim_pure. intros rib _.
  apply (sim_load_c I 8 _ (fun l st => let* sums := store_words (st_s st) 1 (prefixsum_m512i l) in
     let* r := geti sums (i / 64) in Ok (u64 (r + rib), {| st_c := st_c st; st_s := sums |}))); [cbn; lia|]. intros l.
  apply (sim_upd_s I _ (fun ss => store_words ss 1 (prefixsum_m512i l)) _
    (fun st => let* r := geti (st_s st) (i / 64) in Ok (u64 (r + rib), {| st_c := st_c st; st_s := st_s st |})) (sim_store_s _ _)).
  apply sim_get_s. intros r. eapply sim_ext; [|apply sim_ret]. intros st. rewrite stat_eta. reflexivity.
Qed.

Lemma sim_select_generic I c n m x k : sim I (select_generic_act c n m x k) (fun st => select_generic c n m st x k).
Proof.
  unfold select_generic_act, select_generic. destruct (sl_scm_loop m).
  - eapply sim_ext; [|apply (sim_pure I _ _ (fun '(i, k, cnt) st => let* _ := massert (c_debug c) (k <? cnt) in let* w := ldw x i in let* r := select_u64 c (sl_swm m) w k in Ok (u64 (i * 64 + r), st)))].
    + intros st. cbn beta. destruct (select_loop c (sl_pcm m) x n 0 k 0) as [[[i0 k0] cnt]| |]; reflexivity.
    + intros [[i0 k0] cnt] _. apply sim_pure. intros _ _. apply sim_pure. intros w _. apply sim_pure. intros r _. apply sim_ret.
  - apply sim_pure. intros _ _. apply sim_ret.
Qed.

Lemma sim_select_tail I c msums x k : sim I (select_vec_tail_act c I msums x k) (fun st => select_vec_tail c (st_c st) msums st x k).
Proof.
  unfold select_vec_tail_act, select_vec_tail. apply sim_pure. intros i _.
  apply (sim_upd_s I _ (fun ss => store_words ss 1 msums) _ (fun st => let* w := ldw x i in let* s := geti (st_s st) i in
    let* r := select_u64 c S_pdep w (u64 (k - s)) in Ok (u64 (i * 64 + r), {| st_c := st_c st; st_s := st_s st |})) (sim_store_s _ _)).
  apply sim_pure. intros w _. apply sim_get_s. intros s. apply sim_pure. intros r _.
  eapply sim_ext; [|apply sim_ret]. intros st. rewrite stat_eta. reflexivity.
Qed.

Lemma sim_select_builtin c n m psum x k : sim (ISel n m) (select_vec_builtin_act c n m psum x k) (fun st => select_vec_builtin c n psum st x k).
Proof.
  unfold select_vec_builtin_act, select_vec_builtin.
  apply (sim_upd_c (ISel n m) _ (foldM (fun cnts j => let* w := ldw x j in seti cnts j (popcount w)) (zrange 0 n)) _
    (fun st => select_vec_tail c (st_c st) (psum (firstn n (st_c st))) st x k)).
  { apply sim_iter_c. intros j. eapply sim_ext; [|apply sim_pure; intros w _; apply sim_put_c]. intros st. cbn beta. destruct (ldw x j); reflexivity. }
  apply (sim_load_c (ISel n m) n _ (fun l st => select_vec_tail c (st_c st) (psum l) st x k)); [cbn; lia|]. intros l. apply sim_select_tail.
Qed.

Lemma sim_select_simd c n m psum x k : sim (ISel n m) (select_vec_simd_act c n m psum x k) (fun st => select_vec_simd c n psum st x k).
Proof. unfold select_vec_simd_act, select_vec_simd. apply sim_pure. intros ws _. apply sim_select_tail. Qed.

Definition rank_key (b : btype) : inst := match b with B64 => IRank 1 RM_builtin | B256 rm _ => IRank 4 rm | B512 rm _ => IRank 8 rm end.
Definition select_key (b : btype) : inst := match b with B64 => ISel 1 SM_pdep | B256 _ sm => ISel 4 sm | B512 _ sm => ISel 8 sm end.

Lemma sim_block_rank c b x i d : sim (rank_key b) (block_rank_act c b x i)
  (fun st => let* '(r, s) := block_rank c b {| s_rank := st; s_select := d |} x i in Ok (r, s_rank s)).
Proof.
  destruct b as [|rm sm|rm sm]; cbn [block_rank_act block_rank rank_key s_rank s_select].
  - eapply sim_ext; [|apply sim_res]. intros st. cbn beta. destruct (rank_b64 x i); reflexivity.
  - eapply sim_ext; [intros st; instantiate (1 := fun st => rank_u256 c rm st x i); cbn beta; destruct (rank_u256 c rm st x i) as [[? ?]| |]; reflexivity|].
    destruct rm; cbn [rank_u256_act rank_u256]; solve [apply sim_rank_generic|apply sim_rank_vec_loop|apply sim_rank_vec_unrolled|apply sim_rank256_bp|apply sim_rank_vec_parallel].
  - eapply sim_ext; [intros st; instantiate (1 := fun st => rank_u512 c rm st x i); cbn beta; destruct (rank_u512 c rm st x i) as [[? ?]| |]; reflexivity|].
    destruct rm; cbn [rank_u512_act rank_u512]; solve [apply sim_rank_generic|apply sim_rank_vec_loop|apply sim_rank_vec_unrolled|apply sim_rank512_bp|apply sim_rank_vec_parallel].
Qed.

Lemma sim_block_select c b x k d : sim (select_key b) (block_select_act c b x k)
  (fun st => let* '(r, s) := block_select c b {| s_rank := d; s_select := st |} x k in Ok (r, s_select s)).
Proof.
  destruct b as [|rm sm|rm sm]; cbn [block_select_act block_select select_key s_rank s_select].
  - eapply sim_ext; [|apply sim_pure; intros w _; apply sim_res]. intros st. cbn beta. destruct (ldw x 0); cbn [bind]; try reflexivity. destruct (select_u64 c S_pdep a k); reflexivity.
  - eapply sim_ext; [intros st; instantiate (1 := fun st => select_u256 c sm st x k); cbn beta; destruct (select_u256 c sm st x k) as [[? ?]| |]; reflexivity|].
    destruct sm; cbn [select_u256_act select_u256]; solve [apply sim_select_generic|apply sim_select_builtin|apply sim_select_simd].
  - eapply sim_ext; [intros st; instantiate (1 := fun st => select_u512 c sm st x k); cbn beta; destruct (select_u512 c sm st x k) as [[? ?]| |]; reflexivity|].
    destruct sm; cbn [select_u512_act select_u512]; solve [apply sim_select_generic|apply sim_select_builtin|apply sim_select_simd].
Qed.
