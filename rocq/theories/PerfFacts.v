(** The measured loops of src/perf_mutable_bitmap.cpp and src/perf_prefix_sum.cpp. *)
From Coq Require Import ZifyBool.
From Verif Require Import Base BaseFacts Mem MemFacts Nodes Trees Words Blocks Spec SpecIndex SpecRandom Bitmap Usage Random Drivers
  BlockFacts NodeFacts RootFacts TreeFacts TreeBuild BitmapFacts ProgramFacts PropFacts IndexFacts RandomFacts SpecPerf Perf.
Ltac Zify.zify_post_hook ::= Z.div_mod_to_equations.

(** Loops that add up and carry a state. *)
Lemma u64_add_l a b : u64 (u64 a + b) = u64 (a + b).
Proof. unfold wrap. rewrite Zplus_mod_idemp_l. reflexivity. Qed.

Lemma total_cons x l : total (x :: l) = x + total l.
Proof. reflexivity. Qed.
Lemma total_const {X} (l : list X) c : total (map (fun _ => c) l) = zlen l * c.
Proof. induction l; [reflexivity|]. rewrite zlen_cons. cbn [map]. rewrite total_cons, IHl. lia. Qed.

Lemma acc_inv {S X} (P : S -> Prop) (f : S * Z -> X -> res (S * Z)) g qs :
  (forall s acc q, In q qs -> P s -> exists s', f (s, u64 acc) q = Ok (s', u64 (acc + g q)) /\ P s') ->
  forall s acc, P s -> exists s', foldM f qs (s, u64 acc) = Ok (s', u64 (acc + total (map g qs))) /\ P s'.
Proof.
  induction qs as [|q qs IH]; intros H s acc Hs; cbn [foldM map]; [exists s; split; auto; f_equal; f_equal; f_equal; unfold total; cbn; lia|].
  destruct (H s acc q ltac:(left; reflexivity) Hs) as (s1 & E & H1). rewrite E. cbn [bind].
  destruct (IH ltac:(intros; apply H; auto; right; auto) s1 (acc + g q) H1) as (s' & E' & H'). exists s'. split; auto.
  rewrite E'. do 3 f_equal. rewrite total_cons. lia.
Qed.

Lemma runs_inv {S} (P : S -> Prop) (f : S * Z -> res (S * Z)) G runs :
  (forall s acc, P s -> exists s', f (s, u64 acc) = Ok (s', u64 (acc + G)) /\ P s') ->
  forall s, P s -> exists s', foldM (fun st (_ : unit) => f st) (repeat tt runs) (s, 0) = Ok (s', (Z.of_nat runs * G) mod 2 ^ 64) /\ P s'.
Proof.
  intros H s Hs. destruct (acc_inv P (fun st (_ : unit) => f st) (fun _ => G) (repeat tt runs) ltac:(intros; apply H; auto) s 0 Hs) as (s' & E & H').
  exists s'. split; auto. change (u64 0) with 0 in E. rewrite E, total_const. unfold zlen. rewrite repeat_length. reflexivity.
Qed.

Lemma query_loop_ok qs : forall acc, query_loop qs (u64 acc) = u64 (acc + total qs).
Proof. unfold query_loop. induction qs as [|q qs IH]; intros acc; cbn [fold_left]; [f_equal; unfold total; cbn; lia|]. rewrite u64_add_l, IH, total_cons. f_equal. lia. Qed.
Lemma query_runs qs runs : fold_left (fun total (_ : unit) => query_loop qs total) (repeat tt runs) 0 = (Z.of_nat runs * total qs) mod 2 ^ 64.
Proof.
  assert (H : forall acc, fold_left (fun total (_ : unit) => query_loop qs total) (repeat tt runs) (u64 acc) = u64 (acc + Z.of_nat runs * total qs)).
  { induction runs as [|r IH]; intros acc; cbn [repeat fold_left]; [f_equal; lia|]. rewrite query_loop_ok, IH. f_equal. lia. }
  exact (H 0).
Qed.

(** ** The bitmap *)
Lemma rank_call c ty n b s B q : binv ty n b B -> statics_ok (ty_block ty) s -> 0 <= q < zlen B ->
  exists s', bm_rank c ty s (b_words b) (own_view ty b) q = Ok (rank_spec B q, s') /\ statics_ok (ty_block ty) s'.
Proof. intros (Hw & <- & _) Hs Hq. exact (bm_rank_ok c ty s n (b_words b) (own_view ty b) q Hw Hs Hq). Qed.

Lemma select_call c ty n b s B k : binv ty n b B -> statics_ok (ty_block ty) s -> 0 <= k < count_true B -> select_safe c ty B k ->
  exists p s', bm_select c ty s (b_words b) (own_view ty b) k = Ok (p, s') /\ is_select B k p /\ statics_ok (ty_block ty) s'.
Proof. intros (Hw & <- & _) Hs Hq HS. exact (bm_select_ok c ty s n (b_words b) (own_view ty b) k Hw Hs Hq HS). Qed.

Lemma rank_loop_ok c ty n b B qs : binv ty n b B -> Forall (fun q => 0 <= q < zlen B) qs -> forall s acc, statics_ok (ty_block ty) s ->
  exists s', rank_loop c ty b qs (s, u64 acc) = Ok (s', u64 (acc + total (map (rank_spec B) qs))) /\ statics_ok (ty_block ty) s'.
Proof.
  intros Hb HQ. unfold rank_loop. apply acc_inv. intros s acc q Hq Hs. rewrite Forall_forall in HQ.
  destruct (rank_call c ty n b s B q Hb Hs (HQ q Hq)) as (s' & E & Hs'). exists s'. rewrite E. cbn [bind]. rewrite u64_add_l. auto.
Qed.

Lemma select_loop_ok c ty n b B g qs : binv ty n b B -> Forall (fun q => 0 <= q < count_true B /\ select_safe c ty B q /\ is_select B q (g q)) qs -> forall s acc, statics_ok (ty_block ty) s ->
  exists s', select_loop c ty b qs (s, u64 acc) = Ok (s', u64 (acc + total (map g qs))) /\ statics_ok (ty_block ty) s'.
Proof.
  intros Hb HQ. unfold select_loop. apply acc_inv. intros s acc q Hq Hs. rewrite Forall_forall in HQ. destruct (HQ q Hq) as (H1 & H2 & H3).
  destruct (select_call c ty n b s B q Hb Hs H1 H2) as (p & s' & E & Hp & Hs'). exists s'. rewrite E. cbn [bind]. rewrite u64_add_l, (is_select_unique B q p (g q) Hp H3). auto.
Qed.

Lemma flip_call c ty n b B q : binv ty n b B -> addr_ok c ty (b_addr b) -> 0 <= q < zlen B ->
  exists b', (let* '(ws, m) := bm_flip c ty (b_words b) (own_view ty b) q in Ok {| b_words := ws; b_data := m; b_addr := b_addr b; b_n := b_n b |}) = Ok b' /\
    b_addr b' = b_addr b /\ binv ty n b' (flip_bit B q).
Proof.
  intros Hb Ha Hq. destruct (step_ok c ty n b (statics_init (ty_block ty)) B (Flip q) Hb) as (a & b' & s' & E & _ & Ea & Hb' & _); auto.
  { apply reachable_statics_ok with c. constructor. }
  cbn [step] in E. destruct (bm_flip c ty (b_words b) (own_view ty b) q) as [[ws m]| |]; cbn [bind] in *; try discriminate.
  inversion E; subst. eexists. split; [reflexivity|]. auto.
Qed.

Lemma flip_loop_ok c ty n qs : forall b B, binv ty n b B -> addr_ok c ty (b_addr b) -> Forall (fun q => 0 <= q < zlen B) qs ->
  exists b', flip_loop c ty qs b = Ok b' /\ b_addr b' = b_addr b /\ binv ty n b' (contents_after_all B (map Flip qs)).
Proof.
  unfold flip_loop. induction qs as [|q qs IH]; intros b B Hb Ha HQ; cbn [foldM map contents_after_all]; [exists b; auto|].
  inversion_clear HQ as [|? ? Q1 Q2]. destruct (flip_call c ty n b B q Hb Ha Q1) as (b1 & E & Ea & Hb1). rewrite E. cbn [bind].
  destruct (IH b1 (flip_bit B q) Hb1) as (b' & E' & Ea' & Hb'); [rewrite Ea; exact Ha|rewrite zlen_flip; exact Q2|]. exists b'. rewrite E'. split; auto. split; [congruence|exact Hb'].
Qed.

Lemma rounds_S qs k : flip_rounds qs (S k) = map Flip qs ++ flip_rounds qs k.
Proof. reflexivity. Qed.
Lemma rounds_add qs a b : flip_rounds qs (a + b) = flip_rounds qs a ++ flip_rounds qs b.
Proof. unfold flip_rounds. rewrite repeat_app, concat_app. reflexivity. Qed.

Lemma flip_runs_ok c ty n qs runs : forall b B, binv ty n b B -> addr_ok c ty (b_addr b) -> Forall (fun q => 0 <= q < zlen B) qs ->
  exists b', foldM (fun b (_ : unit) => flip_loop c ty qs b) (repeat tt runs) b = Ok b' /\ b_addr b' = b_addr b /\ binv ty n b' (contents_after_all B (flip_rounds qs runs)).
Proof.
  induction runs as [|r IH]; intros b B Hb Ha HQ; cbn [repeat foldM]; [exists b; auto|].
  destruct (flip_loop_ok c ty n qs b B Hb Ha HQ) as (b1 & E & Ea & Hb1). rewrite E. cbn [bind].
  destruct (IH b1 _ Hb1) as (b' & E' & Ea' & Hb'); [rewrite Ea; exact Ha|rewrite zlen_contents; exact HQ|]. exists b'. split; auto. split; [congruence|].
  rewrite rounds_S, contents_app. exact Hb'.
Qed.

Lemma rank_all B : 1 <= zlen B -> rank_spec B (zlen B - 1) = count_true B.
Proof. intros. unfold rank_spec. replace (zlen B - 1 + 1) with (zlen B) by lia. symmetry. apply count_true_all. Qed.

Lemma binv_len ty n b B : binv ty n b B -> 1 <= zlen B < 2 ^ 64.
Proof.
  intros (Hw & <- & _). pose proof (winv_n _ _ _ _ Hw). pose proof (winv_size _ _ _ _ Hw) as Hz. rewrite zlen_bits, Hz. unfold bsz. destruct (bsz_cases (ty_block ty)) as [E|[E|E]]; rewrite E; lia.
Qed.

Lemma flip_measure_ok c ty n qs runs b s B : binv ty n b B -> addr_ok c ty (b_addr b) -> statics_ok (ty_block ty) s -> Forall (fun q => 0 <= q < zlen B) qs ->
  exists b' s', bitmap_measure c ty BFlip runs qs b s = Ok (b', s', count_true (contents_after_all B (flip_rounds qs runs))) /\
    b_addr b' = b_addr b /\ binv ty n b' (contents_after_all B (flip_rounds qs runs)) /\ statics_ok (ty_block ty) s'.
Proof.
  intros Hb Ha Hs HQ. cbn [bitmap_measure]. destruct (flip_runs_ok c ty n qs runs b B Hb Ha HQ) as (b' & E & Ea & Hb'). rewrite E. cbn [bind].
  pose proof (binv_len _ _ _ _ Hb') as HL. pose proof Hb' as (_ & HB & _). rewrite bm_size_ok, HB, wrap_small by lia.
  destruct (rank_call c ty n b' s _ (zlen (contents_after_all B (flip_rounds qs runs)) - 1) Hb' Hs ltac:(lia)) as (s' & E' & Hs'). rewrite E'. cbn [bind].
  rewrite rank_all by lia. exists b', s'. auto.
Qed.

(** All measures. *)
Lemma measures_const c ty op runs qs b x s : (forall s, statics_ok (ty_block ty) s -> exists s', bitmap_measure c ty op runs qs b s = Ok (b, s', x) /\ statics_ok (ty_block ty) s') ->
  statics_ok (ty_block ty) s -> forall m, bitmap_measures c ty op runs qs m b s = Ok (repeat x m).
Proof.
  intros H Hs m. unfold bitmap_measures.
  assert (L : forall m s outs, statics_ok (ty_block ty) s -> exists s', foldM (fun '(b, s, outs) (_ : unit) => let* '(b, s, x) := bitmap_measure c ty op runs qs b s in Ok (b, s, outs ++ [x])) (repeat tt m) (b, s, outs) = Ok (b, s', outs ++ repeat x m)).
  { clear m s Hs. induction m as [|m IH]; intros s outs Hs; cbn [repeat foldM]; [exists s; rewrite app_nil_r; reflexivity|].
    destruct (H s Hs) as (s1 & E & Hs1). rewrite E. cbn [bind]. destruct (IH s1 (outs ++ [x]) Hs1) as (s' & E'). exists s'. rewrite E', <- app_assoc. reflexivity. }
  destruct (L m s [] Hs) as (s' & E). rewrite E. reflexivity.
Qed.

Lemma flip_measures_ok c ty n qs runs m b s B : binv ty n b B -> addr_ok c ty (b_addr b) -> statics_ok (ty_block ty) s -> Forall (fun q => 0 <= q < zlen B) qs ->
  bitmap_measures c ty BFlip runs qs m b s = Ok (map (fun j => count_true (contents_after_all B (flip_rounds qs (j * runs)))) (seq 1 m)).
Proof.
  intros Hb Ha Hs HQ. unfold bitmap_measures.
  assert (L : forall m k b s outs, binv ty n b (contents_after_all B (flip_rounds qs (k * runs))) -> addr_ok c ty (b_addr b) -> statics_ok (ty_block ty) s ->
    exists st, foldM (fun '(b, s, outs) (_ : unit) => let* '(b, s, x) := bitmap_measure c ty BFlip runs qs b s in Ok (b, s, outs ++ [x])) (repeat tt m) (b, s, outs) =
      Ok (st, outs ++ map (fun j => count_true (contents_after_all B (flip_rounds qs (j * runs)))) (seq (S k) m))).
  { clear m b s Hb Ha Hs. induction m as [|m IH]; intros k b s outs Hb Ha Hs; cbn [repeat foldM seq map]; [exists (b, s); rewrite app_nil_r; reflexivity|].
    destruct (flip_measure_ok c ty n qs runs b s _ Hb Ha Hs ltac:(rewrite zlen_contents; exact HQ)) as (b1 & s1 & E & Ea & Hb1 & Hs1). rewrite E. cbn [bind].
    rewrite <- contents_app, <- rounds_add in *. replace (k * runs + runs)%nat with (S k * runs)%nat in * by lia.
    destruct (IH (S k) b1 s1 (outs ++ [count_true (contents_after_all B (flip_rounds qs (S k * runs)))]) Hb1 ltac:(rewrite Ea; exact Ha) Hs1) as (st & E'). exists st. rewrite E', <- app_assoc. reflexivity. }
  destruct (L m 0%nat b s [] Hb Ha Hs) as (st & E). rewrite E. destruct st. reflexivity.
Qed.

(** An even number of rounds restores the bits. *)
Lemma valid_flips qs : forall B, Forall (fun q => 0 <= q < zlen B) qs -> valid_ops B (map Flip qs).
Proof. induction qs as [|q qs IH]; intros B H; cbn [map valid_ops]; [exact I|]. inversion_clear H. split; auto. cbn [contents_after]. apply IH. rewrite zlen_flip. auto. Qed.
Lemma valid_rounds qs k : forall B, Forall (fun q => 0 <= q < zlen B) qs -> valid_ops B (flip_rounds qs k).
Proof. induction k as [|k IH]; intros B H; [exact I|]. rewrite rounds_S. apply valid_app. split; [apply valid_flips; auto|]. apply IH. rewrite zlen_contents. auto. Qed.

Lemma flips_occ qs i : count_occ Z.eq_dec (flat_map (fun o => match o with Flip j => [j] | _ => [] end) (map Flip qs)) i = count_occ Z.eq_dec qs i.
Proof. f_equal. induction qs as [|q qs IH]; [reflexivity|]. cbn [map flat_map app]. rewrite IH. reflexivity. Qed.
Lemma rounds_occ qs k i : count_occ Z.eq_dec (flat_map (fun o => match o with Flip j => [j] | _ => [] end) (flip_rounds qs k)) i = (k * count_occ Z.eq_dec qs i)%nat.
Proof. induction k as [|k IH]; [reflexivity|]. rewrite rounds_S, flat_map_app, count_occ_app, IH, flips_occ. lia. Qed.

Lemma rounds_even B qs k : Nat.even k = true -> Forall (fun q => 0 <= q < zlen B) qs -> contents_after_all B (flip_rounds qs k) = B.
Proof.
  intros Hk HQ. apply nth_ext with (d := false) (d' := false).
  - pose proof (zlen_contents (flip_rounds qs k) B) as H. unfold zlen in H. lia.
  - intros j Hj. assert (HL := zlen_contents (flip_rounds qs k) B). unfold zlen in HL.
    pose proof (bit_contents (flip_rounds qs k) B (Z.of_nat j) ltac:(unfold zlen; lia) (valid_rounds qs k B HQ)) as E.
    unfold bit, zn in E. rewrite Nat2Z.id in E. rewrite E, rounds_occ, Nat.odd_mul, <- Nat.negb_even, Hk. cbn [negb andb]. apply xorb_false_r.
Qed.

(** The object the benchmark measures. *)
Lemma padded_len bs B : 0 < bs -> zlen B <= zlen (padded bs B).
Proof. intros H. unfold padded. rewrite zlen_app. pose proof (zlen_nonneg (repeat false (Z.to_nat ((- zlen B) mod bs)))). lia. Qed.
Lemma count_repeat_false m : count_true (repeat false m) = 0.
Proof. induction m; cbn [repeat count_true b2z]; lia. Qed.
Lemma count_padded bs B : count_true (padded bs B) = count_true B.
Proof. unfold padded. rewrite count_true_app, count_repeat_false. lia. Qed.
Lemma count_pos B i : 0 <= i < zlen B -> bit B i = true -> 1 <= count_true B.
Proof.
  intros Hi H. rewrite count_true_all. pose proof (ones_before_succ B i Hi) as E. rewrite H in E. cbn [b2z] in E. pose proof (ones_before_bound B i ltac:(lia)). pose proof (ones_before_mono B (i + 1) (zlen B) ltac:(lia) ltac:(lia)). lia.
Qed.

Lemma bench_setup c f bt addr s n t : bench_ok c f bt addr s n t ->
  let B := bench_bits (block_size bt) n t in
  exists ws b nb, create_random_bits (repeat 0 (Z.to_nat ((n + 63) / 64))) t bits_seed = Ok (ws, count_true B) /\
    new_bitmap c (bench_type f bt n) addr ws = Ok b /\ b_addr b = addr /\ binv (bench_type f bt n) nb b B /\ n <= zlen B /\ 1 <= count_true B.
Proof.
  intros (Hsup & Hn & Hst & Ha & Hd). cbv zeta. set (bs := block_size bt) in *. set (w := (n + 63) / 64).
  assert (Hw : 4 <= w /\ 64 * (w - 1) < n <= 64 * w /\ w < 2 ^ 58). { unfold w. unfold bs in Hn. destruct (bsz_cases bt) as [E|[E|E]]; rewrite E in Hn; lia. }
  destruct (create_zeros (Z.to_nat w) t bits_seed) as (ws & r & E & Ww & Lw & Er & i & Hi & Bi); [lia|lia|unfold bits_seed; lia|].
  destruct (create_contents (repeat 0 (Z.to_nat w)) t bits_seed) as (ws' & E' & _ & Eb); [apply Forall_forall; intros x Hx; apply repeat_spec in Hx; subst x; lia|unfold zlen; rewrite repeat_length; lia|unfold bits_seed; lia|].
  rewrite E in E'. inversion E' as [[E1 E2]]. subst ws'. clear E' E2.
  rewrite bits_of_zeros in Eb. unfold zlen in Eb at 1. rewrite repeat_length in Eb.
  assert (EB : bench_bits bs n t = initial (bench_type f bt n) ws).
  { unfold bench_bits, initial. cbn [bench_type ty_block]. fold bs. rewrite Eb. unfold bench_len. fold w. unfold bits_seed. repeat f_equal; lia. }
  rewrite EB in *.
  assert (HB : buildable (bench_type f bt n) ws).
  { split; [exact Hsup|]. split; [exact Ww|]. cbn [bench_type ty_block ty_fam ty_height]. fold bs. split; [lia|].
    assert (Hbs : bs = 64 \/ bs = 256 \/ bs = 512) by apply bsz_cases.
    split; [destruct Hbs as [E1|[E1|E1]]; rewrite E1 in *; lia|].
    rewrite Z2Nat.id; [|unfold tree_height; destruct f; repeat match goal with |- context [if ?b then _ else _] => destruct b end; lia].
    f_equal. rewrite Lw, Z2Nat.id by lia. unfold blocks_of, cdiv. unfold words_in_block. fold bs.
    destruct Hbs as [E1|[E1|E1]]; rewrite E1; [change (64 / 64) with 1|change (256 / 64) with 4|change (512 / 64) with 8]; unfold w; lia. }
  destruct (new_bitmap_ok c (bench_type f bt n) addr ws) as (b & En & Ea & Hb); [split; auto|].
  exists ws, b. eexists. split; [|split; [exact En|split; [exact Ea|split; [exact Hb|]]]].
  - rewrite E. do 2 f_equal. rewrite Er. unfold initial. rewrite count_padded. reflexivity.
  - split.
    + unfold initial. pose proof (padded_len (block_size (ty_block (bench_type f bt n))) (bits_of_words ws)) as P. rewrite zlen_bits in P. cbn [bench_type ty_block] in *. fold bs in P |- *.
      pose proof (bsz_cases bt) as Hbs. fold bs in Hbs. specialize (P ltac:(lia)). lia.
    + unfold initial. rewrite count_padded. apply (count_pos _ i); auto. rewrite zlen_bits. lia.
Qed.

Lemma make_queries_ok k M : M <> 0 -> make_queries k M = Ok (bench_queries k M).
Proof.
  intros HM. unfold make_queries, bench_queries. rewrite calls_draw by (unfold query_seed; lia). replace (M =? 0) with false by lia.
  rewrite (mapM_ok _ (fun z => z mod M)) by auto. rewrite map_map. reflexivity.
Qed.
Lemma queries_below k M N : 0 < M <= N -> Forall (fun q => 0 <= q < N) (bench_queries k M).
Proof.
  intros HM. apply Forall_forall. intros q Hq. apply in_map_iff in Hq. destruct Hq as (i & <- & _). pose proof (Z.mod_pos_bound (draw 71 i) M ltac:(lia)). lia.
Qed.

Lemma bench_run c f bt addr s n t op k runs m : bench_ok c f bt addr s n t ->
  let B := bench_bits (block_size bt) n t in
  exists b nb, b_addr b = addr /\ binv (bench_type f bt n) nb b B /\ addr_ok c (bench_type f bt n) (b_addr b) /\ statics_ok bt s /\ n <= zlen B /\ 1 <= count_true B /\
    bitmap_bench c f bt addr s n t op k runs m =
      bitmap_measures c (bench_type f bt n) op runs (bench_queries k (match op with BSelect => count_true B | _ => n end)) m b s.
Proof.
  intros HB. pose proof HB as (_ & Hn & Hst & Ha & _). destruct (bench_setup c f bt addr s n t HB) as (ws & b & nb & E & En & Ea & Hb & HL & HC). cbv zeta.
  exists b, nb. split; auto. split; auto. split; [rewrite Ea; exact Ha|]. split; [apply reachable_statics_ok with c; auto|]. split; auto. split; auto.
  unfold bitmap_bench. rewrite E. cbn [bind]. rewrite En. cbn [bind]. rewrite make_queries_ok by (destruct op; lia). reflexivity.
Qed.

Lemma bench_rank c f bt addr s n t k runs m : bench_ok c f bt addr s n t ->
  bitmap_bench c f bt addr s n t BRank k runs m =
    Ok (repeat ((Z.of_nat runs * total (map (rank_spec (bench_bits (block_size bt) n t)) (bench_queries k n))) mod 2 ^ 64) m).
Proof.
  intros HB. destruct (bench_run c f bt addr s n t BRank k runs m HB) as (b & nb & _ & Hb & _ & Hs & HL & HC & E). rewrite E. pose proof HB as (_ & Hn & _).
  apply measures_const; [|exact Hs]. intros s0 Hs0. cbn [bitmap_measure].
  destruct (runs_inv (statics_ok bt) (rank_loop c (bench_type f bt n) b (bench_queries k n)) (total (map (rank_spec (bench_bits (block_size bt) n t)) (bench_queries k n))) runs) with (s := s0) as (s' & E' & Hs'); auto.
  - intros s1 acc Hs1. apply (rank_loop_ok c (bench_type f bt n) nb b); auto. apply queries_below. lia.
  - rewrite E'. cbn [bind]. exists s'. auto.
Qed.

Lemma bench_select c f bt addr s n t k runs m : bench_ok c f bt addr s n t ->
  let B := bench_bits (block_size bt) n t in
  Forall (select_safe c (bench_type f bt n) B) (bench_queries k (count_true B)) ->
  exists ps, Forall2 (is_select B) (bench_queries k (count_true B)) ps /\
    bitmap_bench c f bt addr s n t BSelect k runs m = Ok (repeat ((Z.of_nat runs * total ps) mod 2 ^ 64) m).
Proof.
  intros HB B HS. destruct (bench_run c f bt addr s n t BSelect k runs m HB) as (b & nb & _ & Hb & _ & Hs & HL & HC & E). rewrite E. fold B in E, Hb, HL, HC |- *.
  assert (exists g, Forall (fun q => 0 <= q < count_true B /\ select_safe c (bench_type f bt n) B q /\ is_select B q (g q)) (bench_queries k (count_true B))) as (g & Hg).
  { exists (fun q => match bm_select c (bench_type f bt n) s (b_words b) (own_view (bench_type f bt n) b) q with Ok (p, _) => p | _ => 0 end).
    apply Forall_forall. intros q Hq. rewrite Forall_forall in HS. specialize (HS q Hq). pose proof (queries_below k (count_true B) (count_true B) ltac:(lia)) as QB. rewrite Forall_forall in QB. specialize (QB q Hq).
    split; [exact QB|]. split; [exact HS|]. destruct (select_call c (bench_type f bt n) nb b s B q Hb Hs QB HS) as (p & s' & E1 & Hp & _). rewrite E1. exact Hp. }
  exists (map g (bench_queries k (count_true B))). split.
  - clear - Hg. induction Hg as [|q qs (_ & _ & H) _ IH]; constructor; auto.
  - apply measures_const; [|exact Hs]. intros s0 Hs0. cbn [bitmap_measure].
    destruct (runs_inv (statics_ok bt) (select_loop c (bench_type f bt n) b (bench_queries k (count_true B))) (total (map g (bench_queries k (count_true B)))) runs) with (s := s0) as (s' & E' & Hs'); auto.
    + intros s1 acc Hs1. apply (select_loop_ok c (bench_type f bt n) nb b B); auto.
    + rewrite E'. cbn [bind]. exists s'. auto.
Qed.

Lemma bench_flip c f bt addr s n t k runs m : bench_ok c f bt addr s n t ->
  bitmap_bench c f bt addr s n t BFlip k runs m =
    Ok (map (fun j => count_true (contents_after_all (bench_bits (block_size bt) n t) (flip_rounds (bench_queries k n) (j * runs)))) (seq 1 m)).
Proof.
  intros HB. destruct (bench_run c f bt addr s n t BFlip k runs m HB) as (b & nb & _ & Hb & Ha & Hs & HL & HC & E). rewrite E. pose proof HB as (_ & Hn & _).
  apply (flip_measures_ok c (bench_type f bt n) nb); auto. apply queries_below. lia.
Qed.

Lemma bench_flip_even c f bt addr s n t k runs m : bench_ok c f bt addr s n t -> Nat.even runs = true ->
  bitmap_bench c f bt addr s n t BFlip k runs m = Ok (repeat (count_true (bench_bits (block_size bt) n t)) m).
Proof.
  intros HB HR. rewrite bench_flip by auto. f_equal. destruct (bench_run c f bt addr s n t BFlip k runs m HB) as (b & nb & _ & _ & _ & _ & HL & _). pose proof HB as (_ & Hn & _).
  assert (H : forall l, map (fun j => count_true (contents_after_all (bench_bits (block_size bt) n t) (flip_rounds (bench_queries k n) (j * runs)))) l = repeat (count_true (bench_bits (block_size bt) n t)) (length l)).
  { induction l as [|j l IH]; [reflexivity|]. cbn [map length repeat]. rewrite IH, rounds_even; [reflexivity|rewrite Nat.even_mul, HR; apply orb_true_r|apply queries_below; lia]. }
  rewrite H, seq_length. reflexivity.
Qed.

Lemma bench_build c f bt addr s n t k runs m : bench_ok c f bt addr s n t ->
  bitmap_bench c f bt addr s n t BBuild k runs m = Ok (repeat ((Z.of_nat runs * total (bench_queries k n)) mod 2 ^ 64) m).
Proof.
  intros HB. destruct (bench_run c f bt addr s n t BBuild k runs m HB) as (b & nb & _ & Hb & _ & Hs & _ & _ & E). rewrite E.
  apply measures_const; [|exact Hs]. intros s0 Hs0. cbn [bitmap_measure]. rewrite query_runs. eauto.
Qed.

(** Every size of the benchmark, for the types it offers (blocks of 256 and 512
    bits). *)
Lemma max_ones_any bs B : 0 <= bs -> max_ones bs B bs.
Proof.
  intros Hbs b Hb HL. pose proof (Z.mul_nonneg_nonneg bs b Hbs Hb). rewrite !ones_before_sum by lia.
  rewrite (sumf_split _ 0 (bs * b) (bs * (b + 1))) by lia.
  pose proof (sumf_bound (fun t => b2z (bit B t)) 1 (bs * b) (bs * (b + 1)) ltac:(lia) ltac:(intros; apply b2z_01)). lia.
Qed.
Lemma max_ones_le bs B mx mx' : mx <= mx' -> max_ones bs B mx -> max_ones bs B mx'.
Proof. intros H M b Hb HL. specialize (M b Hb HL). lia. Qed.

Lemma bench_sizes c f bt addr s i t : 0 <= i <= 23 -> supported bt = true -> bt <> B64 -> reachable_statics c bt s ->
  index_addr_ok c (bench_type f bt (2 ^ (9 + i))) addr ->
  (c_debug c = true -> f = F5 -> block_size bt = 512 -> max_ones 512 (bench_bits 512 (2 ^ (9 + i)) t) 256) ->
  bench_ok c f bt addr s (2 ^ (9 + i)) t.
Proof.
  intros Hi Hs Hb Hst Ha Hd. assert (2 ^ 9 <= 2 ^ (9 + i) <= 2 ^ 32) by (split; apply Z.pow_le_mono_r; lia).
  assert (E : block_size bt = 256 \/ block_size bt = 512) by (destruct bt; cbn; auto; congruence).
  split; [exact Hs|]. split; [destruct E as [E|E]; rewrite E; lia|]. split; [exact Hst|]. split; [exact Ha|].
  intros D. cbn [bench_type ty_block ty_fam]. destruct E as [E|E].
  - apply max_ones_le with (block_size bt); [destruct f; lia|apply max_ones_any; lia].
  - destruct f; [apply max_ones_le with (block_size bt); [lia|apply max_ones_any; lia]|]. rewrite E. apply Hd; auto.
Qed.

(** ** The segment trees *)
Definition tstate (f : fam) (H : nat) (addr : Z) (m : list Z) (A : list Z) : Prop :=
  exists F, tinv f H 256 (zlen A) (tree_view H addr (zlen A) m) F /\ (forall t, 0 <= t -> F t = zn 0 A t) /\ Z.of_nat H * 4 <= zlen m.

Lemma tree_ready c f addr input : 1 <= zlen input <= 2 ^ 24 -> counters_in 256 input ->
  exists m, tree_build c f (Z.to_nat (tree_height f (zlen input))) input [] = Ok m /\ tstate f (Z.to_nat (tree_height f (zlen input))) addr m input.
Proof.
  intros Hn HC. set (H := Z.to_nat (tree_height f (zlen input))).
  assert (HH : Z.of_nat H = tree_height f (zlen input)). { unfold H. rewrite Z2Nat.id; [reflexivity|]. unfold tree_height. destruct f; repeat match goal with |- context [if ?b then _ else _] => destruct b end; lia. }
  destruct (tree_build_ok c f H input [] 256 addr) as (m & E & T & L & _); auto; try lia.
  - intros i Hi. exact (counters_zn 256 input ltac:(lia) HC i).
  - intros _. destruct f; cbn; lia.
  - exists m. split; [exact E|]. exists (zn 0 input). split; [exact T|]. split; [reflexivity|].
    destruct (header_room f H (zlen input) ltac:(lia)) as [|B]; [lia|]. exfalso.
    pose proof (height_cases f H _ Hn HH) as C. destruct f, H as [|[|[|[|[|H]]]]]; try contradiction; lia.
Qed.

Lemma tstate_pos f H addr m A : tstate f H addr m A -> 1 <= zlen A.
Proof. intros (F & T & _). apply T. Qed.

Lemma tstate_counters f H addr m A : tstate f H addr m A -> counters_in 256 A.
Proof.
  intros (F & T & HF & _). apply Forall_forall. intros x Hx. destruct (In_nth A x 0 Hx) as (i & Hi & E).
  destruct T as (_ & _ & _ & TA & _). specialize (TA (Z.of_nat i)). rewrite HF in TA by lia. unfold zn in TA. rewrite Nat2Z.id, E in TA. lia.
Qed.

Lemma tstate_step c f H addr m A o : tstate f H addr m A -> align_ok c f (addr + Z.of_nat H * 4) -> iop_valid A o -> counters_in 256 (counters_after A o) ->
  (match o with ISearch x => search_safe c f H A x | _ => True end) ->
  exists a m', tree_step c f H addr (zlen A) m o = Ok (a, m') /\ ianswer_ok A o a /\ tstate f H addr m' (counters_after A o).
Proof.
  intros (F & T & HF & HR) AL V C S. destruct (tree_step_ok c f H addr 256 (zlen A) m F A o T HF eq_refl HR AL V C S) as (a & m' & F' & E & HA & T' & HF' & L).
  exists a, m'. split; [exact E|]. split; [exact HA|]. exists F'. rewrite zlen_counters. split; [exact T'|]. split; [exact HF'|lia].
Qed.

Lemma psum_diff mx A i j : 0 <= mx -> counters_in mx A -> 0 <= i <= j -> 0 <= psum A j - psum A i <= mx * (j - i).
Proof.
  intros Hm HC Hij. assert (E : forall k, 0 <= k -> psum A k = sumf (zn 0 A) 0 k).
  { intros k Hk. destruct (Z.le_gt_cases k (zlen A)); [apply psum_sumf; lia|]. rewrite (sumf_split _ 0 (zlen A) k) by (pose proof (zlen_nonneg A); lia).
    rewrite (sumf_const0 _ (zlen A) k) by (intros; apply zn_out; lia). rewrite <- psum_sumf by (pose proof (zlen_nonneg A); lia). unfold psum. rewrite !firstn_all2 by (unfold zlen in *; lia). lia. }
  rewrite !E by lia. rewrite (sumf_split _ 0 i j) by lia. pose proof (sumf_bound (zn 0 A) mx i j ltac:(lia) ltac:(intros; apply counters_zn; auto)). lia.
Qed.

Lemma search_safe_256 c f H A x : zlen A <= 2 ^ 24 -> counters_in 256 A -> 0 <= x < psum A (zlen A) -> search_safe c f H A x.
Proof.
  intros Hn HC Hx _ _ _ [(s & Hs & D & _)|D].
  - pose proof (psum_diff 256 A ((8 * s - 1) * 2 ^ 19) ((8 * s + 7) * 2 ^ 19) ltac:(lia) HC ltac:(lia)). lia.
  - pose proof (psum_diff 256 A 0 (23 * 2 ^ 19) ltac:(lia) HC ltac:(lia)) as D0. change (psum A 0) with 0 in D0.
    destruct (Z.le_gt_cases (23 * 2 ^ 19) (zlen A)).
    + pose proof (psum_diff 256 A (23 * 2 ^ 19) (zlen A) ltac:(lia) HC ltac:(lia)). lia.
    + pose proof (psum_diff 256 A (zlen A) (23 * 2 ^ 19) ltac:(lia) HC ltac:(pose proof (zlen_nonneg A); lia)). lia.
Qed.

Lemma acc_pure {X} (f : Z -> X -> res Z) g qs : (forall acc q, In q qs -> f (u64 acc) q = Ok (u64 (acc + g q))) ->
  forall acc, foldM f qs (u64 acc) = Ok (u64 (acc + total (map g qs))).
Proof.
  induction qs as [|q qs IH]; intros H acc; cbn [foldM map]; [do 2 f_equal; unfold total; cbn; lia|].
  rewrite H by (left; reflexivity). cbn [bind]. rewrite IH by (intros; apply H; right; auto). rewrite total_cons. do 2 f_equal. lia.
Qed.
Lemma runs_pure (f : Z -> res Z) G runs : (forall acc, f (u64 acc) = Ok (u64 (acc + G))) ->
  foldM (fun acc (_ : unit) => f acc) (repeat tt runs) 0 = Ok ((Z.of_nat runs * G) mod 2 ^ 64).
Proof.
  intros H. pose proof (acc_pure (fun acc (_ : unit) => f acc) (fun _ => G) (repeat tt runs) ltac:(intros; apply H) 0) as E.
  change (u64 0) with 0 in E. rewrite E, total_const. unfold zlen. rewrite repeat_length. reflexivity.
Qed.

Lemma sum_call c f H addr m A q : tstate f H addr m A -> 0 <= q < zlen A -> tree_sum c f H (tree_view H addr (zlen A) m) q = Ok (psum A (q + 1)).
Proof.
  intros (F & T & HF & _) Hq. rewrite (tree_sum_ok c f H 256 (zlen A) _ F) by auto. f_equal. rewrite psum_sumf by lia. apply sumf_ext. intros; apply HF; lia.
Qed.

Lemma measure_const c f H addr n op runs qs m x : tree_measure c f H addr n op runs qs m = Ok (m, x) -> forall k,
  (let* '(_, outs) := foldM (fun '(m, outs) (_ : unit) => let* '(m, x) := tree_measure c f H addr n op runs qs m in Ok (m, outs ++ [x])) (repeat tt k) (m, []) in Ok outs) = Ok (repeat x k).
Proof.
  intros E k. assert (L : forall k outs, foldM (fun '(m, outs) (_ : unit) => let* '(m, x) := tree_measure c f H addr n op runs qs m in Ok (m, outs ++ [x])) (repeat tt k) (m, outs) = Ok (m, outs ++ repeat x k)).
  { clear k. induction k as [|k IH]; intros outs; cbn [repeat foldM]; [rewrite app_nil_r; reflexivity|]. rewrite E. cbn [bind]. rewrite IH, <- app_assoc. reflexivity. }
  rewrite L. reflexivity.
Qed.

Lemma tbench_sum c f addr A qs runs k : 1 <= zlen A <= 2 ^ 24 -> counters_in 256 A -> Forall (fun q => 0 <= q < zlen A) qs ->
  tree_bench c f addr A qs TSum runs k = Ok (repeat ((Z.of_nat runs * total (map (fun q => psum A (q + 1)) qs)) mod 2 ^ 64) k).
Proof.
  intros Hn HC HQ. unfold tree_bench. destruct (tree_ready c f addr A Hn HC) as (m & E & T). rewrite E. cbn [bind]. apply measure_const. cbn [tree_measure].
  rewrite (runs_pure _ (total (map (fun q => psum A (q + 1)) qs))); [reflexivity|]. intros acc. unfold sum_loop. apply acc_pure. intros a q Hq.
  rewrite Forall_forall in HQ. rewrite (sum_call c f _ addr m A q T (HQ q Hq)). cbn [bind]. rewrite u64_add_l. reflexivity.
Qed.

Lemma bench_align c f addr n : bench_addr_ok c f addr n -> align_ok c f (addr + Z.of_nat (Z.to_nat (tree_height f n)) * 4).
Proof.
  intros H. rewrite Z2Nat.id; [exact H|]. unfold tree_height. destruct f; repeat match goal with |- context [if ?b then _ else _] => destruct b end; lia.
Qed.

Lemma tbench_search c f addr A qs runs k : 1 <= zlen A <= 2 ^ 24 -> counters_in 256 A -> Forall (fun q => 0 <= q < psum A (zlen A)) qs ->
  exists ps, Forall2 (fun q i => is_search A q (i, psum A i)) qs ps /\
    tree_bench c f addr A qs TSearch runs k = Ok (repeat ((Z.of_nat runs * total ps) mod 2 ^ 64) k).
Proof.
  intros Hn HC HQ. unfold tree_bench. destruct (tree_ready c f addr A Hn HC) as (m & E & T). rewrite E. cbn [bind]. set (H := Z.to_nat (tree_height f (zlen A))) in *.
  assert (SC : forall q, 0 <= q < psum A (zlen A) -> exists i s, tree_search c f H (tree_view H addr (zlen A) m) q = Ok (i, s) /\ is_search A q (i, s)).
  { intros q Hq. pose proof T as (F & TI & HF & _).
    assert (SF : forall i, 0 <= i <= zlen A -> sumf F 0 i = psum A i). { intros i Hi. rewrite psum_sumf by auto. apply sumf_ext. intros; apply HF; lia. }
    assert (SF' : forall i, 0 <= i -> sumf F 0 i = psum A i).
    { intros i Hi. destruct (Z.le_gt_cases i (zlen A)); [apply SF; lia|]. rewrite (sumf_split F 0 (zlen A) i), SF by lia.
      rewrite (sumf_const0 F (zlen A)) by (intros; apply TI; lia). unfold psum. rewrite !firstn_all2 by (unfold zlen in *; lia). lia. }
    destruct (tree_search_ok c f H 256 (zlen A) (tree_view H addr (zlen A) m) F q TI) as (i & Es & Hi & Hs).
    + rewrite SF by lia. exact Hq.
    + intros E1 E2 E3 RF. apply (search_safe_256 c f H A q ltac:(lia) HC Hq E1 E2 E3). unfold root_fails, child_sum, search_lost in *. change (2 ^ 19) with 524288.
      destruct RF as [(s & Hs & RF)|RF]; [left; exists s; split; auto|right]; rewrite !SF' in RF by lia; exact RF.
    + eexists _, _. split; [exact Es|]. cbn. rewrite !SF in * by lia. auto. }
  set (g := fun q => match tree_search c f H (tree_view H addr (zlen A) m) q with Ok (i, _) => i | _ => 0 end).
  assert (Hg : forall q, 0 <= q < psum A (zlen A) -> exists s, tree_search c f H (tree_view H addr (zlen A) m) q = Ok (g q, s) /\ is_search A q (g q, s)).
  { intros q Hq. destruct (SC q Hq) as (i & s & Es & Hi). exists s. unfold g. rewrite Es. auto. }
  exists (map g qs). split.
  - clear - HQ Hg. induction HQ as [|q qs Hq _ IH]; constructor; auto. destruct (Hg q Hq) as (s & _ & I). pose proof I as (_ & -> & _). exact I.
  - apply measure_const. cbn [tree_measure]. rewrite (runs_pure _ (total (map g qs))); [reflexivity|]. intros acc. unfold search_loop. apply acc_pure. intros a q Hq.
    rewrite Forall_forall in HQ. destruct (Hg q (HQ q Hq)) as (s & Es & _). rewrite Es. cbn [bind]. rewrite u64_add_l. reflexivity.
Qed.

Lemma tbench_build c f addr A qs runs k : 1 <= zlen A <= 2 ^ 24 -> counters_in 256 A ->
  tree_bench c f addr A qs TBuild runs k = Ok (repeat ((Z.of_nat runs * total qs) mod 2 ^ 64) k).
Proof.
  intros Hn HC. unfold tree_bench. destruct (tree_ready c f addr A Hn HC) as (m & E & T). rewrite E. cbn [bind]. apply measure_const. cbn [tree_measure]. rewrite query_runs. reflexivity.
Qed.

(** Updates: every one of them is a decrement. *)
Definition decs (qs : list Z) : list iop := map (fun q => IUpdate q true) qs.

Lemma always_minus q : to_bool (deltas (Z.land q 1)) = true.
Proof. unfold deltas. destruct (Z.land q 1 =? 0); reflexivity. Qed.

Lemma update_loop_ok c f H addr n qs : align_ok c f (addr + Z.of_nat H * 4) -> forall m A, n = zlen A -> tstate f H addr m A -> iops_valid (counters_in 256) A (decs qs) ->
  exists m', update_loop c f H addr n qs m = Ok m' /\ tstate f H addr m' (counters_after_all A (decs qs)).
Proof.
  intros AL. unfold update_loop. induction qs as [|q qs IH]; intros m A En T V; cbn [foldM decs map counters_after_all]; [exists m; auto|].
  cbn [decs map iops_valid] in V. destruct V as (V1 & V2 & V3). rewrite always_minus.
  destruct (tstate_step c f H addr m A (IUpdate q true) T AL V1 V2 I) as (a & m1 & E & _ & T1). cbn [tree_step] in E. rewrite En.
  destruct (tree_update c f H (tree_view H addr (zlen A) m) q true) as [m2| |]; cbn [bind] in *; inversion E; subst a m2.
  destruct (IH m1 (counters_after A (IUpdate q true))) as (m' & E' & T'); [rewrite zlen_counters; exact En|exact T1|exact V3|]. subst n. exists m'. split; [exact E'|exact T'].
Qed.

Lemma iops_valid_app P l1 : forall A l2, iops_valid P A (l1 ++ l2) <-> iops_valid P A l1 /\ iops_valid P (counters_after_all A l1) l2.
Proof. induction l1 as [|o l1 IH]; intros A l2; cbn [app iops_valid counters_after_all]; [tauto|]. rewrite IH. tauto. Qed.
Lemma counters_app l1 : forall A l2, counters_after_all A (l1 ++ l2) = counters_after_all (counters_after_all A l1) l2.
Proof. induction l1 as [|o l1 IH]; intros; [reflexivity|]. cbn [app counters_after_all]. apply IH. Qed.
Lemma zlen_counters_all l : forall A, zlen (counters_after_all A l) = zlen A.
Proof. induction l as [|o l IH]; intros A; [reflexivity|]. cbn [counters_after_all]. rewrite IH. apply zlen_counters. Qed.

Lemma update_runs_ok c f H addr n qs runs : align_ok c f (addr + Z.of_nat H * 4) -> forall m A, n = zlen A -> tstate f H addr m A -> iops_valid (counters_in 256) A (decrement_rounds qs runs) ->
  exists m', foldM (fun m (_ : unit) => update_loop c f H addr n qs m) (repeat tt runs) m = Ok m' /\ tstate f H addr m' (counters_after_all A (decrement_rounds qs runs)).
Proof.
  intros AL. induction runs as [|r IH]; intros m A En T V; cbn [repeat foldM]; [exists m; auto|].
  change (decrement_rounds qs (S r)) with (decs qs ++ decrement_rounds qs r) in *. apply iops_valid_app in V. destruct V as (V1 & V2).
  destruct (update_loop_ok c f H addr n qs AL m A En T V1) as (m1 & E & T1). rewrite E. cbn [bind]. rewrite counters_app.
  apply IH; [rewrite zlen_counters_all; exact En|exact T1|exact V2].
Qed.

Lemma psum_dec A q : 0 <= q < zlen A -> psum (counters_after A (IUpdate q true)) (zlen A) = psum A (zlen A) - 1.
Proof.
  intros Hq. rewrite !psum_sumf by (rewrite ?zlen_counters; lia). rewrite (sumf_ext _ (fadd (zn 0 A) q (-1))).
  - rewrite sumf_fadd by lia. replace (0 <=? q) with true by lia. replace (q <? zlen A) with true by lia. cbn [andb]. lia.
  - intros j Hj. apply zn_counters; lia.
Qed.
Lemma psum_decs P qs : forall A, iops_valid P A (decs qs) -> psum (counters_after_all A (decs qs)) (zlen A) = psum A (zlen A) - zlen qs.
Proof.
  induction qs as [|q qs IH]; intros A V; cbn [decs map counters_after_all] in *; [unfold zlen; cbn; lia|]. cbn [iops_valid] in V. destruct V as (V1 & _ & V3).
  specialize (IH _ V3). rewrite zlen_counters in IH. unfold decs in IH. rewrite IH, psum_dec by exact V1. rewrite zlen_cons. lia.
Qed.

Lemma rounds_decs qs k : decrement_rounds qs k = decs (concat (repeat qs k)).
Proof. unfold decrement_rounds, decs. rewrite concat_map. f_equal. induction k; cbn [repeat map]; congruence. Qed.
Lemma zlen_rounds {A} (qs : list A) k : zlen (concat (repeat qs k)) = Z.of_nat k * zlen qs.
Proof. induction k as [|k IH]; [reflexivity|]. cbn [repeat concat]. rewrite zlen_app, IH. lia. Qed.

(** Which decrements are possible. *)
Lemma occ_cons q qs p : occurrences (q :: qs) p = (if p =? q then 1 else 0) + occurrences qs p.
Proof. unfold occurrences. cbn [count_occ]. destruct (Z.eq_dec q p), (Z.eqb_spec p q); try congruence; lia. Qed.
Lemma occ_nonneg qs p : 0 <= occurrences qs p.
Proof. unfold occurrences. lia. Qed.

Lemma decs_valid mx qs : forall A, counters_in mx A -> Forall (fun q => 0 <= q < zlen A) qs -> (forall q, 0 <= q < zlen A -> occurrences qs q <= zn 0 A q) ->
  iops_valid (counters_in mx) A (decs qs).
Proof.
  induction qs as [|q qs IH]; intros A HC HQ HO; cbn [decs map iops_valid]; [exact I|]. inversion_clear HQ as [|? ? Q1 Q2].
  assert (HC' : counters_in mx (counters_after A (IUpdate q true))).
  { apply Forall_forall. intros x Hx. destruct (In_nth _ x 0 Hx) as (j & Hj & E). assert (HL := zlen_counters A (IUpdate q true)). unfold zlen in HL.
    pose proof (zn_counters A q true (Z.of_nat j) Q1 ltac:(lia)) as Z1. change (sdelta true) with (-1) in Z1. unfold zn in Z1 at 1. rewrite Nat2Z.id, E in Z1. rewrite Z1. unfold fadd.
    assert (Hz : 0 <= zn 0 A (Z.of_nat j) <= mx). { unfold counters_in in HC. rewrite Forall_forall in HC. apply HC. unfold zn. rewrite Nat2Z.id. apply nth_In. lia. }
    destruct (Z.eqb_spec (Z.of_nat j) q) as [Ej|]; [|lia]. specialize (HO q Q1). rewrite occ_cons, Z.eqb_refl in HO. pose proof (occ_nonneg qs q). rewrite Ej in Hz |- *. lia. }
  split; [exact Q1|]. split; [exact HC'|]. apply IH; [exact HC'|rewrite zlen_counters; exact Q2|].
  intros p Hp. rewrite zlen_counters in Hp. rewrite zn_counters by lia. change (sdelta true) with (-1). unfold fadd. specialize (HO p Hp). rewrite occ_cons in HO. destruct (p =? q); lia.
Qed.

Lemma decs_needed mx qs : forall A p, 0 <= p < zlen A -> counters_in mx A -> iops_valid (counters_in mx) A (decs qs) -> occurrences qs p <= zn 0 A p.
Proof.
  induction qs as [|q qs IH]; intros A p Hp HC V; [unfold occurrences; cbn; unfold counters_in in HC; rewrite Forall_forall in HC; unfold zn; apply HC, nth_In; unfold zlen in Hp; lia|].
  cbn [decs map iops_valid] in V. destruct V as (V1 & V2 & V3). specialize (IH _ p ltac:(rewrite zlen_counters; exact Hp) V2 V3). rewrite zn_counters in IH by (cbn [iop_valid] in V1; lia). change (sdelta true) with (-1) in IH. unfold fadd in IH. rewrite occ_cons. destruct (p =? q); lia.
Qed.

Lemma occ_rounds qs k p : occurrences (concat (repeat qs k)) p = Z.of_nat k * occurrences qs p.
Proof. induction k as [|k IH]; [reflexivity|]. cbn [repeat concat]. unfold occurrences in *. rewrite count_occ_app, Nat2Z.inj_add, IH. lia. Qed.

Lemma tbench_update c f addr A qs runs k : 1 <= zlen A <= 2 ^ 24 -> counters_in 256 A -> bench_addr_ok c f addr (zlen A) -> Forall (fun q => 0 <= q < zlen A) qs ->
  (forall q, 0 <= q < zlen A -> Z.of_nat (k * runs) * occurrences qs q <= zn 0 A q) ->
  tree_bench c f addr A qs TUpdate runs k = Ok (map (fun j => psum A (zlen A) - j * Z.of_nat runs * zlen qs) (zrange 1 k)).
Proof.
  intros Hn HC HA HQ HO. unfold tree_bench. destruct (tree_ready c f addr A Hn HC) as (m & E & T). rewrite E. cbn [bind]. apply bench_align in HA. set (H := Z.to_nat (tree_height f (zlen A))) in *.
  assert (V : iops_valid (counters_in 256) A (decrement_rounds qs (k * runs))).
  { rewrite rounds_decs. apply decs_valid; auto; [|intros q Hq; rewrite occ_rounds; apply HO; auto]. clear - HQ. induction (k * runs)%nat as [|j IH]; [constructor|]. cbn [repeat concat]. apply Forall_app. auto. }
  clear HO HC HQ E. set (n := zlen A) in *. assert (En : n = zlen A) by reflexivity. clearbody n H.
  assert (L : forall k m A outs j, n = zlen A -> tstate f H addr m A -> iops_valid (counters_in 256) A (decrement_rounds qs (k * runs)) ->
    exists m', foldM (fun '(m, outs) (_ : unit) => let* '(m, x) := tree_measure c f H addr n TUpdate runs qs m in Ok (m, outs ++ [x])) (repeat tt k) (m, outs) =
      Ok (m', outs ++ map (fun i => psum A n - (i - j) * Z.of_nat runs * zlen qs) (zrange (j + 1) k))).
  { clear k m A T V En. induction k as [|k IH]; intros m A outs j En T V; cbn [repeat foldM zrange map]; [exists m; rewrite app_nil_r; reflexivity|].
    replace (S k * runs)%nat with (runs + k * runs)%nat in V by lia. unfold decrement_rounds in V. rewrite repeat_app, concat_app in V. apply iops_valid_app in V. destruct V as (V1 & V2).
    fold (decrement_rounds qs runs) in V1, V2. fold (decrement_rounds qs (k * runs)) in V2.
    destruct (update_runs_ok c f H addr n qs runs HA m A En T V1) as (m1 & E1 & T1).
    assert (EN1 : n = zlen (counters_after_all A (decrement_rounds qs runs))) by (rewrite zlen_counters_all; exact En).
    assert (P1 : psum (counters_after_all A (decrement_rounds qs runs)) n = psum A n - Z.of_nat runs * zlen qs).
    { rewrite rounds_decs in *. rewrite En. rewrite (psum_decs (counters_in 256)) by exact V1. rewrite zlen_rounds. lia. }
    assert (EM : tree_measure c f H addr n TUpdate runs qs m = Ok (m1, psum A n - Z.of_nat runs * zlen qs)).
    { cbn [tree_measure]. rewrite E1. cbn [bind]. rewrite EN1 at 1. rewrite (sum_call c f H addr m1 _ (n - 1) T1) by (pose proof (tstate_pos f H addr m A T); lia). cbn [bind].
      replace (n - 1 + 1) with n by lia. rewrite P1. reflexivity. }
    rewrite EM. cbn [bind]. destruct (IH m1 (counters_after_all A (decrement_rounds qs runs)) (outs ++ [psum A n - Z.of_nat runs * zlen qs]) (j + 1) EN1 T1 V2) as (m' & E').
    exists m'. rewrite E', <- app_assoc. do 3 f_equal. cbn [app]. f_equal; [lia|]. apply map_ext. intros i. rewrite P1. lia. }
  destruct (L k m A [] 0 En T V) as (m' & E'). rewrite E'. cbn [bind app]. f_equal. apply map_ext. intros i. lia.
Qed.

Lemma tbench_leaves mx A qs k : 0 <= mx < Z.of_nat k -> counters_in mx A -> qs <> [] -> ~ iops_valid (counters_in mx) A (decrement_rounds qs k).
Proof.
  intros Hm HC HQ V. destruct qs as [|q qs]; [congruence|]. rewrite rounds_decs in V.
  assert (Hq : 0 <= q < zlen A). { destruct k; [lia|]. cbn [repeat concat app decs map iops_valid] in V. apply V. }
  pose proof (decs_needed mx _ A q Hq HC V) as D. rewrite occ_rounds, occ_cons, Z.eqb_refl in D. pose proof (occ_nonneg qs q).
  assert (zn 0 A q <= mx). { unfold counters_in in HC. rewrite Forall_forall in HC. apply HC. unfold zn. apply nth_In. unfold zlen in Hq. lia. }
  assert (Z.of_nat k * 1 <= Z.of_nat k * (1 + occurrences qs q)) by (apply Z.mul_le_mono_nonneg_l; lia). lia.
Qed.
