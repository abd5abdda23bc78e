(** The drivers src/perf_compressed_bitmap.cpp and src/perf_immutable_bitmap.cpp. *)
From Coq Require Import ZifyBool.
From Verif Require Import Base BaseFacts Mem Nodes Trees Words Blocks Bitmap Random Drivers Spec SpecIndex SpecRandom SpecPerf SpecPoppy SpecText SpecOrder
  TreeBuild BitmapFacts ProgramFacts RandomFacts Perf PerfFacts Poppy PoppyFacts PoppyProps MrRank MrRankFacts MrRankProps MrSelect MrSelectProps PerfBase OrderFacts.
Ltac Zify.zify_post_hook ::= Z.div_mod_to_equations.

(** ** The input *)
Lemma base_setup n t : 193 <= n < 2 ^ 58 ->
  let B := bench_bits 64 n t in
  exists ws, create_random_bits (repeat 0 (Z.to_nat ((n + 63) / 64))) t bits_seed = Ok (ws, count_true B) /\ words_ok ws /\
    zlen ws = (n + 63) / 64 /\ bits_of_words ws = B /\ zlen B = bench_len n /\ 1 <= count_true B.
Proof.
  intros Hn. cbv zeta. set (w := (n + 63) / 64). assert (Hw : 4 <= w < 2 ^ 52 + 1) by (unfold w; lia).
  destruct (create_zeros (Z.to_nat w) t bits_seed) as (ws & r & E & Ww & Lw & Er & i & Hi & Bi); [lia|lia|unfold bits_seed; lia|].
  destruct (create_contents (repeat 0 (Z.to_nat w)) t bits_seed) as (ws' & E' & _ & Eb); [apply Forall_forall; intros x Hx; apply repeat_spec in Hx; subst x; lia|unfold zlen; rewrite repeat_length; lia|unfold bits_seed; lia|].
  rewrite E in E'. inversion E' as [[E1 E2]]. subst ws'. clear E' E2.
  rewrite bits_of_zeros in Eb. unfold zlen in Eb at 1. rewrite repeat_length in Eb. rewrite Z2Nat.id in * by lia.
  assert (EB : bench_bits 64 n t = bits_of_words ws).
  { unfold bench_bits, padded. unfold bench_len. fold w. assert (X : bits_of_words ws = random_bits (repeat false (Z.to_nat (64 * w))) (drawn 13 t (64 * w))) by (rewrite Eb; f_equal; f_equal; lia).
    rewrite <- X. rewrite zlen_bits, Lw. replace ((- (64 * w)) mod 64) with 0 by lia. cbn. apply app_nil_r. }
  exists ws. rewrite EB. split; [rewrite E, Er; reflexivity|]. split; [exact Ww|]. split; [exact Lw|]. split; [reflexivity|]. rewrite zlen_bits, Lw. split; [reflexivity|].
  apply (count_pos _ i); [rewrite zlen_bits; lia|exact Bi].
Qed.

(** ** The loops *)
Lemma query_loop_sum (query g : Z -> _) qs : (forall q, In q qs -> query q = Ok (g q)) -> forall acc, foldM (fun total q => let* r := query q in Ok (u64 (total + r))) qs (u64 acc) = Ok (u64 (acc + total (map g qs))).
Proof.
  induction qs as [|q qs IH]; intros H acc; cbn [foldM map]; [do 2 f_equal; unfold total; cbn; lia|]. rewrite H by (left; reflexivity). cbn [bind]. rewrite u64_add_l, IH by (intros; apply H; right; auto).
  rewrite total_cons. do 2 f_equal. lia.
Qed.
Lemma query_total_ok (query g : Z -> _) runs qs : (forall q, In q qs -> query q = Ok (g q)) -> query_total query runs qs = Ok ((Z.of_nat runs * total (map g qs)) mod 2 ^ 64).
Proof.
  intros H. unfold query_total.
  assert (L : forall acc, foldM (fun total (_ : unit) => foldM (fun total q => let* r := query q in Ok (u64 (total + r))) qs total) (repeat tt runs) (u64 acc) = Ok (u64 (acc + Z.of_nat runs * total (map g qs)))).
  { induction runs as [|r IH]; intros acc; cbn [repeat foldM]; [do 2 f_equal; lia|]. rewrite (query_loop_sum query g qs H). cbn [bind]. rewrite IH. do 2 f_equal. lia. }
  exact (L 0).
Qed.
Lemma query_loop_bad (query : Z -> res Z) u qs q0 : In q0 qs -> query q0 = Ub u -> (forall q, In q qs -> (exists r, query q = Ok r) \/ query q = Ub u) -> forall acc,
  foldM (fun total q => let* r := query q in Ok (u64 (total + r))) qs acc = Ub u.
Proof.
  induction qs as [|q qs IH]; intros H0 E H acc; cbn [foldM]; [destruct H0|]. destruct (H q ltac:(left; reflexivity)) as [(r & Er)|Er]; rewrite Er; cbn [bind]; [|reflexivity].
  destruct H0 as [->|H0]; [congruence|]. apply IH; auto. intros; apply H; right; auto.
Qed.
Lemma query_total_bad (query : Z -> res Z) u runs qs q0 : (1 <= runs)%nat -> In q0 qs -> query q0 = Ub u -> (forall q, In q qs -> (exists r, query q = Ok r) \/ query q = Ub u) ->
  query_total query runs qs = Ub u.
Proof. intros Hr H0 E H. destruct runs as [|runs]; [lia|]. unfold query_total. cbn [repeat foldM]. rewrite (query_loop_bad query u qs q0 H0 E H). reflexivity. Qed.
Lemma query_total_zero (query : Z -> res Z) qs : query_total query 0 qs = Ok 0.
Proof. reflexivity. Qed.

Lemma mapM_const {X B} (f : X -> res B) b l : (forall a, f a = Ok b) -> mapM f l = Ok (repeat b (length l)).
Proof. intros H. induction l as [|a l IH]; cbn [mapM repeat length]; [reflexivity|]. rewrite H. cbn [bind]. rewrite IH. reflexivity. Qed.
Lemma mapM_units {B} (f : unit -> res B) b m : f tt = Ok b -> mapM f (repeat tt m) = Ok (repeat b m).
Proof. intros H. rewrite (mapM_const f b) by (intros []; exact H). rewrite repeat_length. reflexivity. Qed.
Lemma mapM_bad {B} (f : unit -> res B) u m : (1 <= m)%nat -> f tt = Ub u -> mapM f (repeat tt m) = Ub u.
Proof. intros Hm H. destruct m; [lia|]. cbn [repeat mapM]. rewrite H. reflexivity. Qed.

(** Everything before the measures. *)
Lemma bench_start {A} dbg (build : list Z -> res A) rank select n t op k runs m : 193 <= n < 2 ^ 58 ->
  let B := bench_bits 64 n t in
  let M := match op with BSelect => count_true B | _ => n end in
  exists ws, words_ok ws /\ zlen ws = (n + 63) / 64 /\ bits_of_words ws = B /\ zlen B = bench_len n /\ 1 <= count_true B /\ 0 < M /\
    base_bench dbg build rank select n t op k runs m =
      let* a := build ws in mapM (fun _ => base_measure dbg (rank a) (select a) op runs (bench_queries k M)) (repeat tt m).
Proof.
  intros Hn. cbv zeta. destruct (base_setup n t Hn) as (ws & E & W & L & EB & LB & C). cbv zeta in *. set (B := bench_bits 64 n t) in *.
  assert (HM : 0 < match op with BSelect => count_true B | _ => n end) by (destruct op; lia).
  exists ws. do 6 (split; auto). unfold base_bench. rewrite E. cbn [bind]. destruct (build ws) as [a| |]; cbn [bind]; try reflexivity.
  rewrite make_queries_ok by lia. reflexivity.
Qed.

Lemma bench_ok {A} dbg (build : list Z -> res A) rank select n t op k runs m x : 193 <= n < 2 ^ 58 ->
  (forall ws, words_ok ws -> zlen ws = (n + 63) / 64 -> bits_of_words ws = bench_bits 64 n t -> zlen (bench_bits 64 n t) = bench_len n -> 1 <= count_true (bench_bits 64 n t) ->
    exists a, build ws = Ok a /\ base_measure dbg (rank a) (select a) op runs (bench_queries k (match op with BSelect => count_true (bench_bits 64 n t) | _ => n end)) = Ok x) ->
  base_bench dbg build rank select n t op k runs m = Ok (repeat x m).
Proof.
  intros Hn H. destruct (bench_start dbg build rank select n t op k runs m Hn) as (ws & W & L & EB & LB & C & HM & E). cbv zeta in *. rewrite E.
  destruct (H ws W L EB LB C) as (a & Ea & X). rewrite Ea. cbn [bind]. apply mapM_units. exact X.
Qed.

(** Facts about the text. *)
Lemma text_facts n t ws : 193 <= n < 2 ^ 58 -> zlen ws = (n + 63) / 64 -> bits_of_words ws = bench_bits 64 n t ->
  text_bits (bytes_of_words ws) = reversed 8 (bench_bits 64 n t) /\ text_ok (bytes_of_words ws) /\ zlen (bytes_of_words ws) < 2 ^ 58 /\
  n <= 512 * text_blocks (bytes_of_words ws) /\ text_blocks (bytes_of_words ws) = (bench_len n + 511) / 512 /\ 1 <= text_blocks (bytes_of_words ws) /\ count_true (reversed 8 (bench_bits 64 n t)) = count_true (bench_bits 64 n t).
Proof.
  intros Hn L EB. rewrite text_reversed, EB. split; [reflexivity|]. split; [apply text_bytes_ok|]. unfold text_blocks, bench_len. rewrite zlen_text, L. split; [lia|]. split; [lia|]. split; [lia|]. split; [lia|].
  apply count_reversed; [lia|]. rewrite <- EB, zlen_bits. lia.
Qed.
Lemma queries_in k M q : 0 < M -> In q (bench_queries k M) -> 0 <= q < M.
Proof. intros HM Hq. pose proof (queries_below k M M ltac:(lia)) as F. rewrite Forall_forall in F. auto. Qed.

(** What a run prints if the structure answers [answer]. *)
Lemma bench_answers {A} dbg (build : list Z -> res A) f answer n t op k runs m : 193 <= n < 2 ^ 58 ->
  (forall ws, words_ok ws -> zlen ws = (n + 63) / 64 -> bits_of_words ws = bench_bits 64 n t -> zlen (bench_bits 64 n t) = bench_len n -> 1 <= count_true (bench_bits 64 n t) ->
    exists a, build ws = Ok a /\ forall q, 0 <= q < (match op with BSelect => count_true (bench_bits 64 n t) | _ => n end) -> op = BRank \/ op = BSelect -> f a q = Ok (answer q)) ->
  base_bench dbg build f f n t op k runs m = printed dbg answer op n (count_true (bench_bits 64 n t)) k runs m.
Proof.
  intros Hn H. destruct (bench_start dbg build f f n t op k runs m Hn) as (ws & W & L & EB & LB & C & HM & E). cbv zeta in *. rewrite E. clear E.
  destruct (H ws W L EB LB C) as (a & Ea & X). rewrite Ea. cbn [bind].
  destruct op; cbn [printed base_measure].
  - apply mapM_units. apply query_total_ok. intros q Hq. apply X; auto. apply queries_in in Hq; auto.
  - apply mapM_units. apply query_total_ok. intros q Hq. apply X; auto. apply queries_in in Hq; auto.
  - destruct dbg; [destruct m; reflexivity|]. apply mapM_units. reflexivity.
  - apply mapM_units. rewrite query_runs. reflexivity.
  - destruct dbg; [destruct m; reflexivity|]. apply mapM_units. reflexivity.
Qed.

(** ** Rank structures of include/mranisz *)
Lemma count_le B : count_true B <= zlen B.
Proof. rewrite count_true_all. pose proof (zlen_nonneg B). pose proof (ones_before_bound B (zlen B) ltac:(lia)). lia. Qed.
Lemma query_bound n t op q : zlen (bench_bits 64 n t) = bench_len n -> 193 <= n -> 0 <= q < (match op with BSelect => count_true (bench_bits 64 n t) | _ => n end) -> 0 <= q < bench_len n.
Proof. intros LB Hn H. pose proof (count_le (bench_bits 64 n t)). unfold bench_len in *. destruct op; lia. Qed.

Lemma bench_basic_rank m dbg n t op k runs measures : addresses_ok m -> 193 <= n < 2 ^ 58 ->
  let B := bench_bits 64 n t in
  bench_basic m dbg n t op k runs measures = printed dbg (ones_before (reversed 8 B)) op n (count_true B) k runs measures.
Proof.
  intros A Hn. cbv zeta. apply bench_answers; [exact Hn|]. intros ws W L EB LB C. destruct (text_facts n t ws Hn L EB) as (T1 & T2 & T3 & T4 & T5 & T6 & T7).
  destruct (basic_rank m _ A T2 T3) as (r & E & R). rewrite T1, T5 in R. exists r. split; [exact E|]. intros q Hq _. apply query_bound in Hq; [|exact LB|lia]. apply R. lia.
Qed.
Lemma bench_bch_rank jf m dbg n t op k runs measures : addresses_ok m -> 193 <= n < 2 ^ 58 ->
  let B := bench_bits 64 n t in
  bench_bch jf m dbg n t op k runs measures = printed dbg (ones_before (reversed 8 B)) op n (count_true B) k runs measures.
Proof.
  intros A Hn. cbv zeta. apply bench_answers; [exact Hn|]. intros ws W L EB LB C. destruct (text_facts n t ws Hn L EB) as (T1 & T2 & T3 & T4 & T5 & T6 & T7).
  destruct (bch_rank jf m _ A T2 T3) as (r & E & R). rewrite T1, T5 in R. exists r. split; [exact E|]. intros q Hq _. apply query_bound in Hq; [|exact LB|lia]. apply R. lia.
Qed.

Lemma all_equal n t ws : 193 <= n < 2 ^ 58 -> zlen ws = (n + 63) / 64 -> bits_of_words ws = bench_bits 64 n t -> zlen (bench_bits 64 n t) = bench_len n ->
  (forall b, 0 <= b < text_blocks (bytes_of_words ws) -> uniform_block (bytes_of_words ws) b) <-> (forall b, 0 <= b < (bench_len n + 511) / 512 -> equal_block (bench_bits 64 n t) b).
Proof.
  intros Hn L EB LB. destruct (text_facts n t ws Hn L EB) as (T1 & T2 & T3 & T4 & T5 & T6 & T7). rewrite T5. unfold uniform_block. rewrite T1.
  assert (HM : zlen (bench_bits 64 n t) mod 8 = 0) by (rewrite LB; unfold bench_len; lia).
  split; intros H b Hb; specialize (H b Hb); apply (block_reversed (bench_bits 64 n t) b ltac:(lia) HM) in H || apply (block_reversed (bench_bits 64 n t) b ltac:(lia) HM); exact H.
Qed.
Lemma bench_cf_rank m dbg n t op k runs measures : addresses_ok m -> 193 <= n < 2 ^ 58 ->
  let B := bench_bits 64 n t in
  ~ (forall b, 0 <= b < (bench_len n + 511) / 512 -> equal_block B b) ->
  bench_cf m dbg n t op k runs measures = printed dbg (ones_before (reversed 8 B)) op n (count_true B) k runs measures.
Proof.
  intros A Hn. cbv zeta. intros N. apply bench_answers; [exact Hn|]. intros ws W L EB LB C. rewrite <- (all_equal n t ws Hn L EB LB) in N. destruct (text_facts n t ws Hn L EB) as (T1 & T2 & T3 & T4 & T5 & T6 & T7).
  destruct (cf_rank m _ A T2 T3) as (r & E & R); [tauto|]. rewrite T1, T5 in R. exists r. split; [exact E|]. intros q Hq _. apply query_bound in Hq; [|exact LB|lia]. apply R. lia.
Qed.
Lemma bench_cf_bad m dbg n t op k runs measures : addresses_ok m -> 193 <= n < 2 ^ 58 ->
  (forall b, 0 <= b < (bench_len n + 511) / 512 -> equal_block (bench_bits 64 n t) b) ->
  bench_cf m dbg n t op k runs measures = Ub UB_bounds.
Proof.
  intros A Hn N. unfold bench_cf. destruct (bench_start dbg (fun ws => build_cf m (bytes_of_words ws)) rank_of_cf rank_of_cf n t op k runs measures Hn) as (ws & W & L & EB & LB & C & HM & E). cbv zeta in *. rewrite E.
  rewrite <- (all_equal n t ws Hn L EB LB) in N. destruct (text_facts n t ws Hn L EB) as (T1 & T2 & T3 & T4 & T5 & T6 & T7). rewrite (cf_uniform m _ A T2 T3 T6 N). reflexivity.
Qed.

(** ** SelectBasic64 *)
Lemma bench_select_std L T m dbg n t op k runs measures : 1 <= L -> T < 2 ^ 32 -> arguments_ok false L T = true -> addresses_ok m -> 193 <= n < 2 ^ 58 ->
  let B := bench_bits 64 n t in
  op <> BRank -> overflows L T (128 - (- m_addr_b m) mod 128) (reversed 8 B) = false ->
  bench_sel L T m dbg n t op k runs measures = printed dbg (fun q => if q =? 0 then 2 ^ 64 - 1 else sel_answer L (reversed 8 B) q) op n (count_true B) k runs measures.
Proof.
  intros HL HT HA A Hn. cbv zeta. intros HR HO. apply bench_answers; [exact Hn|]. set (B := bench_bits 64 n t) in *. intros ws W LW EB LB C. destruct (text_facts n t ws Hn LW EB) as (T1 & T2 & T3 & T4 & T5 & T6 & T7). fold B in T1, T7.
  destruct (std_select L T m (bytes_of_words ws)) as (r & E & R0 & R); try rewrite T1; auto; [lia|]. rewrite T1, T7 in R. exists r. split; [exact E|]. intros q Hq [H|H]; [congruence|]. subst op.
  destruct (q =? 0) eqn:Q; [replace q with 0 by lia; exact R0|]. apply R. lia.
Qed.
Lemma bench_select_bch L T m dbg n t op k runs measures : 1 <= L -> arguments_ok true L T = true -> addresses_ok m -> 193 <= n < 2 ^ 58 ->
  let B := bench_bits 64 n t in
  op <> BRank -> SpecText.groups L (reversed 8 B) < 2 ^ 31 - 1 -> overflows L T (128 - (- m_addr_b m) mod 128) (reversed 8 B) = false ->
  bench_sel_bch L T m dbg n t op k runs measures = printed dbg (fun q => if q =? 0 then 2 ^ 64 - 1 else sel_answer L (reversed 8 B) q) op n (count_true B) k runs measures.
Proof.
  intros HL HA A Hn. cbv zeta. intros HR HG HO. apply bench_answers; [exact Hn|]. set (B := bench_bits 64 n t) in *. intros ws W LW EB LB C. destruct (text_facts n t ws Hn LW EB) as (T1 & T2 & T3 & T4 & T5 & T6 & T7). fold B in T1, T7.
  destruct (bch_select L T m (bytes_of_words ws)) as (r & E & R0 & R); try rewrite T1; auto; [lia|]. rewrite T1, T7 in R. exists r. split; [exact E|]. intros q Hq [H|H]; [congruence|]. subst op.
  destruct (q =? 0) eqn:Q; [replace q with 0 by lia; exact R0|]. apply R. lia.
Qed.
Lemma bench_select_bad L T m dbg n t op k runs measures : 1 <= L -> T < 2 ^ 32 -> arguments_ok false L T = true -> addresses_ok m -> 193 <= n < 2 ^ 58 ->
  let B := bench_bits 64 n t in
  overflows L T (128 - (- m_addr_b m) mod 128) (reversed 8 B) = true -> bench_sel L T m dbg n t op k runs measures = Ub UB_bounds.
Proof.
  intros HL HT HA A Hn B HO. unfold bench_sel. destruct (bench_start dbg (fun ws => build_sel L T m (bytes_of_words ws)) (select_std L T) (select_std L T) n t op k runs measures Hn) as (ws & W & LW & EB & LB & C & HM & E). cbv zeta in *. rewrite E.
  destruct (text_facts n t ws Hn LW EB) as (T1 & T2 & T3 & T4 & T5 & T6 & T7). fold B in T1, T7. rewrite (std_overflow L T m) by (rewrite ?T1; auto; fold B in C; lia). reflexivity.
Qed.

Lemma bench_select_bch_bad L T m dbg n t op k runs measures : 1 <= L -> arguments_ok true L T = true -> addresses_ok m -> 193 <= n < 2 ^ 58 ->
  let B := bench_bits 64 n t in
  SpecText.groups L (reversed 8 B) < 2 ^ 31 - 1 -> overflows L T (128 - (- m_addr_b m) mod 128) (reversed 8 B) = true -> bench_sel_bch L T m dbg n t op k runs measures = Ub UB_bounds.
Proof.
  intros HL HA A Hn B HG HO. unfold bench_sel_bch. destruct (bench_start dbg (fun ws => build_sel_bch L T m (bytes_of_words ws)) (select_bch L T) (select_bch L T) n t op k runs measures Hn) as (ws & W & LW & EB & LB & C & HM & E). cbv zeta in *. rewrite E.
  destruct (text_facts n t ws Hn LW EB) as (T1 & T2 & T3 & T4 & T5 & T6 & T7). fold B in T1, T7. rewrite (bch_overflow L T m) by (rewrite ?T1; auto; fold B in C; lia). reflexivity.
Qed.

(** ** Poppy *)
Lemma poppy_ready n t ws : 2048 <= n <= 2 ^ 32 -> n mod 2048 = 0 -> words_ok ws -> zlen ws = (n + 63) / 64 -> bits_of_words ws = bench_bits 64 n t -> zlen (bench_bits 64 n t) = bench_len n ->
  count_true (bench_bits 64 n t) + 8191 < 2 ^ 32 ->
  64 * zlen ws = n /\ rank_bits (64 * zlen ws) = n /\ covered_ones ws = count_true (bench_bits 64 n t) /\ poppy_size_ok ws /\ zlen ws mod 32 = 0.
Proof.
  intros Hn HM W L EB LB HC. assert (E : 64 * zlen ws = n) by lia. assert (R : rank_bits (64 * zlen ws) = n) by (unfold rank_bits; lia).
  assert (CO : covered_ones ws = count_true (bench_bits 64 n t)).
  { unfold covered_ones. rewrite R. rewrite msb_reversed, EB. rewrite <- (count_reversed 64) by (try lia; rewrite LB; unfold bench_len; lia). rewrite count_true_all, zlen_reversed, LB. f_equal. unfold bench_len. lia. }
  do 3 (split; [auto|]). split; [|lia]. split; [exact W|]. rewrite CO, E. split; lia.
Qed.

Lemma bench_poppy_rank junk dbg n t k runs measures : 2048 <= n <= 2 ^ 32 -> n mod 2048 = 0 ->
  let B := bench_bits 64 n t in let qs := bench_queries k n in
  count_true B + 8191 < 2 ^ 32 ->
  bench_poppy junk dbg n t BRank k runs measures =
    if (runs =? 0)%nat || (measures =? 0)%nat || negb (existsb (Z.eqb (n - 1)) qs)
    then Ok (repeat ((Z.of_nat runs * total (map (rank_spec (reversed 64 B)) qs)) mod 2 ^ 64) measures)
    else Ub UB_bounds.
Proof.
  intros Hn HM. cbv zeta. intros HC. unfold bench_poppy. destruct (bench_start dbg (wrapper_build junk) (wrapper_rank dbg) (wrapper_select dbg) n t BRank k runs measures ltac:(lia)) as (ws & W & L & EB & LB & C & HM' & E). cbv zeta in *. rewrite E. clear E.
  destruct (poppy_ready n t ws Hn HM W L EB LB HC) as (P1 & P2 & P3 & P4 & P5). destruct (build_multiple junk ws P4 P5) as (a & Ea). rewrite Ea. cbn [bind base_measure].
  assert (R : forall q, In q (bench_queries k n) -> 0 <= q < n /\ wrapper_rank dbg a q = if q =? n - 1 then Ub UB_bounds else Ok (rank_spec (reversed 64 (bench_bits 64 n t)) q)).
  { intros q Hq. apply queries_in in Hq; [|lia]. split; [exact Hq|]. rewrite (rank_wrapper junk dbg ws a q P4 Ea) by lia. rewrite P2, msb_reversed, EB. destruct (q =? n - 1) eqn:E1, (q + 1 <? n) eqn:E2; try lia; reflexivity. }
  destruct (existsb (Z.eqb (n - 1)) (bench_queries k n)) eqn:X.
  - apply existsb_exists in X. destruct X as (q0 & H0 & E0). destruct runs as [|runs]; [cbn [Nat.eqb orb]; rewrite query_total_zero; apply mapM_units; reflexivity|].
    destruct measures as [|measures]; [reflexivity|]. cbn [Nat.eqb orb negb]. apply mapM_bad; [lia|]. apply (query_total_bad _ _ _ _ q0); [lia|exact H0| |].
    + destruct (R q0 H0) as (_ & ->). replace (q0 =? n - 1) with true by lia. reflexivity.
    + intros q Hq. destruct (R q Hq) as (_ & ->). destruct (q =? n - 1); eauto.
  - rewrite orb_true_r. apply mapM_units. apply query_total_ok. intros q Hq. destruct (R q Hq) as (_ & ->). destruct (q =? n - 1) eqn:Q; [|reflexivity]. exfalso.
    assert (Y : existsb (Z.eqb (n - 1)) (bench_queries k n) = true) by (apply existsb_exists; exists q; split; [exact Hq|lia]). congruence.
Qed.

(** A full word, by its value and by its bits. *)
Lemma full_word ws p : words_ok ws -> 0 <= p < 64 * zlen ws -> (zn 0 ws (p / 64) =? 2 ^ 64 - 1) && (p mod 64 =? 63) = true <-> ends_full_word (bits_of_words ws) p.
Proof.
  intros W Hp. rewrite andb_true_iff, !Z.eqb_eq. unfold ends_full_word. split.
  - intros [E M]. split; [exact M|]. intros i Hi. rewrite bit_words by lia. replace (i / 64) with (p / 64) by lia. rewrite E. change (2 ^ 64 - 1) with (Z.ones 64). apply Z.ones_spec_low. lia.
  - intros [M H]. split; [|exact M]. assert (Wp : 0 <= zn 0 ws (p / 64) < 2 ^ 64).
    { unfold words_ok in W. rewrite Forall_forall in W. apply W. unfold zn. apply nth_In. unfold zlen in Hp. lia. }
    change (2 ^ 64 - 1) with (Z.ones 64). apply Z.bits_inj'. intros j Hj. destruct (Z_lt_ge_dec j 64) as [J|J].
    + rewrite Z.ones_spec_low by lia. specialize (H (p - 63 + j) ltac:(lia)). rewrite bit_words in H by lia. replace ((p - 63 + j) / 64) with (p / 64) in H by lia. replace ((p - 63 + j) mod 64) with j in H by lia. exact H.
    + rewrite Z.ones_spec_high by lia. destruct (Z.eq_dec (zn 0 ws (p / 64)) 0) as [->|NZ]; [apply Z.bits_0|]. apply Z.bits_above_log2; [lia|]. apply Z.log2_lt_pow2; [lia|]. pose proof (Z.pow_le_mono_r 2 64 j ltac:(lia) ltac:(lia)). lia.
Qed.

Lemma next_of_word ws k p q : next_in_word ws k p q -> next_one (bits_of_words ws) k q.
Proof. intros (H1 & H2). exists p. auto. Qed.

Lemma poppy_select_query junk dbg n t ws a q : 2048 <= n <= 2 ^ 32 -> n mod 2048 = 0 -> words_ok ws -> zlen ws = (n + 63) / 64 -> bits_of_words ws = bench_bits 64 n t -> zlen (bench_bits 64 n t) = bench_len n ->
  count_true (bench_bits 64 n t) + 8191 < 2 ^ 32 -> wrapper_build junk ws = Ok a -> 0 <= q < count_true (bench_bits 64 n t) ->
  exists p, is_select (bench_bits 64 n t) q p /\
    ((ends_full_word (bench_bits 64 n t) p /\ wrapper_select dbg a q = Ub UB_shift) \/
     (~ ends_full_word (bench_bits 64 n t) p /\ exists r, wrapper_select dbg a q = Ok r /\ next_one (bench_bits 64 n t) q r)).
Proof.
  intros Hn HM W L EB LB HC Ea Hq. destruct (poppy_ready n t ws Hn HM W L EB LB HC) as (P1 & P2 & P3 & P4 & P5). destruct (is_select_exists (bench_bits 64 n t) q Hq) as (p & Hp).
  exists p. split; [exact Hp|]. rewrite <- EB in *. rewrite <- P3 in Hq. pose proof (select_exact junk dbg ws a q p P4 ltac:(lia) Ea Hq Hp) as S. pose proof Hp as (Hp1 & _). rewrite zlen_bits in Hp1.
  pose proof (full_word ws p W Hp1) as F. destruct ((zn 0 ws (p / 64) =? 2 ^ 64 - 1) && (p mod 64 =? 63)).
  - left. split; [apply F; reflexivity|exact S].
  - right. split; [intros X; apply F in X; discriminate|]. destruct S as (r & E & N). exists r. split; [exact E|]. eapply next_of_word; eauto.
Qed.

Lemma bench_poppy_select_bad junk dbg n t k runs measures : 2048 <= n <= 2 ^ 32 -> n mod 2048 = 0 -> (1 <= runs)%nat -> (1 <= measures)%nat ->
  let B := bench_bits 64 n t in
  count_true B + 8191 < 2 ^ 32 -> (exists q p, In q (bench_queries k (count_true B)) /\ is_select B q p /\ ends_full_word B p) ->
  bench_poppy junk dbg n t BSelect k runs measures = Ub UB_shift.
Proof.
  intros Hn HM Hr Hm. cbv zeta. intros HC (q0 & p0 & Q0 & S0 & F0). unfold bench_poppy. destruct (bench_start dbg (wrapper_build junk) (wrapper_rank dbg) (wrapper_select dbg) n t BSelect k runs measures ltac:(lia)) as (ws & W & L & EB & LB & C & HM' & E). cbv zeta in *. rewrite E. clear E.
  destruct (poppy_ready n t ws Hn HM W L EB LB HC) as (P1 & P2 & P3 & P4 & P5). destruct (build_multiple junk ws P4 P5) as (a & Ea). rewrite Ea. cbn [bind base_measure].
  apply mapM_bad; [exact Hm|]. apply (query_total_bad _ _ _ _ q0); [exact Hr|exact Q0| |].
  - apply queries_in in Q0; [|lia]. destruct (poppy_select_query junk dbg n t ws a q0 Hn HM W L EB LB HC Ea Q0) as (p & Hp & X). rewrite (is_select_unique _ _ p p0 Hp S0) in X. tauto.
  - intros q Hq. apply queries_in in Hq; [|lia]. destruct (poppy_select_query junk dbg n t ws a q Hn HM W L EB LB HC Ea Hq) as (p & Hp & [(_ & X)|(_ & r & X & _)]); eauto.
Qed.

Lemma choose_answers (f : Z -> res Z) (R : Z -> Z -> Prop) qs : (forall q, In q qs -> exists r, f q = Ok r /\ R q r) -> exists ps, Forall2 R qs ps /\ forall runs, query_total f runs qs = Ok ((Z.of_nat runs * total ps) mod 2 ^ 64).
Proof.
  intros H. set (g := fun q => match f q with Ok r => r | _ => 0 end). exists (map g qs). split.
  - induction qs as [|q qs IH]; cbn [map]; constructor.
    + destruct (H q ltac:(left; reflexivity)) as (r & E & X). unfold g. rewrite E. exact X.
    + apply IH. intros; apply H; right; auto.
  - intros runs. apply query_total_ok. intros q Hq. destruct (H q Hq) as (r & E & _). unfold g. rewrite E. reflexivity.
Qed.
Lemma bench_poppy_select junk dbg n t k runs measures : 2048 <= n <= 2 ^ 32 -> n mod 2048 = 0 ->
  let B := bench_bits 64 n t in
  count_true B + 8191 < 2 ^ 32 -> ~ (exists q p, In q (bench_queries k (count_true B)) /\ is_select B q p /\ ends_full_word B p) ->
  exists ps, Forall2 (next_one B) (bench_queries k (count_true B)) ps /\
    bench_poppy junk dbg n t BSelect k runs measures = Ok (repeat ((Z.of_nat runs * total ps) mod 2 ^ 64) measures).
Proof.
  intros Hn HM. cbv zeta. intros HC N. unfold bench_poppy. destruct (bench_start dbg (wrapper_build junk) (wrapper_rank dbg) (wrapper_select dbg) n t BSelect k runs measures ltac:(lia)) as (ws & W & L & EB & LB & C & HM' & E). cbv zeta in *. rewrite E. clear E.
  destruct (poppy_ready n t ws Hn HM W L EB LB HC) as (P1 & P2 & P3 & P4 & P5). destruct (build_multiple junk ws P4 P5) as (a & Ea). rewrite Ea. cbn [bind base_measure].
  destruct (choose_answers (wrapper_select dbg a) (next_one (bench_bits 64 n t)) (bench_queries k (count_true (bench_bits 64 n t)))) as (ps & F & X).
  - intros q Hq. pose proof Hq as Hq'. apply queries_in in Hq; [|lia]. destruct (poppy_select_query junk dbg n t ws a q Hn HM W L EB LB HC Ea Hq) as (p & Hp & [(Y & _)|(_ & r & Y)]); [exfalso; apply N; eauto|eauto].
  - exists ps. split; [exact F|]. apply mapM_units. apply X.
Qed.

Lemma bench_poppy_small junk dbg n t op k runs measures : 193 <= n <= 1984 -> bench_poppy junk dbg n t op k runs measures = Ub UB_bounds.
Proof.
  intros Hn. unfold bench_poppy. destruct (bench_start dbg (wrapper_build junk) (wrapper_rank dbg) (wrapper_select dbg) n t op k runs measures ltac:(lia)) as (ws & W & L & EB & LB & C & HM' & E). cbv zeta in *. rewrite E.
  rewrite build_small by lia. reflexivity.
Qed.
Lemma bench_poppy_build junk dbg n t op k runs measures : 2048 <= n <= 2 ^ 32 -> n mod 2048 = 0 -> count_true (bench_bits 64 n t) + 8191 < 2 ^ 32 -> op <> BRank -> op <> BSelect ->
  bench_poppy junk dbg n t op k runs measures = printed dbg (fun _ => 0) op n (count_true (bench_bits 64 n t)) k runs measures.
Proof.
  intros Hn HM HC H1 H2. unfold bench_poppy. destruct (bench_start dbg (wrapper_build junk) (wrapper_rank dbg) (wrapper_select dbg) n t op k runs measures ltac:(lia)) as (ws & W & L & EB & LB & C & HM' & E). cbv zeta in *. rewrite E. clear E.
  destruct (poppy_ready n t ws Hn HM W L EB LB HC) as (P1 & P2 & P3 & P4 & P5). destruct (build_multiple junk ws P4 P5) as (a & Ea). rewrite Ea. cbn [bind].
  destruct op; try congruence; cbn [printed base_measure].
  - destruct dbg; [destruct measures; reflexivity|]. apply mapM_units. reflexivity.
  - apply mapM_units. rewrite query_runs. reflexivity.
  - destruct dbg; [destruct measures; reflexivity|]. apply mapM_units. reflexivity.
Qed.

(** ** Cases *)
Lemma query_at k M i : 0 <= i < Z.of_nat k -> In (draw 71 i mod M) (bench_queries k M).
Proof. intros H. unfold bench_queries. apply in_map_iff. exists i. split; [reflexivity|]. apply in_zrange. lia. Qed.
Lemma count_bench n t : 193 <= n < 2 ^ 58 -> 1 <= count_true (bench_bits 64 n t) <= bench_len n.
Proof. intros H. destruct (base_setup n t H) as (ws & _ & _ & _ & _ & LB & C). cbv zeta in *. pose proof (count_le (bench_bits 64 n t)). lia. Qed.

Lemma last_query j k : 11 <= j <= 15 -> (2918 <= k)%nat -> In (2 ^ j - 1) (bench_queries k (2 ^ j)).
Proof.
  intros Hj Hk. assert (H : j = 11 \/ j = 12 \/ j = 13 \/ j = 14 \/ j = 15) by lia. destruct H as [->|[->|[->|[->| ->]]]].
  - change (2 ^ 11 - 1) with (draw 71 45 mod 2 ^ 11). apply query_at. lia.
  - change (2 ^ 12 - 1) with (draw 71 45 mod 2 ^ 12). apply query_at. lia.
  - change (2 ^ 13 - 1) with (draw 71 2917 mod 2 ^ 13). apply query_at. lia.
  - change (2 ^ 14 - 1) with (draw 71 2917 mod 2 ^ 14). apply query_at. lia.
  - change (2 ^ 15 - 1) with (draw 71 2917 mod 2 ^ 15). apply query_at. lia.
Qed.
Lemma poppy_shipped junk dbg j t k runs measures : 11 <= j <= 15 -> (2918 <= k)%nat -> (1 <= runs)%nat -> (1 <= measures)%nat ->
  bench_poppy junk dbg (2 ^ j) t BRank k runs measures = Ub UB_bounds.
Proof.
  intros Hj Hk Hr Hm. assert (N : 2048 <= 2 ^ j <= 32768) by (split; [apply (Z.pow_le_mono_r 2 11 j); lia|apply (Z.pow_le_mono_r 2 j 15); lia]).
  assert (M : 2 ^ j mod 2048 = 0) by (replace j with (j - 11 + 11) by lia; rewrite Z.pow_add_r by lia; apply Z.mod_mul; lia).
  pose proof (count_bench (2 ^ j) t ltac:(lia)) as C. rewrite bench_poppy_rank; [|lia|exact M|unfold bench_len in C; lia].
  replace (existsb (Z.eqb (2 ^ j - 1)) (bench_queries k (2 ^ j))) with true.
  - destruct runs, measures; try lia. reflexivity.
  - symmetry. apply existsb_exists. exists (2 ^ j - 1). split; [apply last_query; auto|apply Z.eqb_refl].
Qed.

(** The largest threshold that a density below 1 gives: all bits of the small sizes. *)
Lemma dense_draws : forallb (fun i => draw 13 i <? 2 ^ 64 - 2048) (zrange 0 2048) = true.
Proof. vm_compute. reflexivity. Qed.
Lemma zip_false l : zip orb (repeat false (length l)) l = l.
Proof. induction l as [|b l IH]; [reflexivity|]. cbn [length repeat zip]. rewrite IH. reflexivity. Qed.
Lemma map_const_true (f : Z -> bool) l : (forall x, In x l -> f x = true) -> map f l = repeat true (length l).
Proof. induction l as [|x l IH]; intros H; [reflexivity|]. cbn [map length repeat]. rewrite H by (left; reflexivity). rewrite IH by (intros; apply H; right; auto). reflexivity. Qed.
Lemma dense_bits n : 64 <= n <= 2048 -> n mod 64 = 0 -> bench_bits 64 n (2 ^ 64 - 2048) = repeat true (Z.to_nat n).
Proof.
  intros Hn HM. unfold bench_bits, bench_len. replace (64 * ((n + 63) / 64)) with n by lia. unfold drawn.
  rewrite (map_const_true (fun i => draw 13 i <? 2 ^ 64 - 2048)).
  2:{ intros x Hx. pose proof dense_draws as D. rewrite forallb_forall in D. apply D. apply in_zrange. apply in_zrange in Hx. lia. }
  rewrite length_zrange. assert (E : random_bits (repeat false (Z.to_nat n)) (repeat true (Z.to_nat n)) = repeat true (Z.to_nat n)).
  { unfold random_bits, forced, joined. assert (J : zip orb (repeat false (Z.to_nat n)) (repeat true (Z.to_nat n)) = repeat true (Z.to_nat n)) by (rewrite <- (zip_false (repeat true (Z.to_nat n))) at 2; rewrite repeat_length; reflexivity).
    rewrite J. replace (Z.to_nat n) with (S (Z.to_nat (n - 1))) by lia. reflexivity. }
  rewrite E. unfold padded. unfold zlen. rewrite repeat_length. replace ((- Z.of_nat (Z.to_nat n)) mod 64) with 0 by lia. apply app_nil_r.
Qed.
Lemma bit_all_true n i : 0 <= i < n -> bit (repeat true (Z.to_nat n)) i = true.
Proof. intros H. unfold bit, zn. destruct (nth_in_or_default (Z.to_nat i) (repeat true (Z.to_nat n)) false) as [X|X]; [apply repeat_spec in X; exact X|]. rewrite <- X. symmetry. 
  assert (L : (Z.to_nat i < length (repeat true (Z.to_nat n)))%nat) by (rewrite repeat_length; lia). pose proof (nth_In _ false L) as Y. apply repeat_spec in Y. congruence.
Qed.
Lemma cf_dense m dbg op k runs measures : addresses_ok m -> bench_cf m dbg 512 (2 ^ 64 - 2048) op k runs measures = Ub UB_bounds.
Proof.
  intros A. apply bench_cf_bad; [exact A|lia|]. rewrite dense_bits by (try lia; reflexivity). change ((bench_len 512 + 511) / 512) with 1. intros b Hb. replace b with 0 by lia. split.
  - unfold zlen. rewrite repeat_length. lia.
  - exists true. intros p Hp. apply (bit_all_true 512). lia.
Qed.
Lemma count_all_true n : count_true (repeat true n) = Z.of_nat n.
Proof. induction n as [|n IH]; [reflexivity|]. cbn [repeat count_true b2z]. lia. Qed.
Lemma firstn_all_true n m : (n <= m)%nat -> firstn n (repeat true m) = repeat true n.
Proof. revert m. induction n as [|n IH]; intros m H; [reflexivity|]. destruct m; [lia|]. cbn [repeat firstn]. rewrite IH by lia. reflexivity. Qed.
Lemma poppy_dense junk dbg k runs measures : (46 <= k)%nat -> (1 <= runs)%nat -> (1 <= measures)%nat -> bench_poppy junk dbg 2048 (2 ^ 64 - 2048) BSelect k runs measures = Ub UB_shift.
Proof.
  intros Hk Hr Hm. assert (EB : bench_bits 64 2048 (2 ^ 64 - 2048) = repeat true (Z.to_nat 2048)) by (apply dense_bits; [lia|reflexivity]).
  assert (C : count_true (repeat true (Z.to_nat 2048)) = 2048) by (rewrite count_all_true; lia).
  apply bench_poppy_select_bad; auto; [lia|rewrite EB, C; lia|]. rewrite EB, C. exists (draw 71 45 mod 2048), 2047. split; [apply query_at; lia|].
  replace (draw 71 45 mod 2048) with 2047 by reflexivity. split.
  - split; [unfold zlen; rewrite repeat_length; lia|]. split; [apply (bit_all_true 2048); lia|]. unfold ones_before. rewrite firstn_all_true by lia. rewrite count_all_true. lia.
  - split; [reflexivity|]. intros i Hi. apply (bit_all_true 2048). lia.
Qed.

(** Density 0: one set bit, number 0, and select is always asked for number 0. *)
Lemma draws_nonneg i : draw 13 i <? 0 = false.
Proof. pose proof (draw_range 13 i). lia. Qed.
Lemma sparse_bits n : 64 <= n -> n mod 64 = 0 -> bench_bits 64 n 0 = true :: repeat false (Z.to_nat (n - 1)).
Proof.
  intros Hn HM. unfold bench_bits, bench_len. replace (64 * ((n + 63) / 64)) with n by lia.
  assert (D : drawn 13 0 n = repeat false (Z.to_nat n)).
  { unfold drawn. rewrite <- (length_zrange 0 (Z.to_nat n)) at 2. generalize (zrange 0 (Z.to_nat n)). induction l as [|x l IH]; [reflexivity|]. cbn [map length repeat]. rewrite draws_nonneg, IH. reflexivity. }
  rewrite D. unfold random_bits, forced, joined. assert (J : zip orb (repeat false (Z.to_nat n)) (repeat false (Z.to_nat n)) = repeat false (Z.to_nat n)) by (rewrite <- (zip_false (repeat false (Z.to_nat n))) at 3; rewrite repeat_length; reflexivity).
  rewrite J. replace (existsb (fun b => b) (firstn 256 (repeat false (Z.to_nat n)))) with false.
  - cbn [negb]. replace (Z.to_nat n) with (S (Z.to_nat (n - 1))) by lia. change (upd (repeat false (S (Z.to_nat (n - 1)))) 0 true) with (true :: repeat false (Z.to_nat (n - 1))).
    unfold padded. replace ((- zlen (true :: repeat false (Z.to_nat (n - 1)))) mod 64) with 0; [apply app_nil_r|]. unfold zlen. cbn [length]. rewrite repeat_length. lia.
  - symmetry. apply not_true_is_false. intros X. apply existsb_exists in X. destruct X as (x & Hx & ->). assert (Y : In true (repeat false (Z.to_nat n))) by (rewrite <- (firstn_skipn 256); apply in_or_app; left; exact Hx). apply repeat_spec in Y. discriminate.
Qed.
Lemma select_density_zero m dbg : addresses_ok m -> bench_sel 128 4096 m dbg 256 0 BSelect 1 1 1 = Ok [2 ^ 64 - 1] /\ is_select (bench_bits 64 256 0) 0 0.
Proof.
  intros A. assert (EB : bench_bits 64 256 0 = true :: repeat false 255) by (apply (sparse_bits 256); [lia|reflexivity]). split; [|rewrite EB; repeat split; vm_compute; congruence].
  assert (O : overflows 128 4096 (128 - (- m_addr_b m) mod 128) (reversed 8 (bench_bits 64 256 0)) = false).
  { rewrite EB. unfold overflows. replace (nth_one (reversed 8 (true :: repeat false 255)) (count_true (reversed 8 (true :: repeat false 255)))) with 7 by (vm_compute; reflexivity). cbn [Z.eqb]. rewrite andb_false_r. reflexivity. }
  rewrite bench_select_std; [|clear; lia|clear; lia|reflexivity|exact A|clear; lia|discriminate|exact O]. cbn [printed]. replace (count_true (bench_bits 64 256 0)) with 1 by (rewrite EB; reflexivity).
  unfold bench_queries. cbn [zrange map]. rewrite Z.mod_1_r. reflexivity.
Qed.
Lemma all_zero_equal : equal_block (repeat false 512) 0.
Proof. split; [vm_compute; congruence|]. exists false. intros p Hp. unfold bit, zn. apply nth_repeat. Qed.
Lemma sparse_select : let B := bench_bits 64 2048 0 in
  count_true B + 8191 < 2 ^ 32 /\ ~ (exists q p, In q (bench_queries 10 (count_true B)) /\ is_select B q p /\ ends_full_word B p) /\ next_one B 0 64.
Proof.
  cbv zeta. assert (EB : bench_bits 64 2048 0 = true :: repeat false (Z.to_nat 2047)) by (apply (sparse_bits 2048); [lia|reflexivity]). rewrite EB.
  assert (C : count_true (true :: repeat false (Z.to_nat 2047)) = 1) by (cbn [count_true]; rewrite count_repeat_false; reflexivity). rewrite C. split; [lia|].
  assert (HZ : forall i, 0 < i -> bit (true :: repeat false (Z.to_nat 2047)) i = false).
  { intros i Hi. unfold bit, zn. replace (Z.to_nat i) with (S (Z.to_nat (i - 1))) by lia. cbn [nth]. apply nth_repeat. }
  assert (S0 : is_select (true :: repeat false (Z.to_nat 2047)) 0 0) by (split; [rewrite zlen_cons; pose proof (zlen_nonneg (repeat false (Z.to_nat 2047))); lia|]; split; reflexivity).
  split.
  - intros (q & p & _ & (P1 & _) & M & F). specialize (F p ltac:(clear; lia)). rewrite (HZ p) in F; [discriminate|clear - P1 M; lia].
  - exists 0. split; [exact S0|]. right. split; [|reflexivity]. intros q (H1 & H2 & H3) _. clear - H1 H2 H3 HZ. destruct (Z.eq_dec q 0) as [->|N]; [discriminate H3|]. rewrite HZ in H2; [discriminate|clear - N H1; lia].
Qed.
