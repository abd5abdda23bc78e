(** The properties of the poppy index, in terms of its interface. *)
From Coq Require Import ZifyBool.
From Verif Require Import Base BaseFacts Words WordFacts BlockFacts NodeFacts Spec BitmapFacts ProgramFacts PropFacts2 SpecPoppy Poppy PoppyFacts PoppyFacts2.
Ltac Zify.zify_post_hook ::= Z.div_mod_to_equations.

Lemma covered_ms ws : covered_ones ws = ms ws 0 (rank_bits (64 * zlen ws)).
Proof. pose proof (zlen_nonneg ws). apply ones_msb. unfold rank_bits. lia. Qed.
Lemma scanned_ms ws : scanned_ones ws = ms ws 0 (select_bits (64 * zlen ws)).
Proof. pose proof (zlen_nonneg ws). apply ones_msb. unfold select_bits. lia. Qed.

Lemma build_cases junk ws : poppy_size_ok ws ->
  (cdiv (scanned_ones ws) 8192 = cdiv (covered_ones ws) 8192 /\ exists t, wrapper_build junk ws = Ok t /\ pinv ws t) \/
  (cdiv (covered_ones ws) 8192 < cdiv (scanned_ones ws) 8192 /\ wrapper_build junk ws = Ub UB_bounds).
Proof.
  intros (W & Hn & HT). unfold wrapper_build. rewrite covered_ms, scanned_ms in *. replace (zlen ws * 64) with (64 * zlen ws) by lia.
  apply poppy_new_ok; auto; lia.
Qed.

Lemma build_small junk ws : 64 * zlen ws < 2048 -> wrapper_build junk ws = Ub UB_bounds.
Proof. intros H. unfold wrapper_build. replace (zlen ws * 64) with (64 * zlen ws) by lia. pose proof (zlen_nonneg ws). apply poppy_new_small. lia. Qed.

Lemma build_exact junk ws : poppy_size_ok ws ->
  if cdiv (scanned_ones ws) 8192 =? cdiv (covered_ones ws) 8192
  then exists t, wrapper_build junk ws = Ok t else wrapper_build junk ws = Ub UB_bounds.
Proof.
  intros H. destruct (build_cases junk ws H) as [(E & t & B & _)|(L & B)].
  - rewrite E, Z.eqb_refl. eauto.
  - replace (_ =? _) with false by lia. exact B.
Qed.

Lemma build_inv junk ws t : poppy_size_ok ws -> wrapper_build junk ws = Ok t -> pinv ws t.
Proof. intros H B. destruct (build_cases junk ws H) as [(E & t' & B' & I)|(L & B')]; [|congruence]. rewrite B in B'. injection B' as ->. exact I. Qed.

Lemma build_multiple junk ws : poppy_size_ok ws -> zlen ws mod 32 = 0 -> exists t, wrapper_build junk ws = Ok t.
Proof.
  intros H M. destruct (build_cases junk ws H) as [(E & t & B & _)|(L & B)]; [eauto|]. exfalso.
  assert (Q : rank_bits (64 * zlen ws) = select_bits (64 * zlen ws)) by (unfold rank_bits, select_bits; lia).
  rewrite covered_ms, scanned_ms, Q in L. lia.
Qed.

Lemma rank_exact junk dbg ws t pos : poppy_size_ok ws -> wrapper_build junk ws = Ok t -> 0 <= pos <= 64 * zlen ws ->
  poppy_rank dbg t pos = if pos <? rank_bits (64 * zlen ws) then Ok (ones_before (bits_msb ws) pos) else Ub UB_bounds.
Proof.
  intros H B Hp. pose proof (build_inv junk ws t H B) as I. destruct H as (W & Hn & HT).
  destruct (Z.ltb_spec pos (rank_bits (64 * zlen ws))) as [L|L].
  - rewrite ones_msb by lia. apply poppy_rank_ok; auto; lia.
  - apply (poppy_rank_out dbg ws t pos); auto; lia.
Qed.

Lemma rank_wrapper junk dbg ws t i : poppy_size_ok ws -> wrapper_build junk ws = Ok t -> 0 <= i < 64 * zlen ws ->
  wrapper_rank dbg t i = if i + 1 <? rank_bits (64 * zlen ws) then Ok (rank_spec (bits_msb ws) i) else Ub UB_bounds.
Proof.
  intros H B Hi. unfold wrapper_rank. rewrite wrap_small by (destruct H as (_ & ? & _); lia).
  rewrite (rank_exact junk dbg ws t (i + 1) H B) by lia. reflexivity.
Qed.

Lemma rank_boundaries ws i : words_ok ws -> 0 <= i < 64 * zlen ws -> (i + 1) mod 64 = 0 ->
  rank_spec (bits_msb ws) i = rank_spec (bits_of_words ws) i.
Proof.
  intros W Hi M. unfold rank_spec. rewrite ones_msb, ones_words by lia. replace (i + 1) with (64 * ((i + 1) / 64)) by lia.
  apply whole_words; [exact W|lia].
Qed.

Lemma count_exact junk ws t : poppy_size_ok ws -> wrapper_build junk ws = Ok t ->
  p_count t = covered_ones ws /\ wrapper_size t = 64 * zlen ws /\
  wrapper_bytes t = 8 * zlen ws + 8 * (zlen ws / 32) + 4 * cdiv (covered_ones ws) 8192 + 52.
Proof.
  intros H B. pose proof (build_inv junk ws t H B) as I. destruct H as (W & Hn & HT). rewrite covered_ms in *.
  split; [apply (pi_count _ _ I)|]. split; [apply (pi_n _ _ I)|]. unfold wrapper_bytes, poppy_bytes.
  rewrite (pi_cnt _ _ I), (pi_l1 _ _ I), (pi_l2 _ _ I), (pi_bits _ _ I). cbn [fold_left]. change (zlen [0]) with 1.
  pose proof (ms_bound ws 0 (rank_bits (64 * zlen ws)) ltac:(unfold rank_bits; lia)).
  replace (64 * zlen ws / 2048) with (zlen ws / 32) by lia.
  rewrite wrap_small by (unfold cdiv; lia). lia.
Qed.

Lemma select_exact junk dbg ws t k p : poppy_size_ok ws -> 64 * zlen ws <= 2 ^ 32 -> wrapper_build junk ws = Ok t ->
  0 <= k < covered_ones ws -> is_select (bits_of_words ws) k p ->
  if (zn 0 ws (p / 64) =? 2 ^ 64 - 1) && (p mod 64 =? 63) then wrapper_select dbg t k = Ub UB_shift
  else exists q, wrapper_select dbg t k = Ok q /\ next_in_word ws k p q.
Proof.
  intros H H32 B Hk HS. pose proof (build_inv junk ws t H B) as I. destruct H as (W & Hn & HT). rewrite covered_ms in *.
  unfold wrapper_select. rewrite wrap_small by lia.
  destruct (poppy_select_ok dbg ws t k p W H32 I Hk HS) as (S1 & S2).
  destruct ((zn 0 ws (p / 64) =? 2 ^ 64 - 1) && (p mod 64 =? 63)) eqn:E.
  - apply S1. lia.
  - apply S2. lia.
Qed.

Lemma next_after ws k p q : next_in_word ws k p q -> p < q <= 64 * (p / 64 + 1).
Proof.
  intros (H & [(Q & E)|(Q & ->)]); [|lia]. destruct H as (H1 & H2 & H3), Q as (Q1 & Q2 & Q3).
  split; [|lia]. destruct (Z_lt_le_dec p q) as [|L]; [assumption|]. exfalso.
  pose proof (ones_before_mono (bits_of_words ws) q p ltac:(lia) ltac:(lia)). lia.
Qed.

Lemma select_never_right junk dbg ws t k p : poppy_size_ok ws -> 64 * zlen ws <= 2 ^ 32 -> wrapper_build junk ws = Ok t ->
  0 <= k < covered_ones ws -> is_select (bits_of_words ws) k p -> wrapper_select dbg t k <> Ok p.
Proof.
  intros H H32 B Hk HS E. pose proof (select_exact junk dbg ws t k p H H32 B Hk HS) as S.
  destruct ((zn 0 ws (p / 64) =? 2 ^ 64 - 1) && (p mod 64 =? 63)); [congruence|].
  destruct S as (q & E' & N). apply next_after in N. rewrite E in E'. injection E' as ->. lia.
Qed.

Lemma select_zero junk dbg ws t : poppy_size_ok ws -> wrapper_build junk ws = Ok t -> poppy_select dbg t 0 = Ub UB_bounds.
Proof.
  intros H B. pose proof (build_inv junk ws t H B) as I. destruct H as (W & Hn & HT). rewrite covered_ms in *.
  unfold poppy_select, poppy_select_with. rewrite (pi_count _ _ I), massert_true.
  2:{ pose proof (ms_bound ws 0 (rank_bits (64 * zlen ws)) ltac:(unfold rank_bits; lia)). lia. }
  rewrite (pi_l1 _ _ I). reflexivity.
Qed.

Lemma select_other junk dbg ws t k p : poppy_size_ok ws -> 64 * zlen ws <= 2 ^ 32 -> wrapper_build junk ws = Ok t ->
  0 <= k < covered_ones ws -> is_select (bits_msb ws) k p ->
  poppy_select_with (fun x k => Ok (select64_popcount_search x k)) dbg t (k + 1) = Ok p.
Proof.
  intros H H32 B Hk HS. pose proof (build_inv junk ws t H B) as I. destruct H as (W & Hn & HT). rewrite covered_ms in *.
  apply (poppy_select_search dbg ws t k p); auto.
Qed.

(** In-word functions. *)
Lemma sux_spec x : 0 <= x < 2 ^ 64 -> suxpopcount x = count_true (bits_of_word x).
Proof. intros H. rewrite suxpopcount_ok, popcount_word by auto. reflexivity. Qed.

Lemma wsel_word x k r : wsel x k r -> is_select (bits_of_word x) k r.
Proof.
  intros (A & B & C). split; [rewrite zlen_bits_of_word; lia|]. split; [rewrite bit_word by lia; exact B|].
  rewrite <- wones_word by lia. exact C.
Qed.

Lemma msel_word x k s : 0 <= x < 2 ^ 64 -> msel 64 x k s -> is_select (word_msb x) (k - 1) s.
Proof.
  intros Hx M. pose proof (msel_select [x] 0 k s ltac:(constructor; [exact Hx|constructor]) ltac:(change (zlen [x]) with 1; lia) M) as Q.
  unfold bits_msb in Q. cbn [flat_map] in Q. rewrite app_nil_r in Q. change (64 * 0) with 0 in Q. rewrite ms_empty in Q. exact Q.
Qed.

Lemma naive_spec x k : 0 <= x < 2 ^ 64 ->
  if (1 <=? k) && (k <=? count_true (bits_of_word x)) then is_select (word_msb x) (k - 1) (select64_naive x k)
  else select64_naive x k = -1.
Proof.
  intros Hx. rewrite <- popcount_word. destruct (select64_naive_ok x k Hx) as (A & B).
  destruct ((1 <=? k) && (k <=? popcount x)) eqn:E; [apply msel_word; [exact Hx|apply A; lia]|apply B; lia].
Qed.

Lemma search_spec x k : 0 <= x < 2 ^ 64 -> 1 <= k <= count_true (bits_of_word x) ->
  is_select (word_msb x) (k - 1) (select64_popcount_search x k).
Proof. intros Hx Hk. rewrite <- popcount_word in Hk. apply msel_word; [exact Hx|]. apply select64_popcount_search_ok; auto. Qed.

Lemma pdep_spec x k : 0 <= x < 2 ^ 64 -> 0 <= k ->
  if k <? count_true (bits_of_word x) then exists r, select64_pdep_tzcnt x k = Ok r /\ is_select (bits_of_word x) k r
  else select64_pdep_tzcnt x k = if k <? 64 then Ok 64 else Ub UB_shift.
Proof.
  intros Hx Hk. rewrite <- popcount_word. destruct (Z.ltb_spec k (popcount x)) as [L|L].
  - destruct (select_pdep_ok x k ltac:(lia)) as (r & E & S). exists r. split; [exact E|apply wsel_word; exact S].
  - unfold select64_pdep_tzcnt, shl64. replace ((0 <=? k) && (k <? 64)) with (k <? 64) by lia.
    destruct (Z.ltb_spec k 64) as [L2|L2]; [|reflexivity]. cbn [bind]. rewrite Z.shiftl_1_l.
    assert (2 ^ k < 2 ^ 64) by (apply Z.pow_lt_mono_r; lia). assert (0 < 2 ^ k) by (apply Z.pow_pos_nonneg; lia).
    rewrite wrap_small by lia. unfold pdep64. rewrite pdep_none; [reflexivity|lia|lia|]. rewrite <- popcount_wones. lia.
Qed.

Lemma broadword_spec x k : 0 <= x < 2 ^ 64 -> 0 <= k < count_true (bits_of_word x) ->
  exists r, select64_broadword x k = Ok r /\ is_select (bits_of_word x) k r.
Proof.
  intros Hx Hk. rewrite <- popcount_word in Hk. destruct (select64_broadword_ok x k Hx Hk) as (r & E & S).
  exists r. split; [exact E|apply wsel_word; exact S].
Qed.

(** Witnesses. *)
Definition one_first : list Z := 1 :: repeat 0 31.

Lemma small_size ws : words_ok ws -> 2048 <= 64 * zlen ws -> 64 * zlen ws + 8191 < 2 ^ 32 -> poppy_size_ok ws.
Proof.
  intros W H1 H2. split; [exact W|]. split; [lia|]. rewrite covered_ms.
  pose proof (ms_bound ws 0 (rank_bits (64 * zlen ws)) ltac:(unfold rank_bits; lia)). unfold rank_bits in *. lia.
Qed.

Lemma one_first_ok : poppy_size_ok one_first.
Proof. apply small_size; [repeat constructor; lia| |]; change (zlen one_first) with 32; lia. Qed.

Lemma rank_differs junk dbg : exists t, wrapper_build junk one_first = Ok t /\ wrapper_rank dbg t 0 = Ok 0 /\
  rank_spec (bits_of_words one_first) 0 = 1.
Proof.
  destruct (build_multiple junk one_first one_first_ok eq_refl) as (t & B). exists t. split; [exact B|].
  rewrite (rank_wrapper junk dbg one_first t 0 one_first_ok B) by (change (zlen one_first) with 32; lia).
  split; reflexivity.
Qed.

Definition ones_1 : list Z := 3 :: repeat 0 31.
Lemma ones_1_ok : poppy_size_ok ones_1.
Proof. apply small_size; [repeat constructor; lia| |]; change (zlen ones_1) with 32; lia. Qed.

Definition loc_overflow : list Z := repeat (2 ^ 64 - 1) 136.
Lemma loc_overflow_ok : poppy_size_ok loc_overflow.
Proof.
  apply small_size; [|change (zlen loc_overflow) with 136; lia|change (zlen loc_overflow) with 136; lia].
  unfold loc_overflow. apply Forall_forall. intros x Hx. apply repeat_spec in Hx. subst x. lia.
Qed.

Lemma build_overflows junk : wrapper_build junk loc_overflow = Ub UB_bounds.
Proof.
  pose proof (build_exact junk loc_overflow loc_overflow_ok) as B.
  assert (E : (cdiv (scanned_ones loc_overflow) 8192 =? cdiv (covered_ones loc_overflow) 8192) = false) by (vm_compute; reflexivity).
  rewrite E in B. exact B.
Qed.

Lemma one_first_pos : 0 <= 0 < 64 * zlen one_first - 1.
Proof. change (zlen one_first) with 32. lia. Qed.
Lemma rank_wrong junk dbg : exists ws t i, poppy_size_ok ws /\ wrapper_build junk ws = Ok t /\
  0 <= i < 64 * zlen ws - 1 /\ wrapper_rank dbg t i <> Ok (rank_spec (bits_of_words ws) i).
Proof.
  destruct (rank_differs junk dbg) as (t & B & R & S). exists one_first, t, 0. split; [exact one_first_ok|]. split; [exact B|].
  split; [exact one_first_pos|]. rewrite R, S. congruence.
Qed.
