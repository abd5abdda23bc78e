(** Select on dense bitmaps whose height-4 avx2 index compares sums of 2^31 and
    more as signed 32-bit numbers. *)
From Coq Require Import ZifyBool.
From Verif Require Import Base BaseFacts Mem MemFacts Nodes NodeFacts SearchFacts Trees LevelFacts RootFacts TreeFacts TreeBuild
  Words WordFacts Blocks BlockFacts Spec Bitmap Usage BitmapFacts ProgramFacts PropFacts LimitFacts.
Ltac Zify.zify_post_hook ::= Z.div_mod_to_equations.

Lemma bm_select_lost c ty s n ws v k : winv ty n ws v -> ty_fam ty = F2 -> ty_height ty = 4%nat -> c_avx2 c = true ->
  0 <= k < count_true (bits_of_words ws) -> zlen (v_mem v) < 2 ^ 64 ->
  select_lost (root_child_bits ty) (bits_of_words ws) k -> bm_select c ty s ws v k = search_failure c.
Proof.
  intros Hw F4 H4 C Hk Hm Hl. pose proof Hw as (Hsup & HW & E & A & T & HA).
  apply (lost_fails ty n ws v A (bsz ty) k Hw T HA) in Hl.
  pose proof (winv_n _ _ _ _ Hw) as Hn. pose proof (winv_size _ _ _ _ Hw) as Hz.
  assert (ET : count_true (bits_of_words ws) = sumf A 0 n).
  { rewrite (sum_blocks_any ty n ws v A (bsz ty)) by (auto; lia). rewrite ones_beyond; auto. rewrite zlen_bits, Hz. lia. }
  unfold bm_select. rewrite massert_true.
  2:{ rewrite bm_size_ok. rewrite count_true_all in Hk. pose proof (ones_before_bound (bits_of_words ws) (zlen (bits_of_words ws)) ltac:(pose proof (zlen_nonneg (bits_of_words ws)); lia)). lia. }
  cbn [bind]. rewrite F4, H4 in *. rewrite (tree_search_fails c (bsz ty) n v A k) by (auto; lia).
  unfold search_failure. destruct (c_debug c); reflexivity.
Qed.

Lemma index_bytes_small n : 1 <= n <= 2 ^ 24 -> total_of F2 4 n < 2 ^ 64.
Proof. intros Hn. cbn [total_of]. unfold cdiv. lia. Qed.

Lemma select_lost_fails c ty addr s input ops k rest : history c ty addr s input ops ->
  ty_fam ty = F2 -> ty_height ty = 4%nat -> c_avx2 c = true ->
  0 <= k < count_true (current ty input ops) -> select_lost (root_child_bits ty) (current ty input ops) k ->
  program c ty addr s input (ops ++ Select k :: rest) = search_failure c.
Proof.
  intros (Hu & Hs & Hv & Hsel) F4 H4 C Hk Hl. destruct (new_bitmap_ok c ty addr input Hu) as (b & E & Ea & Hb).
  apply reachable_statics_ok in Hs. pose proof Hu as (_ & Ha & _).
  destruct (run_ok c ty _ ops b s _ Hb Hs ltac:(rewrite Ea; exact Ha) Hv Hsel) as (outs & b' & s' & Er & _ & _ & Hb' & _).
  unfold program. rewrite E. cbn [bind]. rewrite run_app, Er. cbn [bind run step]. fold (current ty input ops) in Hb'.
  pose proof Hb' as (Hw & EB & Hz). rewrite <- EB in Hk, Hl.
  rewrite (bm_select_lost c ty s' _ (b_words b') (own_view ty b') k Hw); auto.
  - unfold search_failure. destruct (c_debug c); reflexivity.
  - cbn [own_view v_mem]. rewrite Hz, F4, H4. apply index_bytes_small. apply (winv_n _ _ _ _ Hw).
Qed.

Lemma select_exact c ty addr s input ops k : history c ty addr s input ops -> 0 <= k < count_true (current ty input ops) ->
  (select_safe c ty (current ty input ops) k <->
   exists outs p, program c ty addr s input (ops ++ [Select k]) = Ok (outs ++ [ONum p]) /\ is_select (current ty input ops) k p).
Proof.
  intros H Hk. split.
  - intros Hs. destruct (select_after _ _ _ _ _ _ _ H Hk Hs) as (outs & p & _ & E & Hp & _). eauto.
  - intros (outs & p & E & _) F1 F2 F3 Hl. rewrite (select_lost_fails c ty addr s input ops k []) in E by auto.
    unfold search_failure in E. destruct (c_debug c); discriminate E.
Qed.

(** Nothing is lost in these. *)
Lemma ones_clamp B i : 0 <= i -> ones_before B i = ones_before B (Z.min i (zlen B)).
Proof.
  intros H. destruct (Z.le_gt_cases i (zlen B)).
  - f_equal. lia.
  - rewrite !ones_beyond by lia. reflexivity.
Qed.

Lemma ones_step B i j : 0 <= i <= j -> 0 <= ones_before B j - ones_before B i <= j - i.
Proof.
  intros H. pose proof (zlen_nonneg B). rewrite (ones_clamp B i), (ones_clamp B j) by lia.
  rewrite !ones_before_sum by lia. rewrite (sumf_split _ 0 (Z.min i (zlen B)) (Z.min j (zlen B))) by lia.
  pose proof (sumf_bound (fun t => b2z (bit B t)) 1 (Z.min i (zlen B)) (Z.min j (zlen B)) ltac:(lia) ltac:(intros; cbv beta; destruct (bit B _); cbn; lia)). lia.
Qed.

Lemma ones_total B i : 0 <= i -> ones_before B i <= count_true B.
Proof.
  intros H. destruct (Z.le_gt_cases (zlen B) i).
  - rewrite ones_beyond by auto. lia.
  - rewrite count_true_all. pose proof (ones_step B i (zlen B) ltac:(lia)). lia.
Qed.

Lemma nothing_lost c ty B k : 0 <= k < count_true B ->
  block_size (ty_block ty) <= 256 \/ count_true B < 2 ^ 31 \/ zlen B < 15 * root_child_bits ty -> zlen B <= 2 ^ 24 * block_size (ty_block ty) ->
  select_safe c ty B k.
Proof.
  intros Hk H HL _ _ _ L. unfold root_child_bits in *. set (bs := block_size (ty_block ty)) in *.
  assert (HB : 0 < bs <= 512) by (unfold bs; destruct (ty_block ty); cbn; lia).
  change (2 ^ 19) with 524288 in *. assert (HG : 0 < 524288 * bs) by lia. set (g := 524288 * bs) in *.
  destruct L as [(s & Hs & L1 & L2)|L].
  - destruct H as [H|[H|H]].
    + pose proof (ones_step B ((8 * s - 1) * g) ((8 * s + 7) * g) ltac:(nia)). nia.
    + pose proof (ones_total B ((8 * s + 7) * g) ltac:(nia)). pose proof (ones_step B 0 ((8 * s - 1) * g) ltac:(nia)). 
      assert (ones_before B 0 = 0) by reflexivity. lia.
    + assert (15 * g <= (8 * s + 7) * g) by nia. rewrite (ones_beyond B ((8 * s + 7) * g)) in L1 by lia.
      assert (7 * g <= (8 * s - 1) * g) by nia.
      pose proof (ones_step B (7 * g) ((8 * s - 1) * g) ltac:(lia)). pose proof (ones_step B (7 * g) (zlen B)) as Q.
      rewrite <- count_true_all in Q. destruct (Z.le_gt_cases (7 * g) (zlen B)).
      * specialize (Q ltac:(lia)). lia.
      * rewrite (ones_beyond B ((8 * s - 1) * g)) in L1 by lia. lia.
  - destruct (Z.le_gt_cases (23 * g) (zlen B)) as [Q|Q].
    + pose proof (ones_step B (23 * g) (zlen B) ltac:(lia)) as R. rewrite <- count_true_all in R. destruct H as [H|[H|H]]; [| |lia].
      * unfold g in *; lia.
      * pose proof (ones_step B 0 (23 * g) ltac:(lia)). assert (ones_before B 0 = 0) by reflexivity. lia.
    + rewrite (ones_beyond B (23 * g)) in L by lia. lia.
Qed.

(** ** A bitmap full of ones *)
Definition full_words (n : Z) : list Z := repeat (2 ^ 64 - 1) (Z.to_nat n).

Lemma full_word_bits : bits_of_word (2 ^ 64 - 1) = repeat true 64.
Proof. reflexivity. Qed.

Lemma bits_full m : bits_of_words (repeat (2 ^ 64 - 1) m) = repeat true (64 * m).
Proof.
  unfold bits_of_words. induction m; [reflexivity|]. cbn [repeat flat_map]. rewrite IHm, full_word_bits, <- repeat_app. f_equal. lia.
Qed.

Lemma initial_full ty n : 0 <= n -> n mod words_in_block (ty_block ty) = 0 -> initial ty (full_words n) = repeat true (Z.to_nat (64 * n)).
Proof.
  intros Hn Hm. unfold initial, padded, full_words. rewrite bits_full, zlen_repeat.
  replace (- Z.of_nat (64 * Z.to_nat n)) with (- (64 * n)) by lia.
  replace ((- (64 * n)) mod block_size (ty_block ty)) with 0.
  - cbn [Z.to_nat repeat]. rewrite app_nil_r. f_equal. lia.
  - destruct (block_size_words (ty_block ty)) as [E _]. rewrite E. destruct (ty_block ty); cbv [words_in_block block_size] in *;
    change (64 / 64) with 1 in *; change (256 / 64) with 4 in *; change (512 / 64) with 8 in *; lia.
Qed.

Lemma firstn_repeat {A} (x : A) k : forall m, firstn k (repeat x m) = repeat x (Nat.min k m).
Proof. induction k; intros [|m]; cbn [firstn repeat Nat.min]; auto. f_equal. auto. Qed.

Lemma count_repeat m : count_true (repeat true m) = Z.of_nat m.
Proof. induction m; [reflexivity|]. cbn [repeat count_true b2z]. lia. Qed.

Lemma ones_full m i : 0 <= i -> ones_before (repeat true m) i = Z.min i (Z.of_nat m).
Proof. intros. unfold ones_before. rewrite firstn_repeat, count_repeat. lia. Qed.

Lemma words_full n : words_ok (full_words n).
Proof. apply Forall_forall. intros w Hw. apply repeat_spec in Hw as ->. lia. Qed.

Lemma zlen_full n : 0 <= n -> zlen (full_words n) = n.
Proof. intros. unfold full_words. rewrite zlen_repeat. lia. Qed.

(** The height-4 avx2 type with 512-bit blocks. *)
Lemma full_usable c ty addr n : ty_fam ty = F2 -> ty_height ty = 4%nat -> block_size (ty_block ty) = 512 -> supported (ty_block ty) = true ->
  2 ^ 22 < n <= 2 ^ 27 -> n mod 8 = 0 -> addr mod 32 = 16 -> usable c ty addr (full_words n).
Proof.
  intros F4 H4 BS SU Hn Hm Ha. split; [|split].
  - split; auto. split; [apply words_full|]. rewrite zlen_full by lia. split; [lia|]. split; [lia|].
    rewrite F4, H4. unfold blocks_of. replace (words_in_block (ty_block ty)) with 8 by (unfold words_in_block; rewrite BS; reflexivity).
    assert (2 ^ 19 < cdiv n 8 <= 2 ^ 24) by (unfold cdiv; lia). set (x := cdiv n 8) in *. clearbody x. unfold tree_height.
    replace (x <=? 2 ^ 7) with false by lia. replace (x <=? 2 ^ 13) with false by lia. replace (x <=? 2 ^ 19) with false by lia.
    replace (x <=? 2 ^ 24) with true by lia. reflexivity.
  - intros _ _ _. rewrite H4. lia.
  - apply counts_always_ok. auto.
Qed.

Lemma full_lost ty n k : block_size (ty_block ty) = 512 -> 15 * 2 ^ 22 <= n <= 2 ^ 27 -> n mod 8 = 0 -> 14 * 2 ^ 28 <= k < 15 * 2 ^ 28 ->
  0 <= k < count_true (initial ty (full_words n)) /\ select_lost (root_child_bits ty) (initial ty (full_words n)) k.
Proof.
  intros BS Hn Hm Hk. rewrite initial_full; [|lia|unfold words_in_block; rewrite BS; exact Hm]. rewrite count_repeat. split; [lia|].
  left. exists 1. unfold root_child_bits. rewrite BS. rewrite !ones_full by lia. lia.
Qed.

Lemma full_select_fails c ty addr n k : ty_fam ty = F2 -> ty_height ty = 4%nat -> block_size (ty_block ty) = 512 -> supported (ty_block ty) = true ->
  c_avx2 c = true -> addr mod 32 = 16 ->
  15 * 2 ^ 22 <= n <= 2 ^ 27 -> n mod 8 = 0 -> 14 * 2 ^ 28 <= k < 15 * 2 ^ 28 ->
  history c ty addr (statics_init (ty_block ty)) (full_words n) [] /\
  is_select (initial ty (full_words n)) k k /\
  program c ty addr (statics_init (ty_block ty)) (full_words n) [Select k] = search_failure c.
Proof.
  intros F4 H4 BS SU C Ha Hn Hm Hk.
  assert (H : history c ty addr (statics_init (ty_block ty)) (full_words n) []).
  { split; [apply full_usable; auto; lia|]. split; [constructor|]. split; exact Logic.I. }
  destruct (full_lost ty n k BS Hn Hm Hk) as [H1 H2].
  split; auto. split.
  - rewrite initial_full; [|lia|unfold words_in_block; rewrite BS; exact Hm]. split; [rewrite zlen_repeat; lia|]. split.
    + unfold bit. apply zn_repeat. lia.
    + rewrite ones_full by lia. lia.
  - apply (select_lost_fails c ty addr _ (full_words n) [] k []); auto.
Qed.
