(** The bitmap refines a list of booleans. *)
From Coq Require Import ZifyBool.
From Verif Require Import Base BaseFacts Mem MemFacts Nodes NodeFacts Trees LevelFacts RootFacts TreeFacts TreeBuild
  Words WordFacts Blocks BlockFacts Spec Bitmap Usage.
Ltac Zify.zify_post_hook ::= Z.div_mod_to_equations.

(** ** Counting in lists of booleans *)
Lemma count_true_app a b : count_true (a ++ b) = count_true a + count_true b.
Proof. induction a; cbn [count_true app]; [reflexivity|]. rewrite IHa. lia. Qed.

Lemma ones_before_sum B i : 0 <= i <= zlen B -> ones_before B i = sumf (fun t => b2z (bit B t)) 0 i.
Proof.
  intros Hi. unfold ones_before. replace i with (Z.of_nat (Z.to_nat i)) at 2 by lia.
  assert (Hk : (Z.to_nat i <= length B)%nat) by (unfold zlen in Hi; lia). revert Hk. generalize (Z.to_nat i) as k. clear i Hi.
  induction k; intros Hk; [reflexivity|].
  rewrite Nat2Z.inj_succ. unfold Z.succ. rewrite sumf_succ by lia. rewrite <- IHk by lia.
  assert (E : firstn (S k) B = firstn k B ++ [nth k B false]).
  { clear IHk. revert B Hk. induction k; intros [|b B] Hk; cbn [length] in Hk; try lia; [reflexivity|].
    cbn [firstn nth app]. f_equal. rewrite <- (IHk B) by lia. reflexivity. }
  rewrite E, count_true_app. cbn [count_true]. unfold bit, zn. rewrite Nat2Z.id. lia.
Qed.

Lemma count_true_all B : count_true B = ones_before B (zlen B).
Proof. unfold ones_before, zlen. rewrite Nat2Z.id, firstn_all. reflexivity. Qed.

Lemma b2z_01 b : 0 <= b2z b <= 1.
Proof. destruct b; cbn; lia. Qed.

Lemma ones_before_bound B i : 0 <= i <= zlen B -> 0 <= ones_before B i <= i.
Proof.
  intros Hi. rewrite ones_before_sum by auto.
  pose proof (sumf_bound (fun t => b2z (bit B t)) 1 0 i ltac:(lia) ltac:(intros; apply b2z_01)). lia.
Qed.

Lemma ones_before_mono B i j : 0 <= i <= j -> j <= zlen B -> ones_before B i <= ones_before B j.
Proof. intros Hi Hj. rewrite !ones_before_sum by lia. apply sumf_mono; [lia|]. intros; apply b2z_01. Qed.

(** ** Bits of words *)
Definition gbit (ws : list Z) (t : Z) : Z := wbit (zn 0 ws (t / 64)) (t mod 64).

Lemma zlen_bits_of_word w : zlen (bits_of_word w) = 64.
Proof. unfold bits_of_word, zlen. rewrite map_length, length_zrange. reflexivity. Qed.

Lemma zlen_bits ws : zlen (bits_of_words ws) = 64 * zlen ws.
Proof.
  unfold bits_of_words. induction ws; [reflexivity|]. cbn [flat_map]. rewrite zlen_app, zlen_bits_of_word, IHws, zlen_cons. lia.
Qed.

Lemma bit_word w t : 0 <= t < 64 -> bit (bits_of_word w) t = Z.testbit w t.
Proof.
  intros Ht. unfold bit, bits_of_word. rewrite (zn_map _ 0) by (unfold zlen; rewrite length_zrange; lia).
  rewrite zn_zrange by lia. f_equal; lia.
Qed.

Lemma bit_words ws : forall t, 0 <= t < 64 * zlen ws -> bit (bits_of_words ws) t = Z.testbit (zn 0 ws (t / 64)) (t mod 64).
Proof.
  unfold bits_of_words, bit. induction ws as [|w ws IH]; intros t Ht; [change (zlen (@nil Z)) with 0 in Ht; lia|].
  rewrite zlen_cons in Ht. cbn [flat_map]. destruct (Z.lt_ge_cases t 64).
  - rewrite zn_app_l by (rewrite zlen_bits_of_word; lia). fold (bit (bits_of_word w) t). rewrite bit_word by lia.
    replace (t / 64) with 0 by lia. replace (t mod 64) with t by lia. reflexivity.
  - rewrite zn_app_r by (rewrite zlen_bits_of_word; lia). rewrite zlen_bits_of_word. rewrite IH by lia.
    rewrite (zn_cons_S 0 w) by lia. replace ((t - 64) / 64) with (t / 64 - 1) by lia.
    replace ((t - 64) mod 64) with (t mod 64) by lia. reflexivity.
Qed.

Lemma gbit_bit ws t : 0 <= t < 64 * zlen ws -> gbit ws t = b2z (bit (bits_of_words ws) t).
Proof. intros. rewrite bit_words by auto. reflexivity. Qed.

Lemma ones_words ws i : 0 <= i <= 64 * zlen ws -> ones_before (bits_of_words ws) i = sumf (gbit ws) 0 i.
Proof.
  intros Hi. rewrite ones_before_sum by (rewrite zlen_bits; auto). apply sumf_ext. intros t Ht. symmetry. apply gbit_bit. lia.
Qed.

(** A block's ones in terms of the whole array. *)
Definition bptr (bt : btype) (ws : list Z) (b : Z) : wptr := {| w_arr := ws; w_off := words_in_block bt * b |}.

Lemma bbit_gbit bt ws b t : 0 <= b -> 0 <= t -> bbit (bptr bt ws b) t = gbit ws (t + block_size bt * b).
Proof.
  intros Hb Ht. unfold bbit, gbit, W. cbn [bptr w_arr w_off]. destruct (block_size_words bt) as [E _]. rewrite E.
  set (w := words_in_block bt) in *. replace (t + 64 * w * b) with (t + (w * b) * 64) by ring.
  rewrite Z.div_add, Z_mod_plus_full by lia. f_equal. f_equal; lia.
Qed.

Lemma bones_gbit bt ws b t : 0 <= b -> 0 <= t ->
  bones (bptr bt ws b) t = sumf (gbit ws) (block_size bt * b) (block_size bt * b + t).
Proof.
  intros Hb Ht. unfold bones. rewrite (sumf_ext _ (fun t => gbit ws (t + block_size bt * b))) by (intros; apply bbit_gbit; lia).
  rewrite sumf_shift. f_equal; lia.
Qed.

(** ** Invariant of a bitmap seen through an index view *)
Definition bsz (ty : btyp) : Z := block_size (ty_block ty).

Definition winv (ty : btyp) (n : Z) (ws : list Z) (v : tview) : Prop :=
  supported (ty_block ty) = true /\ words ws /\ zlen ws = words_in_block (ty_block ty) * n /\
  exists A, tinv (ty_fam ty) (ty_height ty) (bsz ty) n v A /\
    forall j, 0 <= j < n -> A j = sumf (gbit ws) (bsz ty * j) (bsz ty * (j + 1)).

Lemma bsz_cases bt : block_size bt = 64 \/ block_size bt = 256 \/ block_size bt = 512.
Proof. destruct bt; auto. Qed.

Lemma winv_n ty n ws v : winv ty n ws v -> 1 <= n <= 2 ^ 24.
Proof. intros (_ & _ & _ & A & T & _). apply T. Qed.

Lemma winv_size ty n ws v : winv ty n ws v -> 64 * zlen ws = bsz ty * n.
Proof. intros (_ & _ & E & _). unfold bsz. destruct (block_size_words (ty_block ty)) as [-> _]. rewrite E. ring. Qed.

Lemma sum_blocks ty n ws v A b : winv ty n ws v -> 0 <= b <= n ->
  (forall j, 0 <= j < n -> A j = sumf (gbit ws) (bsz ty * j) (bsz ty * (j + 1))) ->
  sumf A 0 b = sumf (gbit ws) 0 (bsz ty * b).
Proof.
  intros H Hb HA. pose proof (bsz_cases (ty_block ty)) as C. fold (bsz ty) in C.
  replace (sumf (gbit ws) 0 (bsz ty * b)) with (sumf (gbit ws) (0 * bsz ty) (b * bsz ty)) by (f_equal; lia).
  rewrite <- sumf_groups by lia. apply sumf_ext. intros j Hj. rewrite HA by lia. f_equal; lia.
Qed.

Lemma blk_ok ty n ws v b : winv ty n ws v -> 0 <= b < n -> blk (bptr (ty_block ty) ws b) (words_in_block (ty_block ty)).
Proof.
  intros (_ & HW & E & _) Hb. split; [exact HW|]. cbn [bptr w_arr w_off].
  assert (0 < words_in_block (ty_block ty)) by (destruct (ty_block ty); reflexivity). rewrite E. nia.
Qed.

Lemma div_block i bs n : 0 < bs -> 0 <= i < bs * n -> 0 <= i / bs < n.
Proof. intros. split; [apply Z.div_pos; lia|apply Z.div_lt_upper_bound; lia]. Qed.

Lemma land_bs i bt : 0 <= i -> Z.land i (block_size bt - 1) = i mod block_size bt.
Proof.
  intros Hi. destruct (bsz_cases bt) as [-> | [-> | ->]].
  - change (64 - 1) with (Z.ones 6). rewrite Z.land_ones by lia. reflexivity.
  - change (256 - 1) with (Z.ones 8). rewrite Z.land_ones by lia. reflexivity.
  - change (512 - 1) with (Z.ones 9). rewrite Z.land_ones by lia. reflexivity.
Qed.

Lemma bm_size_ok ws : bm_size ws = zlen (bits_of_words ws).
Proof. unfold bm_size. rewrite zlen_bits. lia. Qed.

Lemma bm_access_ok c ws i : 0 <= i < zlen (bits_of_words ws) -> bm_access c ws i = Ok (bit (bits_of_words ws) i).
Proof.
  intros Hi. unfold bm_access. rewrite massert_true by (rewrite bm_size_ok; lia). cbn [bind].
  rewrite zlen_bits in Hi. rewrite geti_ok by lia. cbn [bind]. rewrite bit_words by auto. reflexivity.
Qed.

Lemma bm_rank_ok c ty s n ws v i : winv ty n ws v -> statics_ok (ty_block ty) s -> 0 <= i < zlen (bits_of_words ws) ->
  exists s', bm_rank c ty s ws v i = Ok (rank_spec (bits_of_words ws) i, s') /\ statics_ok (ty_block ty) s'.
Proof.
  intros Hw Hs Hi. pose proof Hw as (Hsup & HW & E & A & T & HA).
  pose proof (winv_n _ _ _ _ Hw) as Hn. pose proof (winv_size _ _ _ _ Hw) as Hz. unfold bsz in Hz.
  unfold bm_rank. rewrite massert_true by (rewrite bm_size_ok; lia). cbn [bind]. rewrite zlen_bits in Hi.
  assert (HB : 0 < block_size (ty_block ty)) by (destruct (ty_block ty); reflexivity).
  pose proof (div_block i (block_size (ty_block ty)) n HB ltac:(lia)) as Hb.
  pose proof (Z.mod_pos_bound i (block_size (ty_block ty)) HB) as Hm.
  pose proof (Z.div_mod i (block_size (ty_block ty)) ltac:(lia)) as Hd.
  rewrite land_bs by lia.
  set (b := i / block_size (ty_block ty)) in *. set (r := i mod block_size (ty_block ty)) in *. clearbody b r.
  assert (ES : (if b =? 0 then Ok 0 else tree_sum c (ty_fam ty) (ty_height ty) v (b - 1))
    = Ok (sumf (gbit ws) 0 (block_size (ty_block ty) * b))).
  { destruct (Z.eqb_spec b 0) as [-> | NZ].
    - rewrite Z.mul_0_r, sumf_empty by lia. reflexivity.
    - rewrite (tree_sum_ok c _ _ (bsz ty) n v A) by (auto; lia). f_equal.
      replace (b - 1 + 1) with b by lia.
      apply (sum_blocks ty n ws v); auto; lia. }
  rewrite ES. cbn [bind].
  destruct (block_rank_ok c (ty_block ty) s (bptr (ty_block ty) ws b) r) as (s' & Er & Hs'); auto.
  { apply (blk_ok ty n ws v); auto. }
  unfold bptr in Er at 1. rewrite Er. cbn [bind]. exists s'. split; auto. do 2 f_equal.
  rewrite bones_gbit by lia. rewrite <- sumf_split by lia.
  unfold rank_spec. rewrite ones_words by lia.
  replace (block_size (ty_block ty) * b + (r + 1)) with (i + 1) by lia.
  pose proof (sumf_bound (gbit ws) 1 0 (i + 1) ltac:(lia) ltac:(intros; apply wbit_01)).
  pose proof (bsz_cases (ty_block ty)).
  rewrite wrap_small; [reflexivity|]. split; [lia|]. assert (i < 512 * 2 ^ 24) by nia. lia.
Qed.

Lemma ones_beyond B i : zlen B <= i -> ones_before B i = count_true B.
Proof. intros H. unfold ones_before. rewrite firstn_all2; auto. unfold zlen in H. lia. Qed.

(** Prefix sums of the counters, also past the end. *)
Lemma sum_blocks_any ty n ws v A mx b : winv ty n ws v -> 0 <= b -> tinv (ty_fam ty) (ty_height ty) mx n v A ->
  (forall j, 0 <= j < n -> A j = sumf (gbit ws) (bsz ty * j) (bsz ty * (j + 1))) ->
  sumf A 0 b = ones_before (bits_of_words ws) (b * bsz ty).
Proof.
  intros Hw Hb T HA. pose proof (winv_n _ _ _ _ Hw) as Hn. pose proof (winv_size _ _ _ _ Hw) as Hz.
  pose proof (bsz_cases (ty_block ty)) as BC. fold (bsz ty) in BC.
  destruct (Z.le_gt_cases b n) as [L|L].
  - rewrite (sum_blocks ty n ws v) by auto. rewrite Z.mul_comm, ones_words by nia. reflexivity.
  - rewrite ones_beyond by (rewrite zlen_bits; nia). rewrite count_true_all, ones_words by (rewrite zlen_bits; lia).
    rewrite zlen_bits, Hz. rewrite (sumf_split A 0 n b) by lia. rewrite (sum_blocks ty n ws v) by (auto; lia).
    rewrite (sumf_const0 A n) by (intros; apply T; lia). lia.
Qed.

Lemma lost_fails ty n ws v A mx k : winv ty n ws v -> tinv (ty_fam ty) (ty_height ty) mx n v A ->
  (forall j, 0 <= j < n -> A j = sumf (gbit ws) (bsz ty * j) (bsz ty * (j + 1))) ->
  select_lost (root_child_bits ty) (bits_of_words ws) k <-> root_fails A k.
Proof.
  intros Hw T HA. unfold select_lost, root_fails, child_sum, root_child_bits. fold (bsz ty). change (2 ^ 19) with 524288.
  assert (P : forall b, 0 <= b -> ones_before (bits_of_words ws) (b * (524288 * bsz ty)) = sumf A 0 (b * 524288)).
  { intros b Hb. rewrite Z.mul_assoc. symmetry. apply (sum_blocks_any ty n ws v A mx); auto. lia. }
  rewrite (P 23) by lia.
  split; (intros [(s & Hs & F)|F]; [left; exists s; split; auto; rewrite !P in * by lia; exact F|right; exact F]).
Qed.

Lemma safe_vsafe c ty n ws v A mx k : winv ty n ws v -> tinv (ty_fam ty) (ty_height ty) mx n v A ->
  (forall j, 0 <= j < n -> A j = sumf (gbit ws) (bsz ty * j) (bsz ty * (j + 1))) ->
  select_safe c ty (bits_of_words ws) k -> vsafe c (ty_fam ty) (ty_height ty) A k.
Proof.
  intros Hw T HA H F1 F2 F3 R. apply (H F1 F2 F3). eapply lost_fails; eauto.
Qed.

Lemma bm_select_ok c ty s n ws v k : winv ty n ws v -> statics_ok (ty_block ty) s -> 0 <= k < count_true (bits_of_words ws) ->
  select_safe c ty (bits_of_words ws) k ->
  exists p s', bm_select c ty s ws v k = Ok (p, s') /\ is_select (bits_of_words ws) k p /\ statics_ok (ty_block ty) s'.
Proof.
  intros Hw Hs Hk Hv. pose proof Hw as (Hsup & HW & E & A & T & HA).
  apply (safe_vsafe c ty n ws v A (bsz ty) k Hw T HA) in Hv.
  pose proof (winv_n _ _ _ _ Hw) as Hn. pose proof (winv_size _ _ _ _ Hw) as Hz.
  pose proof (bsz_cases (ty_block ty)) as BC. fold (bsz ty) in BC.
  rewrite count_true_all, zlen_bits in *. rewrite ones_words in * by lia.
  assert (ET : sumf A 0 n = sumf (gbit ws) 0 (64 * zlen ws)) by (rewrite Hz; apply (sum_blocks ty n ws v); auto; lia).
  rewrite <- ET in *.
  assert (HT : sumf A 0 n <= 64 * zlen ws).
  { rewrite ET. pose proof (sumf_bound (gbit ws) 1 0 (64 * zlen ws) ltac:(lia) ltac:(intros; apply wbit_01)). lia. }
  unfold bm_select. rewrite massert_true by (rewrite bm_size_ok, zlen_bits; lia). cbn [bind].
  destruct (tree_search_ok c _ _ _ n v A k T Hk Hv) as (b & Es & Hb & Hkb). rewrite Es. cbn [bind].
  assert (HB0 : 0 <= sumf A 0 b) by (apply sumf_nonneg; intros; apply T).
  assert (small : bsz ty * n <= 512 * 2 ^ 24) by nia.
  rewrite (wrap_small 64 (k - sumf A 0 b)) by lia.
  rewrite !(sum_blocks ty n ws v A) in * by (auto; lia).
  assert (EB : bones (bptr (ty_block ty) ws b) (bsz ty) = sumf (gbit ws) 0 (bsz ty * (b + 1)) - sumf (gbit ws) 0 (bsz ty * b)).
  { rewrite bones_gbit by lia. fold (bsz ty). replace (bsz ty * b + bsz ty) with (bsz ty * (b + 1)) by ring.
    rewrite (sumf_split (gbit ws) 0 (bsz ty * b) (bsz ty * (b + 1))) by nia. lia. }
  destruct (block_select_ok c (ty_block ty) s (bptr (ty_block ty) ws b) (k - sumf (gbit ws) 0 (bsz ty * b))) as (p & s' & Ep & Hp & Hs'); auto.
  { apply (blk_ok ty n ws v); auto. }
  { fold (bsz ty). lia. }
  unfold bptr in Ep at 1. rewrite Ep. cbn [bind]. fold (bsz ty).
  destruct Hp as (P1 & P2 & P3). rewrite <- (proj1 (block_size_words (ty_block ty))) in P1. fold (bsz ty) in P1.
  assert (HP : 0 <= bsz ty * b + p < bsz ty * n) by nia.
  exists (bsz ty * b + p), s'. split; [rewrite wrap_small by lia; reflexivity|]. split; auto.
  unfold bsz in *. rewrite bbit_gbit in P2 by lia. rewrite bones_gbit in P3 by lia.
  split; [rewrite zlen_bits; lia|]. split.
  - rewrite gbit_bit in P2 by lia. rewrite Z.add_comm in P2. destruct (bit _ _); [reflexivity|discriminate P2].
  - rewrite ones_words by lia. rewrite (sumf_split (gbit ws) 0 (block_size (ty_block ty) * b)) by lia. lia.
Qed.

(** ** Flip *)
Lemma word_small x : 0 <= x -> (forall k, 64 <= k -> Z.testbit x k = false) -> 0 <= x < 2 ^ 64.
Proof.
  intros Hx Hb. assert (E : x mod 2 ^ 64 = x).
  { apply Z.bits_inj'. intros k Hk. destruct (Z.lt_ge_cases k 64).
    - rewrite Z.mod_pow2_bits_low by lia. reflexivity.
    - rewrite Z.mod_pow2_bits_high by lia. symmetry. apply Hb. lia. }
  rewrite <- E. apply Z.mod_pos_bound. lia.
Qed.

Lemma word_high x k : 0 <= x < 2 ^ 64 -> 64 <= k -> Z.testbit x k = false.
Proof. intros Hx Hk. rewrite <- (Z.mod_small x (2 ^ 64)) by auto. apply Z.mod_pow2_bits_high. lia. Qed.

Lemma flip_word w o : 0 <= w < 2 ^ 64 -> 0 <= o < 64 -> 0 <= Z.lxor w (2 ^ o) < 2 ^ 64.
Proof.
  intros Hw Ho. apply word_small.
  - apply Z.lxor_nonneg. split; intros _; [apply Z.pow_nonneg|]; lia.
  - intros k Hk. rewrite Z.lxor_spec, testbit_pow by lia. rewrite word_high by auto. lia.
Qed.

Lemma land_63 i : 0 <= i -> Z.land i 63 = i mod 64.
Proof. intros. change 63 with (Z.ones 6). rewrite Z.land_ones by lia. reflexivity. Qed.

Definition flipped (ws : list Z) (i : Z) : list Z := upd ws (i / 64) (Z.lxor (zn 0 ws (i / 64)) (2 ^ (i mod 64))).

Lemma testbit_flipped ws i t : 0 <= i < 64 * zlen ws -> 0 <= t ->
  Z.testbit (zn 0 (flipped ws i) (t / 64)) (t mod 64) = xorb (Z.testbit (zn 0 ws (t / 64)) (t mod 64)) (t =? i).
Proof.
  intros Hi Ht. unfold flipped. rewrite zn_upd by lia. destruct (Z.eqb_spec (t / 64) (i / 64)) as [E|E].
  - rewrite Z.lxor_spec, testbit_pow by lia. rewrite E. replace (t mod 64 =? i mod 64) with (t =? i) by lia. reflexivity.
  - replace (t =? i) with false by lia. rewrite xorb_false_r. reflexivity.
Qed.

Lemma bits_flipped ws i : 0 <= i < 64 * zlen ws -> bits_of_words (flipped ws i) = flip_bit (bits_of_words ws) i.
Proof.
  intros Hi. assert (L : zlen (flipped ws i) = zlen ws) by apply zlen_upd.
  apply (list_ext false).
  - unfold flip_bit. rewrite zlen_upd, !zlen_bits. lia.
  - intros t Ht. rewrite zlen_bits, L in Ht. fold (bit (bits_of_words (flipped ws i)) t).
    unfold flip_bit. rewrite zn_upd by (rewrite ?zlen_bits; lia).
    rewrite bit_words by lia. rewrite testbit_flipped by lia. rewrite <- bit_words by lia.
    destruct (Z.eqb_spec t i).
    + subst. rewrite xorb_true_r. reflexivity.
    + rewrite xorb_false_r. reflexivity.
Qed.

Lemma gbit_flipped ws i t : 0 <= i < 64 * zlen ws -> 0 <= t ->
  gbit (flipped ws i) t = fadd (gbit ws) i (sdelta (bit (bits_of_words ws) i)) t.
Proof.
  intros Hi Ht. unfold gbit, wbit, fadd. rewrite testbit_flipped by auto.
  destruct (Z.eqb_spec t i).
  - subst. rewrite xorb_true_r, bit_words by auto. destruct (Z.testbit _ _); reflexivity.
  - rewrite xorb_false_r. reflexivity.
Qed.

Lemma words_flipped ws i : words ws -> 0 <= i < 64 * zlen ws -> words (flipped ws i).
Proof.
  intros Hw Hi. unfold words. rewrite Forall_forall. intros w Hin. apply In_nth with (d := 0) in Hin.
  destruct Hin as (k & Hk & <-). replace (nth k (flipped ws i) 0) with (zn 0 (flipped ws i) (Z.of_nat k)) by (unfold zn; rewrite Nat2Z.id; reflexivity).
  unfold flipped. rewrite zn_upd by lia. destruct (_ =? _); [|apply words_zn; auto].
  apply flip_word; [apply words_zn; auto|lia].
Qed.

Lemma bm_flip_ok c ty n ws v i : winv ty n ws v -> 0 <= i < zlen (bits_of_words ws) -> align_ok c (ty_fam ty) (v_base v + v_ptr v) ->
  exists m', bm_flip c ty ws v i = Ok (flipped ws i, m') /\ frame (v_mem v) m' (v_ptr v) (zlen (v_mem v)) /\
    forall v', view_upd (ty_height ty) v v' m' -> winv ty n (flipped ws i) v'.
Proof.
  intros Hw Hi HAl. pose proof Hw as (Hsup & HW & E & A & T & HA).
  pose proof (winv_n _ _ _ _ Hw) as Hn. pose proof (winv_size _ _ _ _ Hw) as Hz.
  pose proof (bsz_cases (ty_block ty)) as BC. fold (bsz ty) in BC.
  unfold bm_flip. rewrite massert_true by (rewrite bm_size_ok; lia). cbn [bind].
  rewrite bm_access_ok by auto. cbn [bind]. rewrite zlen_bits in Hi. rewrite geti_ok by lia. cbn [bind].
  rewrite seti_ok by lia. cbn [bind]. rewrite land_63 by lia. fold (flipped ws i). fold (bsz ty).
  set (sg := bit (bits_of_words ws) i) in *.
  pose proof (div_block i (bsz ty) n ltac:(lia) ltac:(lia)) as Hb.
  pose proof (Z.mod_pos_bound i (bsz ty) ltac:(lia)) as Hm.
  pose proof (Z.div_mod i (bsz ty) ltac:(lia)) as Hd.
  set (b := i / bsz ty) in *. set (r := i mod bsz ty) in *. clearbody b r.
  assert (HA' : forall j, 0 <= j < n -> fadd A b (sdelta sg) j = sumf (gbit (flipped ws i)) (bsz ty * j) (bsz ty * (j + 1))).
  { intros j Hj. rewrite (sumf_ext _ (fadd (gbit ws) i (sdelta sg))) by (intros; apply gbit_flipped; lia || nia).
    rewrite sumf_fadd by nia. unfold fadd. rewrite HA by auto. destruct (Z.eqb_spec j b).
    - subst j. replace ((bsz ty * b <=? i) && (i <? bsz ty * (b + 1))) with true by lia. reflexivity.
    - replace ((bsz ty * j <=? i) && (i <? bsz ty * (j + 1))) with false by nia. lia. }
  assert (HB : 0 <= A b + sdelta sg <= bsz ty).
  { specialize (HA' b ltac:(lia)). unfold fadd in HA'. rewrite Z.eqb_refl in HA'. rewrite HA'.
    pose proof (sumf_bound (gbit (flipped ws i)) 1 (bsz ty * b) (bsz ty * (b + 1)) ltac:(lia) ltac:(intros; apply wbit_01)). lia. }
  destruct (tree_update_ok c _ _ _ n v A b sg T ltac:(lia) HB HAl) as (m' & Em & Fm & Vm).
  rewrite Em. cbn [bind]. exists m'. split; auto. split; auto. intros v' Hv'.
  split; auto. split; [apply words_flipped; auto|]. split; [unfold flipped; rewrite zlen_upd; auto|].
  exists (fadd A b (sdelta sg)). split; auto.
Qed.

(** ** Build *)
Lemma popcount_gbit ws j : popcount (zn 0 ws j) = sumf (gbit ws) (64 * j) (64 * (j + 1)).
Proof.
  rewrite popcount_wones. unfold wones.
  replace (sumf (gbit ws) (64 * j) (64 * (j + 1))) with (sumf (gbit ws) (0 + 64 * j) (64 + 64 * j)) by (f_equal; lia).
  rewrite <- sumf_shift. apply sumf_ext. intros t Ht. unfold gbit.
  replace ((t + 64 * j) / 64) with j by lia. replace ((t + 64 * j) mod 64) with t by lia. reflexivity.
Qed.

Lemma block_count_loop ws base : forall k j acc, 0 <= j -> 0 <= base -> base + j + Z.of_nat k <= zlen ws -> 0 <= acc -> acc + 64 * Z.of_nat k < 2 ^ 16 ->
  foldM (fun val j => let* w := geti ws (base + j) in Ok (u16 (val + popcount w))) (zrange j k) acc
  = Ok (acc + sumf (gbit ws) (64 * (base + j)) (64 * (base + j + Z.of_nat k))).
Proof.
  induction k; intros j acc Hj Hb Hk Ha Hm.
  - cbn [zrange foldM]. rewrite sumf_empty by lia. f_equal; lia.
  - cbn [zrange foldM]. rewrite geti_ok by lia. cbn [bind]. rewrite popcount_gbit.
    pose proof (sumf_bound (gbit ws) 1 (64 * (base + j)) (64 * (base + j + 1)) ltac:(lia) ltac:(intros; apply wbit_01)).
    rewrite wrap_small by lia. rewrite IHk by lia. f_equal.
    rewrite (sumf_split (gbit ws) (64 * (base + j)) (64 * (base + j + 1)) (64 * (base + j + Z.of_nat (S k)))) by lia.
    replace (base + (j + 1) + Z.of_nat k) with (base + j + Z.of_nat (S k)) by lia.
    replace (base + (j + 1)) with (base + j + 1) by lia. lia.
Qed.

Definition counts_of (bs : Z) (ws : list Z) (n : Z) : list Z :=
  map (fun b => sumf (gbit ws) (bs * b) (bs * (b + 1))) (zrange 0 (Z.to_nat n)).

Lemma block_counts_ok c bt ws n : 0 <= n -> zlen ws = words_in_block bt * n ->
  block_counts c bt ws = Ok (counts_of (block_size bt) ws n).
Proof.
  intros Hn Hl. unfold block_counts, counts_of.
  assert (Hw : 0 < words_in_block bt) by (destruct bt; reflexivity).
  replace (zlen ws / words_in_block bt) with n by (rewrite Hl, Z.mul_comm, Z.div_mul; lia).
  apply mapM_ok. intros b Hb. apply in_zrange in Hb.
  destruct (block_size_words bt) as [E1 E2].
  assert (C : words_in_block bt <= 8) by (destruct bt; vm_compute; discriminate).
  rewrite block_count_loop; try nia. cbn [bind]. rewrite Z2Nat.id by lia. rewrite Z.add_0_l, Z.add_0_r.
  replace (64 * (b * words_in_block bt)) with (block_size bt * b) by (rewrite E1; ring).
  replace (64 * (b * words_in_block bt + words_in_block bt)) with (block_size bt * (b + 1)) by (rewrite E1; ring).
  rewrite massert_true; [reflexivity|].
  assert (0 < block_size bt) by (destruct bt; reflexivity).
  pose proof (sumf_bound (gbit ws) 1 (block_size bt * b) (block_size bt * (b + 1)) ltac:(lia) ltac:(intros; apply wbit_01)).
  apply Z.leb_le. lia.
Qed.

Lemma zlen_counts bs ws n : 0 <= n -> zlen (counts_of bs ws n) = n.
Proof. intros. unfold counts_of, zlen. rewrite map_length, length_zrange. lia. Qed.

Lemma zn_counts bs ws n b : 0 <= b < n -> zn 0 (counts_of bs ws n) b = sumf (gbit ws) (bs * b) (bs * (b + 1)).
Proof.
  intros. unfold counts_of. rewrite (zn_map _ 0) by (unfold zlen; rewrite length_zrange; lia).
  rewrite zn_zrange by lia. f_equal; f_equal; lia.
Qed.

Lemma tinv_weaken f H mx mx' n v A : tinv f H mx n v A -> mx <= mx' <= 512 -> tinv f H mx' n v A.
Proof.
  intros (H1 & H2 & H3 & H4 & H5 & G & H6 & H7 & H8) Hm. split; auto. split; auto. split; [lia|].
  split; [intros i; specialize (H4 i); lia|]. split; auto. exists G. split; [intros i; specialize (H6 i); lia|]. auto.
Qed.

(** The words of the object after build: the input, then what the vector held,
    then zeros. *)
Definition built_words (bt : btype) (input oldw : list Z) : list Z :=
  input ++ skipn (length input) (resize oldw (words_in_block bt * cdiv (zlen input) (words_in_block bt))).

Lemma zlen_built bt input oldw : zlen (built_words bt input oldw) = words_in_block bt * cdiv (zlen input) (words_in_block bt).
Proof.
  unfold built_words. assert (Hw : 0 < words_in_block bt) by (destruct bt; reflexivity).
  assert (L : zlen input <= words_in_block bt * cdiv (zlen input) (words_in_block bt)) by (unfold cdiv; destruct bt; cbv [words_in_block block_size]; lia).
  rewrite zlen_app. unfold zlen at 2. rewrite skipn_length. fold (zlen input).
  pose proof (zlen_resize oldw (words_in_block bt * cdiv (zlen input) (words_in_block bt)) ltac:(pose proof (zlen_nonneg input); lia)) as R.
  unfold zlen in *. lia.
Qed.

Lemma bm_build_ok c ty input oldw oldm addr : let bt := ty_block ty in let n := cdiv (zlen input) (words_in_block bt) in
  supported bt = true -> words input -> words oldw -> 1 <= n <= 2 ^ 24 -> Z.of_nat (ty_height ty) = tree_height (ty_fam ty) n ->
  let ws := built_words bt input oldw in
  (c_debug c = true -> max_ones (block_size bt) (bits_of_words ws) (max_count (ty_fam ty))) ->
  exists m, bm_build c ty input oldw oldm = Ok (ws, m, n) /\ winv ty n ws (built_view n (ty_height ty) addr m) /\
    zlen m = total_of (ty_fam ty) (ty_height ty) n.
Proof.
  intros bt n Hsup Hin Hold Hn HH ws HD. unfold bm_build. fold bt. fold n.
  assert (Hw : 0 < words_in_block bt) by (destruct bt; reflexivity).
  destruct (block_size_words bt) as [E1 E2].
  assert (Hl : zlen input <= words_in_block bt * n) by (unfold n, cdiv; clear; destruct bt; cbv [words_in_block block_size]; lia).
  rewrite massert_true by (rewrite E1; apply Z.leb_le; nia). cbn [bind].
  change (input ++ skipn (length input) (resize oldw (words_in_block bt * n))) with ws.
  assert (Lw : zlen ws = words_in_block bt * n) by apply zlen_built.
  rewrite (block_counts_ok c bt ws n) by (auto; lia). cbn [bind].
  set (cs := counts_of (block_size bt) ws n).
  assert (Lc : zlen cs = n) by (apply zlen_counts; lia).
  assert (C512 : 64 <= block_size bt <= 512) by (destruct bt; cbn; lia).
  assert (Bc : forall i, 0 <= i < n -> 0 <= zn 0 cs i <= block_size bt).
  { intros i Hi. unfold cs. rewrite zn_counts by auto.
    pose proof (sumf_bound (gbit ws) 1 (block_size bt * i) (block_size bt * (i + 1)) ltac:(lia) ltac:(intros; apply wbit_01)). lia. }
  pose (mx := if c_debug c then Z.min (block_size bt) (max_count (ty_fam ty)) else block_size bt).
  assert (Hmx : 0 <= mx <= block_size bt) by (unfold mx; destruct (c_debug c), (ty_fam ty); cbn [max_count]; lia).
  assert (Bm : forall i, 0 <= i < zlen cs -> 0 <= zn 0 cs i <= mx).
  { rewrite Lc. intros i Hi. pose proof (Bc i Hi). unfold mx. destruct (c_debug c) eqn:ED; auto.
    specialize (HD eq_refl i ltac:(lia)). rewrite zlen_bits, Lw, E1 in HD. specialize (HD ltac:(nia)).
    rewrite <- E1 in HD. rewrite !ones_words in HD by (rewrite Lw; nia).
    unfold cs in *. rewrite zn_counts in * by auto.
    rewrite (sumf_split (gbit ws) 0 (block_size bt * i) (block_size bt * (i + 1))) in HD by nia. lia. }
  destruct (tree_build_ok c (ty_fam ty) (ty_height ty) cs oldm mx addr) as (m & Em & Tm & Zm & _); rewrite ?Lc; auto; try lia.
  { intros ED. unfold mx. rewrite ED. lia. }
  rewrite Em. cbn [bind]. rewrite Lc in *. exists m. split; [rewrite wrap_small by lia; reflexivity|]. split; auto.
  split; auto. split.
  { unfold ws, built_words, words. apply Forall_app. split; auto.
    unfold words in Hold. rewrite Forall_forall in *. intros w Hi.
    assert (I2 : forall (l : list Z) k, In w (skipn k l) -> In w l).
    { intros l k HI. rewrite <- (firstn_skipn k l). apply in_or_app. auto. }
    apply I2 in Hi. unfold resize in Hi. apply in_app_or in Hi as [Hi|Hi].
    - apply Hold. rewrite <- (firstn_skipn (Z.to_nat (words_in_block bt * n)) oldw). apply in_or_app. auto.
    - apply repeat_spec in Hi. subst. lia. }
  split; auto. exists (zn 0 cs). split.
  - eapply tinv_weaken; [exact Tm|]. unfold bsz. fold bt. lia.
  - intros j Hj. unfold cs. rewrite zn_counts by auto. reflexivity.
Qed.

(** ** One object: every call, every sequence of calls *)
Definition binv (ty : btyp) (n : Z) (b : bitmap) (B : list bool) : Prop :=
  winv ty n (b_words b) (own_view ty b) /\ bits_of_words (b_words b) = B /\
  zlen (b_data b) = total_of (ty_fam ty) (ty_height ty) n.

Definition addr_ok (c : cfg) (ty : btyp) (addr : Z) : Prop := align_ok c (ty_fam ty) (addr + Z.of_nat (ty_height ty) * 4).

Lemma header_room f H n : 1 <= n -> Z.of_nat H * 4 <= total_of f H n \/ (4 < H)%nat.
Proof.
  intros Hn. assert (C : forall k, 0 < k -> 0 <= cdiv n k) by (intros; unfold cdiv; apply Z.div_pos; lia).
  pose proof (C 128 ltac:(lia)). pose proof (C 8192 ltac:(lia)). pose proof (C 524288 ltac:(lia)).
  pose proof (C 512 ltac:(lia)). pose proof (C 131072 ltac:(lia)). clear C.
  destruct f, H as [|[|[|[|[|H]]]]]; cbn [total_of]; change (Z.of_nat 0) with 0; change (Z.of_nat 1) with 1; change (Z.of_nat 2) with 2; change (Z.of_nat 3) with 3; change (Z.of_nat 4) with 4; lia.
Qed.

Lemma tinv_height f H mx n v A : tinv f H mx n v A -> (H <= 4)%nat.
Proof. intros (_ & _ & _ & _ & _ & G & _ & _ & L). destruct f, H as [|[|[|[|[|H]]]]]; cbn [levels_inv] in L; try contradiction; lia. Qed.

Lemma own_view_upd ty n b ws m : binv ty n b (bits_of_words (b_words b)) -> frame (b_data b) m (Z.of_nat (ty_height ty) * 4) (zlen (b_data b)) ->
  view_upd (ty_height ty) (own_view ty b) (own_view ty {| b_words := ws; b_data := m; b_addr := b_addr b; b_n := b_n b |}) m.
Proof.
  intros (Hw & _ & Hz) F. split; [reflexivity|]. split; [reflexivity|]. split; [reflexivity|].
  intros k Hk. cbn [own_view v_nn b_data]. pose proof (proj1 F) as FL.
  pose proof Hw as (_ & _ & _ & A & T & _). pose proof (tinv_height _ _ _ _ _ _ T).
  destruct (header_room (ty_fam ty) (ty_height ty) n) as [R|R]; [apply (winv_n _ _ _ _ Hw)| |lia].
  rewrite !load_ok by lia. f_equal. eapply frame_rd; [exact F|lia|lia].
Qed.

(** Only flip needs the address. *)
Definition op_addr_ok (c : cfg) (ty : btyp) (addr : Z) (o : op) : Prop :=
  match o with Flip _ => addr_ok c ty addr | _ => True end.

Lemma step_ok c ty n b s B o : binv ty n b B -> statics_ok (ty_block ty) s -> op_addr_ok c ty (b_addr b) o ->
  valid_op B o -> (match o with Select k => select_safe c ty B k | _ => True end) ->
  exists a b' s', step c ty (b, s) o = Ok (a, (b', s')) /\ answer_ok B o a /\ b_addr b' = b_addr b /\
    binv ty n b' (contents_after B o) /\ statics_ok (ty_block ty) s'.
Proof.
  intros Hb Hs Ha Ho Hv. pose proof Hb as (Hw & <- & Hz). destruct o as [i|i|i|k| |]; cbn [step valid_op contents_after op_addr_ok] in *.
  - destruct (bm_flip_ok c ty n (b_words b) (own_view ty b) i Hw Ho Ha) as (m' & E & F & V). rewrite E. cbn [bind].
    eexists _, _, s. split; [reflexivity|]. split; [exact I|]. split; [reflexivity|]. split; auto.
    split; [|split].
    + apply V. cbn [b_words]. apply (own_view_upd ty n); auto.
    + cbn [b_words]. apply bits_flipped. rewrite zlen_bits in Ho. auto.
    + cbn [b_data]. rewrite <- Hz. apply F.
  - rewrite bm_access_ok by auto. cbn [bind]. eexists _, b, s. split; [reflexivity|]. cbn [answer_ok]. auto.
  - destruct (bm_rank_ok c ty s n (b_words b) (own_view ty b) i Hw Hs Ho) as (s' & E & Hs'). rewrite E. cbn [bind].
    eexists _, b, s'. split; [reflexivity|]. cbn [answer_ok]. auto.
  - destruct (bm_select_ok c ty s n (b_words b) (own_view ty b) k Hw Hs Ho Hv) as (p & s' & E & Hp & Hs'). rewrite E. cbn [bind].
    eexists _, b, s'. split; [reflexivity|]. cbn [answer_ok]. auto.
  - eexists _, b, s. split; [reflexivity|]. cbn [answer_ok]. rewrite bm_size_ok. auto.
  - eexists _, b, s. split; [reflexivity|]. cbn [answer_ok]. split; auto. split; auto. apply Hw.
Qed.

Lemma run_ops_ok c ty n : forall ops b s B, binv ty n b B -> statics_ok (ty_block ty) s -> Forall (op_addr_ok c ty (b_addr b)) ops ->
  valid_ops B ops -> selects_safe c ty B ops ->
  exists outs b' s', run c ty (b, s) ops = Ok (outs, (b', s')) /\ answers_ok B ops outs /\ b_addr b' = b_addr b /\ binv ty n b' (contents_after_all B ops) /\ statics_ok (ty_block ty) s'.
Proof.
  induction ops as [|o ops IH]; intros b s B Hb Hs Ha Hv Hsel.
  - eexists [], b, s. split; [reflexivity|]. cbn. auto.
  - cbn [run]. destruct Hv as [Hv1 Hv2]. destruct Hsel as [Hs1 Hs2]. inversion Ha as [|? ? Hao Har]; subst.
    destruct (step_ok c ty n b s B o Hb Hs Hao Hv1 Hs1) as (a & b1 & s1 & E & A1 & Ha1 & Hb1 & Hst1). rewrite E. cbn [bind].
    destruct (IH b1 s1 (contents_after B o) Hb1 Hst1 ltac:(rewrite Ha1; auto) Hv2 Hs2) as (outs & b2 & s2 & E2 & A2 & Ha2 & Hb2 & Hst2).
    rewrite E2. cbn [bind]. eexists _, _, _. split; [reflexivity|]. cbn [answers_ok contents_after_all].
    split; auto. split; [congruence|]. auto.
Qed.

Lemma run_ok c ty n ops b s B : binv ty n b B -> statics_ok (ty_block ty) s -> addr_ok c ty (b_addr b) ->
  valid_ops B ops -> selects_safe c ty B ops ->
  exists outs b' s', run c ty (b, s) ops = Ok (outs, (b', s')) /\ answers_ok B ops outs /\ b_addr b' = b_addr b /\ binv ty n b' (contents_after_all B ops) /\ statics_ok (ty_block ty) s'.
Proof.
  intros Hb Hs Ha. apply run_ops_ok; auto. apply Forall_forall. intros [] _; cbn [op_addr_ok]; auto.
Qed.
