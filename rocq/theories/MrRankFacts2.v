(** The queries of RankBasic64. *)
From Coq Require Import ZifyBool.
From Verif Require Import Base BaseFacts Words WordFacts BlockFacts NodeFacts Trees TreeBuild MemFacts Spec BitmapFacts KernelFacts SpecPoppy PoppyFacts PoppyFacts2 SpecText MrRank MrRankFacts.
Ltac Zify.zify_post_hook ::= Z.div_mod_to_equations.

(** ** Masks *)
Lemma masks_bits : forallb (fun k => forallb (fun j => Bool.eqb (Z.testbit (zn 0 masks k) j) (64 - k <=? j)) (zrange 0 64)) (zrange 0 64) = true.
Proof. vm_compute. reflexivity. Qed.
Lemma mask_bit k j : 0 <= k < 64 -> 0 <= j < 64 -> Z.testbit (zn 0 masks k) j = (64 - k <=? j).
Proof.
  intros Hk Hj. pose proof masks_bits as F. rewrite forallb_forall in F. specialize (F k ltac:(apply in_zrange; lia)).
  rewrite forallb_forall in F. specialize (F j ltac:(apply in_zrange; lia)). apply eqb_prop. exact F.
Qed.
Lemma mask_count w k : 0 <= k < 64 -> popcount (Z.land w (zn 0 masks k)) = sumf (fun p => wbit w (63 - p)) 0 k.
Proof.
  intros Hk. rewrite popcount_wones. unfold wones. rewrite <- (sum_wb 64) by lia. unfold wb.
  rewrite (sumf_split _ 0 k 64) by lia. rewrite (sumf_const0 _ k 64), Z.add_0_r.
  - apply sumf_ext. intros p Hp. unfold wbit. rewrite Z.land_spec, mask_bit by lia. replace (64 - k <=? 64 - 1 - p) with true by lia. rewrite andb_true_r. reflexivity.
  - intros p Hp. unfold wbit. rewrite Z.land_spec, mask_bit by lia. replace (64 - k <=? 64 - 1 - p) with false by lia. rewrite andb_false_r. reflexivity.
Qed.
Lemma zlen_masks : zlen masks = 64.
Proof. reflexivity. Qed.

(** ** Counting inside a block *)
Lemma count_block_ok t b bits p i : text_ok t -> zlen t < 2 ^ 58 -> 0 <= b < nblk t -> 0 <= p -> p + 8 <= zlen bits ->
  (forall k, 0 <= k < 8 -> zn 0 bits (p + k) = tword t (8 * b + k)) -> 0 <= i < 512 ->
  count_block bits p i (ts t 0 (512 * b)) = Ok (ts t 0 (512 * b + i)).
Proof.
  intros H Hl Hb Hp Hpl W Hi. unfold count_block. pose proof (zlen_nonneg t). assert (NB : nblk t <= 2 ^ 53) by (unfold nblk; lia).
  destruct (foldM_inv (fun r j => let* w := geti bits (p + j) in Ok (u64 (r + popcount w))) (fun j r => r = ts t 0 (512 * b + 64 * j)) (Z.to_nat (i / 64)) 0 (ts t 0 (512 * b))) as (r & -> & R).
  - rewrite Z.mul_0_r, Z.add_0_r. reflexivity.
  - intros k s Hk ->. rewrite geti_ok by lia. cbn [bind]. eexists. split; [reflexivity|].
    rewrite W by lia. rewrite popcount_tword by (auto; lia). replace (64 * (8 * b + k)) with (512 * b + 64 * k) by lia.
    rewrite <- ts_split by lia. replace (512 * b + 64 * (k + 1)) with (512 * b + 64 * k + 64) by lia.
    apply wrap_small. pose proof (ts_bound t 0 (512 * b + 64 * k + 64) ltac:(lia)). lia.
  - cbn [bind]. rewrite geti_ok by lia. cbn [bind]. rewrite geti_ok by (rewrite zlen_masks; lia). cbn [bind]. f_equal.
    rewrite W by lia. rewrite mask_count by lia. rewrite tword_bits by (auto; lia). subst r.
    replace (0 + Z.of_nat (Z.to_nat (i / 64))) with (i / 64) by lia. replace (64 * (8 * b + i / 64)) with (512 * b + 64 * (i / 64)) by lia.
    rewrite <- ts_split by lia. replace (512 * b + 64 * (i / 64) + (i - 64 * (i / 64))) with (512 * b + i) by lia.
    apply wrap_small. pose proof (ts_bound t 0 (512 * b + i) ltac:(lia)). lia.
Qed.

(** The header decides whether the block is kept. *)
Definition answer (rank next i : Z) (k : res Z) : res Z :=
  let diff := u64 (next - rank) in
  if Z.land diff 511 =? 0 then Ok (u64 (rank + u64 (i * Z.shiftr diff 9))) else k.

Lemma answer_ok t b i k : text_ok t -> zlen t < 2 ^ 58 -> 0 <= b < nblk t -> 0 <= i < 512 ->
  (homob t b = false -> k = Ok (ts t 0 (512 * b + i))) ->
  answer (ts t 0 (512 * b)) (ts t 0 (512 * (b + 1))) i k = Ok (ts t 0 (512 * b + i)).
Proof.
  intros H Hl Hb Hi Hk. unfold answer. pose proof (zlen_nonneg t). assert (NB : nblk t <= 2 ^ 53) by (unfold nblk; lia).
  pose proof (ts_split t 0 (512 * b) (512 * (b + 1)) ltac:(lia)) as S1. pose proof (ts_bound t (512 * b) (512 * (b + 1)) ltac:(lia)) as B1.
  pose proof (ts_bound t 0 (512 * b) ltac:(lia)) as B0. pose proof (ts_split t 0 (512 * b) (512 * b + i) ltac:(lia)) as S2.
  pose proof (ts_bound t (512 * b) (512 * b + i) ltac:(lia)) as B2.
  set (d := ts t (512 * b) (512 * (b + 1))) in *.
  replace (u64 (ts t 0 (512 * (b + 1)) - ts t 0 (512 * b))) with d by (rewrite wrap_small; lia).
  change 511 with (Z.ones 9). rewrite Z.land_ones, Z.shiftr_div_pow2 by lia. change (2 ^ 9) with 512.
  destruct (d mod 512 =? 0) eqn:E.
  - f_equal. destruct (Z.eq_dec d 0) as [E0|E0].
    + rewrite E0. change (0 / 512) with 0. rewrite Z.mul_0_r. change (u64 0) with 0. rewrite Z.add_0_r.
      assert (G : ts t (512 * b) (512 * b + i) = 0) by (apply ts_all0; intros; apply (ts_zero t (512 * b) (512 * (b + 1))); fold d; lia).
      rewrite wrap_small; lia.
    + assert (E1 : d = 512) by lia. rewrite E1. change (512 / 512) with 1. rewrite Z.mul_1_r.
      assert (G : ts t (512 * b) (512 * b + i) = i).
      { rewrite ts_all1; [lia|lia|]. intros; apply (ts_full t (512 * b) (512 * (b + 1))); fold d; lia. }
      rewrite (wrap_small 64 i) by lia. rewrite wrap_small; lia.
  - apply Hk. unfold homob. fold d. lia.
Qed.

(** ** Allocation *)
Lemma zlen_fresh j n : 0 <= n -> zlen (fresh j n) = n.
Proof. intros H. unfold fresh. rewrite zlen_map. unfold zlen. rewrite length_zrange. lia. Qed.
Lemma zn_fresh j n k : 0 <= k < n -> zn 0 (fresh j n) k = j k.
Proof. intros H. unfold fresh. rewrite zn_map_zrange by lia. f_equal. Qed.
(** The words past the end that alignment leaves. *)
Definition slack (addr : Z) : Z := 16 - ((- addr) mod 128) / 8.
Lemma slack_ok addr : addr mod 16 = 0 -> 2 <= slack addr <= 16.
Proof. intros H. unfold slack. lia. Qed.
Lemma zlen_aligned j a n : a mod 16 = 0 -> 0 <= n -> zlen (fresh_aligned j a n) = n + slack a.
Proof. intros H Hn. unfold fresh_aligned. pose proof (slack_ok a H). unfold slack in *. rewrite zlen_fresh; lia. Qed.
Lemma zn_aligned j a n k : 0 <= k < n + slack a -> zn 0 (fresh_aligned j a n) k = j k.
Proof. intros H. unfold fresh_aligned, slack in *. apply zn_fresh. lia. Qed.

(** ** Standard headers *)
Definition stdP (m : memory) (t : list Z) (r : rank_basic) : Prop :=
  zlen (rb_ranks r) = 2 * nblk t + 1 + slack (m_addr_r m) /\ zlen (rb_bits r) = 8 * ne t (nblk t) + slack (m_addr_b m) /\
  rb_ranks_len r = 2 * nblk t + 1 /\ rb_bits_len r = 8 * ne t (nblk t) /\ rb_text_len r = zlen t /\
  (forall c, 0 <= c <= nblk t -> zn 0 (rb_ranks r) (2 * c) = ts t 0 (512 * c)) /\
  (forall c, 0 <= c < nblk t -> zn 0 (rb_ranks r) (2 * c + 1) = 8 * ne t c) /\
  (forall k, 2 * nblk t < k < 2 * nblk t + 1 + slack (m_addr_r m) -> zn 0 (rb_ranks r) k = m_junk_r m k) /\
  (forall c k, 0 <= c < nblk t -> homob t c = false -> 0 <= k < 8 -> zn 0 (rb_bits r) (8 * ne t c + k) = tword t (8 * c + k)).

Lemma build_std_ok m t : addresses_ok m -> text_ok t -> zlen t < 2 ^ 58 -> exists r, build_std m t = Ok r /\ stdP m t r.
Proof.
  intros (A1 & A2 & A3 & A4) H Hl. unfold build_std. rewrite empty_blocks_ok by (auto; lia). cbn [bind]. rewrite not_empty_ok, block_count_ok by lia.
  pose proof (nblk_nonneg t) as N0. pose proof (ne_bound t (nblk t) N0) as NB. pose proof (slack_ok _ A2). pose proof (slack_ok _ A4).
  destruct (scan_ok t (fresh_aligned (m_junk_r m) (m_addr_r m) (2 * nblk t + 1)) (fresh_aligned (m_junk_b m) (m_addr_b m) (ne t (nblk t) * 8)) H Hl)
    as (r1 & b1 & -> & L1 & L2 & P1 & P2 & P3 & P4 & P5).
  - rewrite zlen_aligned; lia.
  - rewrite zlen_aligned; lia.
  - cbn [bind]. eexists. split; [reflexivity|]. unfold stdP. cbn [rb_ranks rb_bits rb_ranks_len rb_bits_len rb_text_len].
    rewrite zlen_aligned in L1, L2 by lia. split; [exact L1|]. split; [lia|]. split; [reflexivity|]. split; [lia|]. split; [reflexivity|].
    split; [exact P1|]. split; [exact P2|]. split; [|exact P4]. intros k Hk. rewrite P3 by lia. apply zn_aligned. lia.
Qed.

Lemma rank_std_in m t r i : addresses_ok m -> text_ok t -> zlen t < 2 ^ 58 -> stdP m t r -> 0 <= i < 512 * nblk t -> rank_std r i = Ok (ts t 0 i).
Proof.
  intros (A1 & A2 & A3 & A4) H Hl (L1 & L2 & _ & _ & _ & P1 & P2 & P3 & P4) Hi. unfold rank_std.
  pose proof (slack_ok _ A2). pose proof (slack_ok _ A4). set (b := i / 512). assert (Hb : 0 <= b < nblk t) by lia.
  rewrite geti_ok by lia. cbn [bind]. replace (2 * b + 2) with (2 * (b + 1)) by lia. rewrite geti_ok by lia. cbn [bind]. rewrite !P1 by lia.
  change (answer (ts t 0 (512 * b)) (ts t 0 (512 * (b + 1))) (i mod 512)
    (let* p := geti (rb_ranks r) (2 * b + 1) in count_block (rb_bits r) p (i mod 512) (ts t 0 (512 * b))) = Ok (ts t 0 i)).
  rewrite answer_ok; auto; [do 2 f_equal; lia|lia|]. intros E. rewrite geti_ok by lia. cbn [bind]. rewrite P2 by lia.
  pose proof (ne_lt t b (nblk t) ltac:(lia) E). pose proof (ne_bound t b ltac:(lia)).
  apply count_block_ok; auto; try lia.
Qed.

(** At the end of a text of whole blocks the answer rests on two words never written. *)
Lemma rank_std_end m t r : addresses_ok m -> text_ok t -> zlen t < 2 ^ 58 -> stdP m t r ->
  rank_std r (512 * nblk t) =
    if (Z.land (u64 (m_junk_r m (2 * nblk t + 2) - ts t 0 (512 * nblk t))) 511 =? 0) ||
       ((0 <=? m_junk_r m (2 * nblk t + 1)) && (m_junk_r m (2 * nblk t + 1) <? 8 * ne t (nblk t) + slack (m_addr_b m)))
    then Ok (ts t 0 (512 * nblk t)) else Ub UB_bounds.
Proof.
  intros (A1 & A2 & A3 & A4) H Hl (L1 & L2 & _ & _ & _ & P1 & P2 & P3 & P4). unfold rank_std.
  pose proof (slack_ok _ A2). pose proof (slack_ok _ A4). set (n := nblk t) in *. pose proof (nblk_nonneg t) as N0. fold n in N0.
  pose proof (zlen_nonneg t). assert (NB : n <= 2 ^ 53) by (unfold n, nblk; lia).
  pose proof (ts_bound t 0 (512 * n) ltac:(lia)) as TB.
  replace (512 * n / 512) with n by lia. replace ((512 * n) mod 512) with 0 by lia.
  rewrite !geti_ok by lia. cbn [bind]. rewrite P1 by lia. rewrite P3 by lia.
  destruct (Z.land (u64 (m_junk_r m (2 * n + 2) - ts t 0 (512 * n))) 511 =? 0) eqn:E; cbn [orb].
  - f_equal. rewrite Z.mul_0_l. change (u64 0) with 0. rewrite Z.add_0_r. apply wrap_small. lia.
  - rewrite P3 by lia. unfold count_block. change (0 / 64) with 0.
    cbn [Z.to_nat zrange foldM bind]. rewrite Z.add_0_r. change (0 - 64 * 0) with 0. unfold geti at 1. rewrite L2.
    destruct ((0 <=? m_junk_r m (2 * n + 1)) && (m_junk_r m (2 * n + 1) <? 8 * ne t n + slack (m_addr_b m))); [|reflexivity].
    cbn [bind]. change (geti masks 0) with (@Ok Z 0). cbn [bind]. rewrite Z.land_0_r. change (popcount 0) with 0. rewrite Z.add_0_r. f_equal. apply wrap_small. lia.
Qed.
