(** The queries of RankBasic32, standard headers. *)
From Coq Require Import ZifyBool.
From Verif Require Import Base BaseFacts Words WordFacts BlockFacts NodeFacts Trees TreeBuild MemFacts Spec BitmapFacts KernelFacts SpecPoppy PoppyFacts PoppyFacts2 SpecText MrRank MrRankFacts MrRankFacts2 MrRank32 MrRank32Facts.
Ltac Zify.zify_post_hook ::= Z.div_mod_to_equations.

Lemma count_block32_ok t b bits p i : text_ok t -> 0 <= b -> 512 * b + i < 2 ^ 32 -> 0 <= p -> p + 8 <= zlen bits ->
  (forall k, 0 <= k < 8 -> zn 0 bits (p + k) = tword t (8 * b + k)) -> 0 <= i < 512 ->
  count_block32 bits p i (ts t 0 (512 * b)) = Ok (ts t 0 (512 * b + i)).
Proof.
  intros H Hb Hbi Hp Hpl W Hi. unfold count_block32.
  destruct (foldM_inv (fun r j => let* w := geti bits (p + j) in Ok (u32 (r + popcount w))) (fun j r => r = ts t 0 (512 * b + 64 * j)) (Z.to_nat (i / 64)) 0 (ts t 0 (512 * b))) as (r & -> & R).
  - rewrite Z.mul_0_r, Z.add_0_r. reflexivity.
  - intros k s Hk ->. rewrite geti_ok by lia. cbn [bind]. eexists. split; [reflexivity|].
    rewrite W by lia. rewrite popcount_tword by (auto; lia). replace (64 * (8 * b + k)) with (512 * b + 64 * k) by lia.
    rewrite <- ts_split by lia. replace (512 * b + 64 * (k + 1)) with (512 * b + 64 * k + 64) by lia.
    apply wrap_small. pose proof (ts_bound t 0 (512 * b + 64 * k + 64) ltac:(lia)). lia.
  - cbn [bind]. rewrite geti_ok by lia. cbn [bind]. rewrite geti_ok by (rewrite zlen_masks; lia). cbn [bind]. f_equal.
    rewrite W by lia. rewrite mask_count by lia. rewrite tword_bits by (auto; lia). subst r.
    replace (0 + Z.of_nat (Z.to_nat (i / 64))) with (i / 64) by lia. replace (64 * (8 * b + i / 64)) with (512 * b + 64 * (i / 64)) by lia.
    rewrite <- ts_split by lia. replace (512 * b + 64 * (i / 64) + (i - 64 * (i / 64))) with (512 * b + i) by lia.
    apply wrap_small. pose proof (ts_bound t 0 (512 * b + i) ltac:(lia)). lia.
Qed.

Definition answer32 (rank next i : Z) (k : res Z) : res Z :=
  let diff := u32 (next - rank) in
  if Z.land diff 511 =? 0 then Ok (u32 (rank + u32 (i * Z.shiftr diff 9))) else k.

Lemma ts_small t x : 0 <= x < 2 ^ 32 -> u32 (ts t 0 x) = ts t 0 x.
Proof. intros H. apply wrap_small. pose proof (ts_bound t 0 x ltac:(lia)). lia. Qed.
Lemma wrap_sub_l w a b : wrap w (wrap w a - b) = wrap w (a - b).
Proof. unfold wrap. rewrite Zminus_mod_idemp_l. reflexivity. Qed.

Lemma answer32_ok t b i k : 0 <= b -> 512 * b + i < 2 ^ 32 -> 0 <= i < 512 ->
  (homob t b = false -> k = Ok (ts t 0 (512 * b + i))) ->
  answer32 (ts t 0 (512 * b)) (u32 (ts t 0 (512 * (b + 1)))) i k = Ok (ts t 0 (512 * b + i)).
Proof.
  intros Hb Hbi Hi Hk. unfold answer32.
  pose proof (ts_split t 0 (512 * b) (512 * (b + 1)) ltac:(lia)) as S1. pose proof (ts_bound t (512 * b) (512 * (b + 1)) ltac:(lia)) as B1.
  pose proof (ts_bound t 0 (512 * b) ltac:(lia)) as B0. pose proof (ts_split t 0 (512 * b) (512 * b + i) ltac:(lia)) as S2.
  pose proof (ts_bound t (512 * b) (512 * b + i) ltac:(lia)) as B2.
  set (d := ts t (512 * b) (512 * (b + 1))) in *. rewrite wrap_sub_l.
  replace (u32 (ts t 0 (512 * (b + 1)) - ts t 0 (512 * b))) with d by (rewrite wrap_small; lia).
  change 511 with (Z.ones 9). rewrite Z.land_ones, Z.shiftr_div_pow2 by lia. change (2 ^ 9) with 512.
  destruct (d mod 512 =? 0) eqn:E.
  - f_equal. destruct (Z.eq_dec d 0) as [E0|E0].
    + rewrite E0. change (0 / 512) with 0. rewrite Z.mul_0_r. change (u32 0) with 0. rewrite Z.add_0_r.
      assert (G : ts t (512 * b) (512 * b + i) = 0) by (apply ts_all0; intros; apply (ts_zero t (512 * b) (512 * (b + 1))); fold d; lia).
      rewrite wrap_small; lia.
    + assert (E1 : d = 512) by lia. rewrite E1. change (512 / 512) with 1. rewrite Z.mul_1_r.
      assert (G : ts t (512 * b) (512 * b + i) = i).
      { rewrite ts_all1; [lia|lia|]. intros; apply (ts_full t (512 * b) (512 * (b + 1))); fold d; lia. }
      rewrite (wrap_small 32 i) by lia. rewrite wrap_small; lia.
  - apply Hk. unfold homob. fold d. lia.
Qed.

(** ** Allocation *)
Definition slack32 (addr : Z) : Z := 32 - ((- addr) mod 128) / 4.
Lemma slack32_ok addr : addr mod 16 = 0 -> 4 <= slack32 addr <= 32.
Proof. intros H. unfold slack32. lia. Qed.
Lemma zlen_fresh32 j n : 0 <= n -> zlen (fresh32 j n) = n.
Proof. apply zlen_fresh. Qed.
Lemma zlen_aligned32 j a n : a mod 16 = 0 -> 0 <= n < 2 ^ 31 -> zlen (fresh_aligned32 j a n) = n + slack32 a.
Proof. intros H Hn. unfold fresh_aligned32. pose proof (slack32_ok a H). unfold slack32 in *. rewrite wrap_small by lia. rewrite zlen_fresh32; lia. Qed.
Lemma zn_aligned32 j a n k : a mod 16 = 0 -> 0 <= n < 2 ^ 31 -> 0 <= k < n + slack32 a -> zn 0 (fresh_aligned32 j a n) k = u32 (j k).
Proof. intros H Hn Hk. unfold fresh_aligned32, slack32 in *. rewrite wrap_small by lia. unfold fresh32. rewrite zn_fresh by lia. reflexivity. Qed.

(** ** Standard headers *)
Definition stdP32 (m : memory) (t : list Z) (r : rank_basic) : Prop :=
  zlen (rb_ranks r) = 2 * nblk t + 1 + slack32 (m_addr_r m) /\ zlen (rb_bits r) = 8 * ne t (nblk t) + slack (m_addr_b m) /\
  rb_ranks_len r = 2 * nblk t + 1 /\ rb_bits_len r = 8 * ne t (nblk t) /\ rb_text_len r = zlen t /\
  (forall c, 0 <= c <= nblk t -> zn 0 (rb_ranks r) (2 * c) = u32 (ts t 0 (512 * c))) /\
  (forall c, 0 <= c < nblk t -> zn 0 (rb_ranks r) (2 * c + 1) = 8 * ne t c) /\
  (forall k, 2 * nblk t < k < 2 * nblk t + 1 + slack32 (m_addr_r m) -> zn 0 (rb_ranks r) k = u32 (m_junk_r m k)) /\
  (forall c k, 0 <= c < nblk t -> homob t c = false -> 0 <= k < 8 -> zn 0 (rb_bits r) (8 * ne t c + k) = tword t (8 * c + k)).

Lemma build_std32_ok m t : addresses_ok m -> text_ok t -> zlen t <= 2 ^ 32 - 64 -> exists r, build_std32 m t = Ok r /\ stdP32 m t r.
Proof.
  intros (A1 & A2 & A3 & A4) H Hl. unfold build_std32. rewrite empty_blocks32_ok by (auto; lia). cbn [bind]. rewrite not_empty_ok, block_count32_ok by lia.
  pose proof (nblk32 t Hl) as N0. pose proof (ne_bound t (nblk t) ltac:(lia)) as NB. pose proof (slack32_ok _ A2). pose proof (slack_ok _ A4).
  rewrite !wrap_small by lia.
  destruct (scan_ok32 8 t (fresh_aligned32 (m_junk_r m) (m_addr_r m) (2 * nblk t + 1)) (fresh_aligned (m_junk_b m) (m_addr_b m) (ne t (nblk t) * 8)) (or_introl eq_refl) H Hl)
    as (r1 & b1 & -> & L1 & L2 & P1 & P2 & P3 & P4 & P5).
  - rewrite zlen_aligned32; lia.
  - rewrite zlen_aligned; [change (64 / 8) with 8|..]; lia.
  - rewrite zlen_aligned; lia.
  - change (64 / 8) with 8 in *. cbn [bind]. eexists. split; [reflexivity|]. unfold stdP32. cbn [rb_ranks rb_bits rb_ranks_len rb_bits_len rb_text_len].
    rewrite zlen_aligned32 in L1 by lia. rewrite zlen_aligned in L2 by lia. split; [exact L1|]. split; [lia|]. split; [reflexivity|]. split; [lia|]. split; [reflexivity|].
    split; [exact P1|]. split; [exact P2|]. split; [|exact P4]. intros k Hk. rewrite P3 by lia. apply zn_aligned32; lia.
Qed.

Lemma rank_std32_in m t r i : addresses_ok m -> text_ok t -> zlen t <= 2 ^ 32 - 64 -> stdP32 m t r -> 0 <= i < 512 * nblk t -> i < 2 ^ 32 -> rank_std32 r i = Ok (ts t 0 i).
Proof.
  intros (A1 & A2 & A3 & A4) H Hl (L1 & L2 & _ & _ & _ & P1 & P2 & P3 & P4) Hi Hi2. unfold rank_std32.
  pose proof (slack32_ok _ A2). pose proof (slack_ok _ A4). set (b := i / 512). assert (Hb : 0 <= b < nblk t) by lia.
  rewrite geti_ok by lia. cbn [bind]. replace (2 * b + 2) with (2 * (b + 1)) by lia. rewrite geti_ok by lia. cbn [bind]. rewrite !P1 by lia. rewrite (ts_small t (512 * b)) by lia.
  change (answer32 (ts t 0 (512 * b)) (u32 (ts t 0 (512 * (b + 1)))) (i mod 512)
    (let* p := geti (rb_ranks r) (2 * b + 1) in count_block32 (rb_bits r) p (i mod 512) (ts t 0 (512 * b))) = Ok (ts t 0 i)).
  rewrite answer32_ok; auto; [do 2 f_equal; lia|lia|lia|lia|]. intros E. rewrite geti_ok by lia. cbn [bind]. rewrite P2 by lia.
  pose proof (ne_lt t b (nblk t) ltac:(lia) E). pose proof (ne_bound t b ltac:(lia)).
  apply count_block32_ok; auto; try lia.
Qed.

Lemma rank_std32_end m t r : addresses_ok m -> text_ok t -> zlen t <= 2 ^ 32 - 64 -> stdP32 m t r -> 512 * nblk t < 2 ^ 32 ->
  rank_std32 r (512 * nblk t) =
    if (Z.land (u32 (m_junk_r m (2 * nblk t + 2) - ts t 0 (512 * nblk t))) 511 =? 0) ||
       (u32 (m_junk_r m (2 * nblk t + 1)) <? 8 * ne t (nblk t) + slack (m_addr_b m))
    then Ok (ts t 0 (512 * nblk t)) else Ub UB_bounds.
Proof.
  intros (A1 & A2 & A3 & A4) H Hl (L1 & L2 & _ & _ & _ & P1 & P2 & P3 & P4) Hs. unfold rank_std32.
  pose proof (slack32_ok _ A2). pose proof (slack_ok _ A4). pose proof (nblk32 t Hl) as N0. set (n := nblk t) in *.
  pose proof (ts_bound t 0 (512 * n) ltac:(lia)) as TB.
  replace (512 * n / 512) with n by lia. replace ((512 * n) mod 512) with 0 by lia.
  rewrite !geti_ok by lia. cbn [bind]. rewrite P1 by lia. rewrite P3 by lia. rewrite (ts_small t (512 * n)) by lia. rewrite wrap_sub_l.
  destruct (Z.land (u32 (m_junk_r m (2 * n + 2) - ts t 0 (512 * n))) 511 =? 0) eqn:E; cbn [orb].
  - f_equal. rewrite Z.mul_0_l. change (u32 0) with 0. rewrite Z.add_0_r. apply wrap_small. lia.
  - rewrite P3 by lia. unfold count_block32. change (0 / 64) with 0.
    cbn [Z.to_nat zrange foldM bind]. rewrite Z.add_0_r. change (0 - 64 * 0) with 0. unfold geti at 1. rewrite L2.
    pose proof (wrap_bound 32 (m_junk_r m (2 * n + 1)) ltac:(lia)) as WB. replace (0 <=? u32 (m_junk_r m (2 * n + 1))) with true by lia. cbn [andb].
    destruct (u32 (m_junk_r m (2 * n + 1)) <? 8 * ne t n + slack (m_addr_b m)); [|reflexivity].
    cbn [bind]. change (geti masks 0) with (@Ok Z 0). cbn [bind]. rewrite Z.land_0_r. change (popcount 0) with 0. rewrite Z.add_0_r. f_equal. apply wrap_small. lia.
Qed.

(** Texts longer than 2^32 - 64 bytes: extendedTextLen wraps to 0. *)
Lemma block_count_top n : 2 ^ 32 - 64 < n < 2 ^ 32 -> block_count32 n = 0.
Proof.
  intros H. unfold block_count32, extended_len32. replace (n mod 64 >? 0) with true by lia. replace (n + (64 - n mod 64)) with (2 ^ 32) by lia. reflexivity.
Qed.
Lemma std32_top m t : addresses_ok m -> 2 ^ 32 - 64 < zlen t < 2 ^ 32 ->
  exists r, build_std32 m t = Ok r /\ basic_size32 r = 24 + 33 * 4 /\ forall i, 8192 <= i < 2 ^ 32 -> rank_std32 r i = Ub UB_bounds.
Proof.
  intros (A1 & A2 & A3 & A4) Hl. unfold build_std32, empty_blocks32. rewrite block_count_top by lia. cbn [Z.to_nat zrange mapM bind].
  change (not_empty []) with 0. change (u32 (0 * 8)) with 0. change (u32 (2 * 0 + 1)) with 1. unfold scan32. rewrite block_count_top by lia. cbn [Z.to_nat zrange foldM bind].
  pose proof (slack32_ok _ A2) as SO. assert (LZ : zlen (fresh_aligned32 (m_junk_r m) (m_addr_r m) 1) = 1 + slack32 (m_addr_r m)) by (apply zlen_aligned32; lia).
  rewrite seti_ok by lia. cbn [bind]. eexists. split; [reflexivity|]. split; [reflexivity|]. intros i Hi. unfold rank_std32. cbn [rb_ranks].
  unfold geti at 1. rewrite zlen_upd, LZ. replace ((0 <=? 2 * (i / 512)) && (2 * (i / 512) <? 1 + slack32 (m_addr_r m))) with ((2 * (i / 512) <? 1 + slack32 (m_addr_r m))) by lia.
  destruct (2 * (i / 512) <? 1 + slack32 (m_addr_r m)) eqn:E; [|reflexivity]. cbn [bind]. unfold geti at 1. rewrite zlen_upd, LZ.
  replace ((0 <=? 2 * (i / 512) + 2) && (2 * (i / 512) + 2 <? 1 + slack32 (m_addr_r m))) with false by lia. reflexivity.
Qed.
