(** The rank structures of include/mranisz in the terms of the specification. *)
From Coq Require Import ZifyBool.
From Verif Require Import Base BaseFacts Words WordFacts BlockFacts NodeFacts Trees TreeBuild MemFacts Spec BitmapFacts KernelFacts SpecPoppy PoppyFacts PoppyFacts2 SpecText MrRank MrRankFacts MrRankFacts2 MrRankFacts3 MrRankFacts4.
Ltac Zify.zify_post_hook ::= Z.div_mod_to_equations.

Lemma ts_all t i : 0 <= i -> ts t 0 i = ones_before (text_bits t) i.
Proof.
  intros Hi. pose proof (zlen_nonneg t). destruct (Z_le_gt_dec i (8 * zlen t)) as [L|L]; [symmetry; apply ones_text; lia|].
  rewrite (ts_split t 0 (8 * zlen t) i) by lia. rewrite (ts_all0 t (8 * zlen t) i), Z.add_0_r.
  - rewrite <- ones_text by lia. pose proof (zlen_text_bits t) as Z1. unfold ones_before. unfold zlen in Z1 at 1. rewrite !firstn_all2 by lia. reflexivity.
  - intros p Hp. apply bits_of_zero; [lia|]. apply zn_over. lia.
Qed.

Lemma nth_skipn' {A} (d : A) k : forall l j, nth j (skipn k l) d = nth (k + j) l d.
Proof. induction k; intros l j; [reflexivity|]. destruct l; [destruct j; reflexivity|]. cbn. apply IHk. Qed.
Lemma nth_firstn' {A} (d : A) k : forall l j, (j < k)%nat -> nth j (firstn k l) d = nth j l d.
Proof. induction k; intros l j H; [lia|]. destruct l; [reflexivity|]. destruct j; [reflexivity|]. cbn. apply IHk. lia. Qed.

Lemma block_bit t b k : 0 <= b -> 0 <= k < 512 -> bit (block_bits t b) k = bit (text_bits t) (512 * b + k).
Proof.
  intros Hb Hk. unfold bit, zn, block_bits. replace (Z.to_nat (512 * b + k)) with (Z.to_nat (512 * b) + Z.to_nat k)%nat by lia.
  rewrite <- nth_skipn'. remember (skipn (Z.to_nat (512 * b)) (text_bits t)) as l. clear Heql.
  rewrite nth_firstn' by lia. reflexivity.
Qed.

Lemma zlen_block t b : 0 <= b -> zlen (block_bits t b) = Z.max 0 (Z.min 512 (8 * zlen t - 512 * b)).
Proof.
  intros Hb. unfold block_bits. unfold zlen at 1. rewrite firstn_length, skipn_length. pose proof (zlen_text_bits t) as Z1. unfold zlen in Z1 at 1. pose proof (zlen_nonneg t). lia.
Qed.

Lemma forallb_bits (p : bool -> bool) l : forallb p l = true <-> forall k, 0 <= k < zlen l -> p (bit l k) = true.
Proof.
  rewrite forallb_forall. split.
  - intros H k Hk. apply H. unfold bit, zn. apply nth_In. unfold zlen in Hk. lia.
  - intros H x Hx. apply (In_nth _ _ false) in Hx as (n & Hn & <-). specialize (H (Z.of_nat n) ltac:(unfold zlen; lia)).
    unfold bit, zn in H. rewrite Nat2Z.id in H. exact H.
Qed.

Lemma uniform_homob t b : 0 <= b -> uniform t b = homob t b.
Proof.
  intros Hb. unfold uniform, homob. pose proof (zlen_nonneg t). pose proof (zlen_block t b Hb) as ZB.
  destruct (zlen (block_bits t b) =? 512) eqn:E; cbn [andb].
  2:{ replace (64 * (b + 1) <=? zlen t) with false by lia. reflexivity. }
  replace (64 * (b + 1) <=? zlen t) with true by lia. cbn [andb].
  assert (BT : forall k, 0 <= k < 512 -> b2z (bit (block_bits t b) k) = tb t (512 * b + k)).
  { intros k Hk. rewrite block_bit by lia. rewrite tb_bit by lia. reflexivity. }
  f_equal.
  - apply eq_true_iff_eq. rewrite forallb_bits, Z.eqb_eq. split.
    + intros A. apply ts_all0. intros i Hi. specialize (A (i - 512 * b) ltac:(lia)). specialize (BT (i - 512 * b) ltac:(lia)).
      replace (512 * b + (i - 512 * b)) with i in BT by lia. rewrite <- BT. destruct (bit (block_bits t b) (i - 512 * b)); [discriminate|reflexivity].
    + intros A k Hk. specialize (BT k ltac:(lia)). rewrite (ts_zero t (512 * b) (512 * (b + 1)) ltac:(lia) A) in BT by lia.
      destruct (bit (block_bits t b) k); [discriminate|reflexivity].
  - apply eq_true_iff_eq. rewrite forallb_bits, Z.eqb_eq. split.
    + intros A. rewrite ts_all1; [lia|lia|]. intros i Hi. specialize (A (i - 512 * b) ltac:(lia)). specialize (BT (i - 512 * b) ltac:(lia)).
      replace (512 * b + (i - 512 * b)) with i in BT by lia. rewrite <- BT, A. reflexivity.
    + intros A k Hk. specialize (BT k ltac:(lia)). rewrite (ts_full t (512 * b) (512 * (b + 1)) ltac:(lia) ltac:(lia)) in BT by lia.
      destruct (bit (block_bits t b) k); [reflexivity|discriminate].
Qed.

Lemma uniform_iff t b : 0 <= b -> uniform t b = true <-> uniform_block t b.
Proof.
  intros Hb. unfold uniform, uniform_block. pose proof (zlen_block t b Hb) as ZB. rewrite zlen_text_bits. pose proof (zlen_nonneg t).
  rewrite andb_true_iff, orb_true_iff, !forallb_bits, Z.eqb_eq. split.
  - intros [E A]. split; [lia|]. destruct A as [A|A]; [exists false|exists true]; intros p Hp; specialize (A (p - 512 * b) ltac:(lia)); rewrite block_bit in A by lia;
      replace (512 * b + (p - 512 * b)) with p in A by lia; [apply negb_true_iff in A|]; exact A.
  - intros [E (v & A)]. split; [lia|]. destruct v; [right|left]; intros k Hk; rewrite block_bit by lia; rewrite A by lia; reflexivity.
Qed.

Lemma kept_ne t : kept_blocks t = ne t (nblk t).
Proof.
  unfold kept_blocks, ne. change (text_blocks t) with (nblk t). pose proof (nblk_nonneg t). rewrite <- (Z2Nat.id (nblk t)) at 2 by lia. clear H.
  induction (Z.to_nat (nblk t)) as [|n IH]; [reflexivity|]. rewrite zrange_last, filter_app. unfold zlen in *. rewrite app_length, Nat2Z.inj_add, IH.
  replace (Z.of_nat (S n)) with (Z.of_nat n + 1) by lia. rewrite sumf_succ by lia. f_equal. rewrite Z.add_0_l. cbn [filter].
  rewrite uniform_homob by lia. destruct (homob t (Z.of_nat n)); reflexivity.
Qed.
Lemma kept_pos t : 0 <= kept_blocks t <= text_blocks t.
Proof. rewrite kept_ne. apply ne_bound. apply nblk_nonneg. Qed.
Lemma kept_zero t : kept_blocks t = 0 <-> forall b, 0 <= b < text_blocks t -> uniform_block t b.
Proof.
  rewrite kept_ne. change (text_blocks t) with (nblk t). pose proof (nblk_nonneg t). split.
  - intros E b Hb. apply uniform_iff; [lia|]. rewrite uniform_homob by lia. destruct (homob t b) eqn:Eh; [reflexivity|].
    pose proof (ne_lt t b (nblk t) ltac:(lia) Eh). pose proof (ne_bound t b ltac:(lia)). lia.
  - intros A. unfold ne. apply sumf_const0. intros b Hb. specialize (A b ltac:(lia)). apply uniform_iff in A; [|lia]. rewrite uniform_homob in A by lia. rewrite A. reflexivity.
Qed.

(** ** RankBasic64 *)
Lemma basic_rank m t : addresses_ok m -> text_ok t -> zlen t < 2 ^ 58 ->
  exists r, build_std m t = Ok r /\ forall i, 0 <= i < 512 * text_blocks t -> rank_std r i = Ok (ones_before (text_bits t) i).
Proof.
  intros A H Hl. destruct (build_std_ok m t A H Hl) as (r & E & P). exists r. split; [exact E|]. intros i Hi. rewrite <- ts_all by lia. eapply rank_std_in; eauto.
Qed.
Lemma basic_rank_size m t : addresses_ok m -> text_ok t -> zlen t < 2 ^ 58 -> zlen t mod 64 = 0 ->
  exists r, build_std m t = Ok r /\
    rank_std r (zlen (text_bits t)) =
      let n := text_blocks t in let total := ones_before (text_bits t) (zlen (text_bits t)) in
      let next := m_junk_r m (2 * n + 2) in let off := m_junk_r m (2 * n + 1) in
      if (Z.land (u64 (next - total)) 511 =? 0) || ((0 <=? off) && (off <? 8 * kept_blocks t + 16 - (- m_addr_b m) mod 128 / 8))
      then Ok total else Ub UB_bounds.
Proof.
  intros A H Hl Hm. destruct (build_std_ok m t A H Hl) as (r & E & P). exists r. split; [exact E|]. cbv zeta.
  replace (zlen (text_bits t)) with (512 * nblk t) by (rewrite zlen_text_bits; unfold nblk; lia).
  rewrite (rank_std_end m t r A H Hl P). change (text_blocks t) with (nblk t). rewrite kept_ne. unfold slack. rewrite ts_all by (pose proof (nblk_nonneg t); lia).
  replace (8 * ne t (nblk t) + (16 - (- m_addr_b m) mod 128 / 8)) with (8 * ne t (nblk t) + 16 - (- m_addr_b m) mod 128 / 8) by lia. reflexivity.
Qed.

Lemma bch_rank jf m t : addresses_ok m -> text_ok t -> zlen t < 2 ^ 58 ->
  exists r, build_bch false jf m t = Ok r /\ forall i, 0 <= i <= 512 * text_blocks t -> rank_bch r i = Ok (ones_before (text_bits t) i).
Proof.
  intros A H Hl. destruct (build_bch_gen false jf m t A H Hl) as [B _]. destruct (B (or_introl eq_refl)) as (temp & r & E & P).
  exists r. split; [exact E|]. intros i Hi. rewrite <- ts_all by lia. eapply rank_bch_ok; eauto.
Qed.
Lemma bch_strict jf m t : addresses_ok m -> text_ok t -> zlen t < 2 ^ 58 ->
  if text_blocks t mod 64 =? 63
  then exists r, build_bch true jf m t = Ok r /\ forall i, 0 <= i <= 512 * text_blocks t -> rank_bch r i = Ok (ones_before (text_bits t) i)
  else build_bch true jf m t = Ub UB_bounds.
Proof.
  intros A H Hl. destruct (build_bch_gen true jf m t A H Hl) as [B C]. change (text_blocks t) with (nblk t). destruct (nblk t mod 64 =? 63) eqn:E.
  - destruct (B ltac:(right; lia)) as (temp & r & E1 & P). exists r. split; [exact E1|]. intros i Hi. rewrite <- ts_all by lia. eapply rank_bch_ok; eauto.
  - apply C; [reflexivity|lia].
Qed.

(** ** RankCF64 *)
Lemma cf_rank m t : addresses_ok m -> text_ok t -> zlen t < 2 ^ 58 -> ~ (1 <= text_blocks t /\ forall b, 0 <= b < text_blocks t -> uniform_block t b) ->
  exists r, build_cf m t = Ok r /\ forall i, 0 <= i < 512 * text_blocks t -> rank_of_cf r i = Ok (ones_before (text_bits t) i).
Proof.
  intros A H Hl N. rewrite <- kept_zero, kept_ne in N. change (text_blocks t) with (nblk t) in *. destruct (build_cf_gen m t A H Hl) as [B _].
  pose proof (nblk_nonneg t). pose proof (ne_bound t (nblk t) ltac:(lia)). destruct (B ltac:(lia)) as (r & E & P). exists r. split; [exact E|].
  intros i Hi. rewrite <- ts_all by lia. eapply rank_cf_in; eauto.
Qed.
Lemma cf_uniform m t : addresses_ok m -> text_ok t -> zlen t < 2 ^ 58 -> 1 <= text_blocks t -> (forall b, 0 <= b < text_blocks t -> uniform_block t b) ->
  build_cf m t = Ub UB_bounds.
Proof.
  intros A H Hl N1 N2. rewrite <- kept_zero, kept_ne in N2. apply (build_cf_gen m t A H Hl); auto.
Qed.
Lemma cf_rank_size m t : addresses_ok m -> text_ok t -> zlen t < 2 ^ 58 -> zlen t mod 64 = 0 -> ~ (1 <= text_blocks t /\ forall b, 0 <= b < text_blocks t -> uniform_block t b) ->
  exists r, build_cf m t = Ok r /\
    rank_of_cf r (zlen (text_bits t)) =
      let e := 7 * kept_blocks t + 2 * text_blocks t + 1 in let total := ones_before (text_bits t) (zlen (text_bits t)) in
      if (Z.land (u64 (m_junk_b m (e + 1) - total)) 511 =? 0) || ((0 <=? m_junk_b m e) && (m_junk_b m e <? e + 16 - (- m_addr_b m) mod 128 / 8))
      then Ok total else Ub UB_bounds.
Proof.
  intros A H Hl Hm N. rewrite <- kept_zero in N. rewrite kept_ne in *. change (text_blocks t) with (nblk t) in *. destruct (build_cf_gen m t A H Hl) as [B _].
  pose proof (nblk_nonneg t). pose proof (ne_bound t (nblk t) ltac:(lia)). destruct (B ltac:(lia)) as (r & E & P). exists r. split; [exact E|]. cbv zeta.
  replace (zlen (text_bits t)) with (512 * nblk t) by (rewrite zlen_text_bits; unfold nblk; lia).
  rewrite (rank_cf_end m t r A H Hl P). unfold slack. rewrite ts_all by lia.
  replace (7 * ne t (nblk t) + 2 * nblk t + 1 + (16 - (- m_addr_b m) mod 128 / 8)) with (7 * ne t (nblk t) + 2 * nblk t + 1 + 16 - (- m_addr_b m) mod 128 / 8) by lia. reflexivity.
Qed.

(** ** Sizes *)
Lemma basic_sizes m t r : addresses_ok m -> text_ok t -> zlen t < 2 ^ 58 -> build_std m t = Ok r ->
  basic_text_size r = zlen t /\ basic_size r = 16 * text_blocks t + 168 + (if kept_blocks t =? 0 then 0 else 64 * kept_blocks t + 128).
Proof.
  intros A H Hl E. destruct (build_std_ok m t A H Hl) as (r' & E' & P). rewrite E in E'. injection E' as <-. destruct P as (_ & _ & P3 & P4 & P5 & _).
  split; [exact P5|]. unfold basic_size. rewrite P3, P4, kept_ne. change (text_blocks t) with (nblk t). pose proof (nblk_nonneg t). pose proof (ne_bound t (nblk t) ltac:(lia)).
  pose proof (zlen_nonneg t). assert (nblk t <= 2 ^ 53) by (unfold nblk; lia). replace (2 * nblk t + 1 >? 0) with true by lia.
  destruct (8 * ne t (nblk t) >? 0) eqn:E1, (ne t (nblk t) =? 0) eqn:E2; try lia; rewrite wrap_small; lia.
Qed.
Lemma bch_sizes jf m t r : addresses_ok m -> text_ok t -> zlen t < 2 ^ 58 -> build_bch false jf m t = Ok r ->
  basic_text_size r = zlen t /\ basic_size r = 152 * (text_blocks t / 64 + 1) + 160 + (if kept_blocks t =? 0 then 0 else 64 * kept_blocks t + 128).
Proof.
  intros A H Hl E. destruct (build_bch_gen false jf m t A H Hl) as [B _]. destruct (B (or_introl eq_refl)) as (temp & r' & E' & P).
  rewrite E in E'. injection E' as <-. destruct P as (_ & _ & _ & P3 & P4 & P5 & _).
  split; [exact P5|]. unfold basic_size. rewrite P3, P4, kept_ne. change (text_blocks t) with (nblk t). pose proof (nblk_nonneg t). pose proof (ne_bound t (nblk t) ltac:(lia)).
  pose proof (zlen_nonneg t). assert (nblk t <= 2 ^ 53) by (unfold nblk; lia). replace (19 * (nblk t / 64 + 1) >? 0) with true by lia.
  destruct (8 * ne t (nblk t) >? 0) eqn:E1, (ne t (nblk t) =? 0) eqn:E2; try lia; rewrite wrap_small; lia.
Qed.
Lemma cf_sizes m t r : addresses_ok m -> text_ok t -> zlen t < 2 ^ 58 -> build_cf m t = Ok r ->
  cf_text_size r = zlen t /\ cf_size r = 56 * kept_blocks t + 16 * text_blocks t + 176.
Proof.
  intros A H Hl E. destruct (build_cf_gen m t A H Hl) as [B C]. pose proof (nblk_nonneg t). pose proof (ne_bound t (nblk t) ltac:(lia)).
  destruct (Z_le_gt_dec 1 (nblk t)) as [N1|N1]; [destruct (Z.eq_dec (ne t (nblk t)) 0) as [N2|N2]; [rewrite (C N1 N2) in E; discriminate|]|];
    (destruct (B ltac:(lia)) as (r' & E' & P); rewrite E in E'; injection E' as <-; destruct P as (P1 & _ & P2 & _);
     split; [exact P2|]; unfold cf_size; rewrite P1, kept_ne; change (text_blocks t) with (nblk t);
     pose proof (zlen_nonneg t); assert (nblk t <= 2 ^ 53) by (unfold nblk; lia); replace (7 * ne t (nblk t) + 2 * nblk t + 1 >? 0) with true by lia; rewrite wrap_small; lia).
Qed.

(** ** Witnesses *)
Definition mem_of (j a : Z) : memory := {| m_junk_r := fun _ => j; m_addr_r := a; m_junk_b := fun _ => j; m_addr_b := a; m_junk_t := fun _ => j |}.
Lemma mem_of_ok j a : 0 <= a -> a mod 16 = 0 -> addresses_ok (mem_of j a).
Proof. intros. unfold addresses_ok. cbn. auto. Qed.
Lemma zeros_ok n : text_ok (repeat 0 n).
Proof. apply Forall_forall. intros x Hx. apply repeat_spec in Hx. subst. lia. Qed.

Lemma basic_rank_size_bad : exists m t r, addresses_ok m /\ text_ok t /\ build_std m t = Ok r /\ rank_std r (zlen (text_bits t)) = Ub UB_bounds.
Proof.
  exists (mem_of 1000 16), (repeat 0 64). pose proof (mem_of_ok 1000 16 ltac:(lia) eq_refl) as A.
  destruct (basic_rank_size (mem_of 1000 16) (repeat 0 64) A (zeros_ok 64) ltac:(cbn; lia) eq_refl) as (r & E & R). exists r.
  split; [exact A|]. split; [apply zeros_ok|]. split; [exact E|]. rewrite R. vm_compute. reflexivity.
Qed.
Lemma cf_build_bad : exists m t, addresses_ok m /\ text_ok t /\ build_cf m t = Ub UB_bounds.
Proof.
  exists (mem_of 0 0), (repeat 0 64). split; [apply mem_of_ok; [lia|reflexivity]|]. split; [apply zeros_ok|].
  apply cf_uniform; [apply mem_of_ok; [lia|reflexivity]|apply zeros_ok|cbn; lia|vm_compute; discriminate|].
  apply kept_zero. vm_compute. reflexivity.
Qed.
Lemma bch_build_bad : exists jf m t, addresses_ok m /\ text_ok t /\ build_bch true jf m t = Ub UB_bounds.
Proof.
  exists (fun _ => 0), (mem_of 0 0), (repeat 0 64). split; [apply mem_of_ok; [lia|reflexivity]|]. split; [apply zeros_ok|].
  exact (bch_strict (fun _ => 0) (mem_of 0 0) (repeat 0 64) (mem_of_ok 0 0 ltac:(lia) eq_refl) (zeros_ok 64) ltac:(cbn; lia)).
Qed.
