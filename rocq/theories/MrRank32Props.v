(** The 32-bit rank structures of include/mranisz in the terms of the specification. *)
From Coq Require Import ZifyBool.
From Verif Require Import Base BaseFacts Words WordFacts BlockFacts NodeFacts Trees TreeBuild MemFacts Spec BitmapFacts KernelFacts SpecPoppy PoppyFacts PoppyFacts2 SpecText SpecText32 MrRank MrRankFacts MrRankFacts2 MrRankFacts3 MrRankFacts4 MrRankProps MrRank32 MrRank32Facts MrRank32Facts2 MrRank32Facts3 MrRank32Facts4.
Ltac Zify.zify_post_hook ::= Z.div_mod_to_equations.

(** ** RankBasic32 *)
Lemma basic_rank32 m t : addresses_ok m -> text_ok t -> zlen t <= 2 ^ 32 - 64 ->
  exists r, build_std32 m t = Ok r /\ forall i, 0 <= i < 512 * text_blocks t -> i < 2 ^ 32 -> rank_std32 r i = Ok (ones_before (text_bits t) i).
Proof.
  intros A H Hl. destruct (build_std32_ok m t A H Hl) as (r & E & P). exists r. split; [exact E|]. intros i Hi Hi2. rewrite <- ts_all by lia. eapply rank_std32_in; eauto.
Qed.
Lemma basic_rank32_size m t : addresses_ok m -> text_ok t -> zlen t < 2 ^ 29 -> zlen t mod 64 = 0 ->
  exists r, build_std32 m t = Ok r /\
    rank_std32 r (zlen (text_bits t)) =
      let n := text_blocks t in let total := ones_before (text_bits t) (zlen (text_bits t)) in
      let next := m_junk_r m (2 * n + 2) in let off := m_junk_r m (2 * n + 1) mod 2 ^ 32 in
      if (Z.land (u32 (next - total)) 511 =? 0) || (off <? 8 * kept_blocks t + 16 - (- m_addr_b m) mod 128 / 8)
      then Ok total else Ub UB_bounds.
Proof.
  intros A H Hl Hm. destruct (build_std32_ok m t A H ltac:(lia)) as (r & E & P). exists r. split; [exact E|]. cbv zeta.
  replace (zlen (text_bits t)) with (512 * nblk t) by (rewrite zlen_text_bits; unfold nblk; lia).
  rewrite (rank_std32_end m t r A H ltac:(lia) P) by (unfold nblk; lia). change (text_blocks t) with (nblk t). rewrite kept_ne. unfold slack. rewrite ts_all by (pose proof (nblk_nonneg t); lia).
  replace (8 * ne t (nblk t) + (16 - (- m_addr_b m) mod 128 / 8)) with (8 * ne t (nblk t) + 16 - (- m_addr_b m) mod 128 / 8) by lia. reflexivity.
Qed.
Lemma basic_rank32_size_bad : exists m t r, addresses_ok m /\ text_ok t /\ build_std32 m t = Ok r /\ rank_std32 r (zlen (text_bits t)) = Ub UB_bounds.
Proof.
  exists (mem_of 1000 16), (repeat 0 64). pose proof (mem_of_ok 1000 16 ltac:(lia) eq_refl) as A.
  destruct (basic_rank32_size (mem_of 1000 16) (repeat 0 64) A (zeros_ok 64) ltac:(cbn; lia) eq_refl) as (r & E & R). exists r.
  split; [exact A|]. split; [apply zeros_ok|]. split; [exact E|]. rewrite R. vm_compute. reflexivity.
Qed.
Lemma basic_rank32_long m t : addresses_ok m -> 2 ^ 32 - 64 < zlen t < 2 ^ 32 ->
  exists r, build_std32 m t = Ok r /\ basic_size32 r = 156 /\ forall i, 8192 <= i < 2 ^ 32 -> rank_std32 r i = Ub UB_bounds.
Proof. apply std32_top. Qed.
Lemma basic_rank32_long_bad : exists m t r, addresses_ok m /\ text_ok t /\ zlen t < 2 ^ 32 /\ build_std32 m t = Ok r /\ rank_std32 r 8192 = Ub UB_bounds.
Proof.
  pose proof (mem_of_ok 0 0 ltac:(lia) eq_refl) as A.
  assert (G : forall t, text_ok t -> 2 ^ 32 - 64 < zlen t < 2 ^ 32 -> exists m t r, addresses_ok m /\ text_ok t /\ zlen t < 2 ^ 32 /\ build_std32 m t = Ok r /\ rank_std32 r 8192 = Ub UB_bounds).
  { intros t T L. destruct (basic_rank32_long (mem_of 0 0) t A L) as (r & E & _ & R). exists (mem_of 0 0), t, r. split; [exact A|]. split; [exact T|]. split; [lia|]. split; [exact E|]. apply R. lia. }
  apply (G (repeat 0 (Z.to_nat (2 ^ 32 - 1)))); [apply zeros_ok|]. rewrite zlen_repeat. clear. lia.
Qed.

Lemma bch_rank32 jf m t : addresses_ok m -> text_ok t -> zlen t <= 2 ^ 32 - 64 ->
  exists r, build_bch32 false jf m t = Ok r /\ forall i, 0 <= i <= 512 * text_blocks t -> i < 2 ^ 32 -> rank_bch32 r i = Ok (ones_before (text_bits t) i).
Proof.
  intros A H Hl. destruct (build_bch_gen32 false jf m t A H Hl) as [B _]. destruct (B (or_introl eq_refl)) as (temp & r & E & P).
  exists r. split; [exact E|]. intros i Hi Hi2. rewrite <- ts_all by lia. eapply rank_bch32_ok; eauto.
Qed.
Lemma bch_strict32 jf m t : addresses_ok m -> text_ok t -> zlen t <= 2 ^ 32 - 64 ->
  if text_blocks t mod 32 =? 31
  then exists r, build_bch32 true jf m t = Ok r /\ forall i, 0 <= i <= 512 * text_blocks t -> i < 2 ^ 32 -> rank_bch32 r i = Ok (ones_before (text_bits t) i)
  else build_bch32 true jf m t = Ub UB_bounds.
Proof.
  intros A H Hl. destruct (build_bch_gen32 true jf m t A H Hl) as [B C]. change (text_blocks t) with (nblk t). destruct (nblk t mod 32 =? 31) eqn:E.
  - destruct (B ltac:(right; lia)) as (temp & r & E1 & P). exists r. split; [exact E1|]. intros i Hi Hi2. rewrite <- ts_all by lia. eapply rank_bch32_ok; eauto.
  - apply C; [reflexivity|lia].
Qed.
Lemma bch_build32_bad : exists jf m t, addresses_ok m /\ text_ok t /\ build_bch32 true jf m t = Ub UB_bounds.
Proof.
  exists (fun _ => 0), (mem_of 0 0), (repeat 0 64). split; [apply mem_of_ok; [lia|reflexivity]|]. split; [apply zeros_ok|].
  exact (bch_strict32 (fun _ => 0) (mem_of 0 0) (repeat 0 64) (mem_of_ok 0 0 ltac:(lia) eq_refl) (zeros_ok 64) ltac:(cbn; lia)).
Qed.

(** A text that is too long gives what the empty text gives. *)
Lemma bch_rank32_long strict jf m t : 2 ^ 32 - 64 < zlen t < 2 ^ 32 ->
  match build_bch32 strict jf m [], build_bch32 strict jf m t with
  | Ok r0, Ok r => basic_size32 r = basic_size32 r0 /\ forall i, rank_bch32 r i = rank_bch32 r0 i
  | x, y => x = y
  end.
Proof. intros Hl. rewrite (bch32_as_empty strict jf m t Hl). destruct (build_bch32 strict jf m []); cbn [bind]; auto. Qed.
Lemma cf_rank32_long al m t : 2 ^ 32 - 64 < zlen t < 2 ^ 32 ->
  match build_cf32 m [], build_cf32 m t with
  | Ok r0, Ok r => cf_size32 r = cf_size32 r0 /\ forall i, rank_of_cf32 al r i = rank_of_cf32 al r0 i
  | x, y => x = y
  end.
Proof. intros Hl. rewrite (cf32_as_empty m t Hl). destruct (build_cf32 m []); cbn [bind]; auto. Qed.

(** ** Where RankCF32 keeps a block *)
Lemma filter_ext_zrange (p q : Z -> bool) n : forall lo, 0 <= lo -> (forall b, 0 <= b -> p b = q b) -> filter p (zrange lo n) = filter q (zrange lo n).
Proof. induction n; intros lo Hlo H; [reflexivity|]. cbn [zrange filter]. rewrite H by lia. rewrite IHn by (auto; lia). reflexivity. Qed.
Lemma kept_before_ne t b : 0 <= b -> kept_before t b = ne t b.
Proof.
  intros Hb. unfold kept_before, ne. rewrite <- (Z2Nat.id b) at 2 by lia. clear Hb.
  induction (Z.to_nat b) as [|n IH]; [reflexivity|]. rewrite zrange_last, filter_app. unfold zlen in *. rewrite app_length, Nat2Z.inj_add, IH.
  replace (Z.of_nat (S n)) with (Z.of_nat n + 1) by lia. rewrite sumf_succ by lia. f_equal. rewrite Z.add_0_l. cbn [filter].
  rewrite uniform_homob by lia. destruct (homob t (Z.of_nat n)); reflexivity.
Qed.
Lemma uniform_count t n : zlen (filter (uniform t) (zrange 0 n)) = Z.of_nat n - ne t (Z.of_nat n).
Proof.
  rewrite <- kept_before_ne by lia. unfold kept_before. rewrite Nat2Z.id. induction n as [|n IH]; [reflexivity|].
  rewrite zrange_last, !filter_app. unfold zlen in *. rewrite !app_length. cbn [filter]. destruct (uniform t (0 + Z.of_nat n)); cbn [length negb]; lia.
Qed.
Lemma place_of_slot t K sl : 0 <= sl < K -> homob t sl = true -> zn 0 (filter (uniform t) (zrange 0 (Z.to_nat K))) (sl - ne t sl) = sl.
Proof.
  intros Hs Hh. replace (Z.to_nat K) with (Z.to_nat sl + S (Z.to_nat (K - sl - 1)))%nat by lia.
  assert (ZA : forall a lo b, zrange lo (a + b) = zrange lo a ++ zrange (lo + Z.of_nat a) b).
  { clear. induction a; intros lo b; [cbn [Nat.add zrange app Z.of_nat]; rewrite Z.add_0_r; reflexivity|]. cbn [Nat.add zrange app]. f_equal. rewrite IHa. f_equal. f_equal. lia. }
  rewrite ZA, filter_app. cbn [zrange filter]. rewrite Z.add_0_l, Z2Nat.id by lia. rewrite (uniform_homob t sl) by lia. rewrite Hh.
  pose proof (uniform_count t (Z.to_nat sl)) as UC. rewrite Z2Nat.id in UC by lia. rewrite <- UC. unfold zn, zlen. rewrite Nat2Z.id, app_nth2, Nat.sub_diag by lia. reflexivity.
Qed.
Lemma mixed_block t b : 0 <= b -> mixed t b = has_both t b.
Proof.
  intros Hb. unfold mixed, has_both. pose proof (ts_split t 0 (512 * b) (512 * (b + 1)) ltac:(lia)) as S1. rewrite !ts_all in S1 by lia.
  replace (ones_before (text_bits t) (512 * (b + 1)) - ones_before (text_bits t) (512 * b)) with (ts t (512 * b) (512 * (b + 1))) by lia. reflexivity.
Qed.

Lemma cf_rank32_gen m t : addresses_ok m -> text_ok t -> zlen t <= 2 ^ 32 - 64 -> ~ (1 <= text_blocks t /\ forall b, 0 <= b < text_blocks t -> uniform_block t b) ->
  exists r, build_cf32 m t = Ok r /\ forall al i, 0 <= i < 512 * text_blocks t -> i < 2 ^ 32 ->
    rank_of_cf32 al r i = if al && has_both t (i / 512) && Z.even (cf_place t (i / 512)) then Ub UB_align else Ok (ones_before (text_bits t) i).
Proof.
  intros A H Hl N. rewrite <- kept_zero, kept_ne in N. change (text_blocks t) with (nblk t) in *. destruct (build_cf_gen32 m t A H Hl) as [B _].
  pose proof (nblk_nonneg t). pose proof (ne_bound t (nblk t) ltac:(lia)). destruct (B ltac:(lia)) as (r & E & P). exists r. split; [exact E|].
  intros al i Hi Hi2. rewrite <- ts_all by lia. destruct (rank_cf32_in al m t r i A H Hl P Hi Hi2) as (sl & S1 & S2 & ->). rewrite <- mixed_block by lia.
  unfold cf_place. rewrite kept_ne. destruct (i / 512 <? ne t (nblk t)) eqn:EB; [rewrite S2; reflexivity|].
  destruct (mixed t (i / 512)) eqn:EM; [|rewrite andb_false_r; reflexivity]. destruct (S2 eq_refl) as ((I1 & I2) & I3).
  rewrite !kept_before_ne by lia. rewrite <- I2. rewrite place_of_slot by (auto; lia). reflexivity.
Qed.
Lemma cf_rank32 m t : addresses_ok m -> text_ok t -> zlen t <= 2 ^ 32 - 64 -> ~ (1 <= text_blocks t /\ forall b, 0 <= b < text_blocks t -> uniform_block t b) ->
  exists r, build_cf32 m t = Ok r /\ forall i, 0 <= i < 512 * text_blocks t -> i < 2 ^ 32 -> rank_of_cf32 false r i = Ok (ones_before (text_bits t) i).
Proof. intros A H Hl N. destruct (cf_rank32_gen m t A H Hl N) as (r & E & R). exists r. split; [exact E|]. intros i Hi Hi2. apply (R false i Hi Hi2). Qed.
Lemma cf_aligned32 m t : addresses_ok m -> text_ok t -> zlen t <= 2 ^ 32 - 64 -> ~ (1 <= text_blocks t /\ forall b, 0 <= b < text_blocks t -> uniform_block t b) ->
  exists r, build_cf32 m t = Ok r /\ forall i, 0 <= i < 512 * text_blocks t -> i < 2 ^ 32 ->
    rank_of_cf32 true r i = if has_both t (i / 512) && Z.even (cf_place t (i / 512)) then Ub UB_align else Ok (ones_before (text_bits t) i).
Proof. intros A H Hl N. destruct (cf_rank32_gen m t A H Hl N) as (r & E & R). exists r. split; [exact E|]. intros i Hi Hi2. apply (R true i Hi Hi2). Qed.
Lemma cf_uniform32 m t : addresses_ok m -> text_ok t -> zlen t <= 2 ^ 32 - 64 -> 1 <= text_blocks t -> (forall b, 0 <= b < text_blocks t -> uniform_block t b) ->
  build_cf32 m t = Ub UB_bounds.
Proof. intros A H Hl N1 N2. rewrite <- kept_zero, kept_ne in N2. apply (build_cf_gen32 m t A H Hl); auto. Qed.
Lemma cf_build32_bad : exists m t, addresses_ok m /\ text_ok t /\ build_cf32 m t = Ub UB_bounds.
Proof.
  exists (mem_of 0 0), (repeat 0 64). split; [apply mem_of_ok; [lia|reflexivity]|]. split; [apply zeros_ok|].
  apply cf_uniform32; [apply mem_of_ok; [lia|reflexivity]|apply zeros_ok|cbn; lia|vm_compute; discriminate|].
  apply kept_zero. vm_compute. reflexivity.
Qed.
Lemma cf_aligned32_bad : exists m t r, addresses_ok m /\ text_ok t /\ build_cf32 m t = Ok r /\ rank_of_cf32 true r 1 = Ub UB_align.
Proof.
  assert (A := mem_of_ok 0 0 ltac:(lia) eq_refl). assert (T : text_ok [1]) by (repeat constructor; lia).
  destruct (cf_aligned32 (mem_of 0 0) [1] A T ltac:(cbn; lia)) as (r & E & R).
  - rewrite <- kept_zero. vm_compute. intros [_ D]. discriminate.
  - exists (mem_of 0 0), [1], r. split; [exact A|]. split; [exact T|]. split; [exact E|]. rewrite R by (cbn; lia). vm_compute. reflexivity.
Qed.
Lemma cf_rank32_size al m t : addresses_ok m -> text_ok t -> zlen t < 2 ^ 29 -> zlen t mod 64 = 0 -> ~ (1 <= text_blocks t /\ forall b, 0 <= b < text_blocks t -> uniform_block t b) ->
  exists r, build_cf32 m t = Ok r /\
    rank_of_cf32 al r (zlen (text_bits t)) =
      let e := 15 * kept_blocks t + 2 * text_blocks t + 1 in let total := ones_before (text_bits t) (zlen (text_bits t)) in
      let next := m_junk_b m (e + 1) in let off := m_junk_b m e mod 2 ^ 32 in
      if Z.land (u32 (next - total)) 511 =? 0 then Ok total
      else if al && (off mod 2 =? 1) then Ub UB_align
      else if off + 1 <? e + 32 - (- m_addr_b m) mod 128 / 4 then Ok total else Ub UB_bounds.
Proof.
  intros A H Hl Hm N. rewrite <- kept_zero in N. rewrite kept_ne in *. change (text_blocks t) with (nblk t) in *. destruct (build_cf_gen32 m t A H ltac:(lia)) as [B _].
  pose proof (nblk_nonneg t). pose proof (ne_bound t (nblk t) ltac:(lia)). destruct (B ltac:(lia)) as (r & E & P). exists r. split; [exact E|]. cbv zeta.
  replace (zlen (text_bits t)) with (512 * nblk t) by (rewrite zlen_text_bits; unfold nblk; lia).
  rewrite (rank_cf32_end al m t r A H ltac:(lia) P) by (unfold nblk; lia). cbv zeta. unfold slack32. rewrite ts_all by lia. unfold wrap.
  replace (15 * ne t (nblk t) + 2 * nblk t + 1 + (32 - (- m_addr_b m) mod 128 / 4)) with (15 * ne t (nblk t) + 2 * nblk t + 1 + 32 - (- m_addr_b m) mod 128 / 4) by lia. reflexivity.
Qed.

(** ** Sizes *)
Lemma nblk_bound32 t : zlen t <= 2 ^ 32 - 64 -> 0 <= nblk t <= 2 ^ 26 - 1 /\ 0 <= ne t (nblk t) <= nblk t.
Proof. intros Hl. pose proof (nblk32 t Hl). split; [lia|]. apply ne_bound. lia. Qed.
Lemma basic_sizes32 m t r : addresses_ok m -> text_ok t -> zlen t <= 2 ^ 32 - 64 -> build_std32 m t = Ok r ->
  basic_text_size32 r = zlen t /\ basic_size32 r = 8 * text_blocks t + 156 + (if kept_blocks t =? 0 then 0 else 64 * kept_blocks t + 128).
Proof.
  intros A H Hl E. destruct (build_std32_ok m t A H Hl) as (r' & E' & P). rewrite E in E'. injection E' as <-. destruct P as (_ & _ & P3 & P4 & P5 & _). pose proof (zlen_nonneg t).
  split; [unfold basic_text_size32; rewrite P5; apply wrap_small; lia|]. unfold basic_size32. rewrite P3, P4, kept_ne. change (text_blocks t) with (nblk t). pose proof (nblk_bound32 t Hl) as NB.
  replace (2 * nblk t + 1 >? 0) with true by lia. rewrite !(wrap_small 32) by lia.
  destruct (8 * ne t (nblk t) >? 0) eqn:E1, (ne t (nblk t) =? 0) eqn:E2; try lia; rewrite wrap_small; lia.
Qed.
Lemma bch_sizes32 jf m t r : addresses_ok m -> text_ok t -> zlen t <= 2 ^ 32 - 64 -> build_bch32 false jf m t = Ok r ->
  basic_text_size32 r = zlen t /\ basic_size32 r = 76 * (text_blocks t / 32 + 1) + 152 + (if kept_blocks t =? 0 then 0 else 64 * kept_blocks t + 128).
Proof.
  intros A H Hl E. destruct (build_bch_gen32 false jf m t A H Hl) as [B _]. destruct (B (or_introl eq_refl)) as (temp & r' & E' & P).
  rewrite E in E'. injection E' as <-. destruct P as (_ & _ & _ & P3 & P4 & P5 & _). pose proof (zlen_nonneg t).
  split; [unfold basic_text_size32; rewrite P5; apply wrap_small; lia|]. unfold basic_size32. rewrite P3, P4, kept_ne. change (text_blocks t) with (nblk t). pose proof (nblk_bound32 t Hl) as NB.
  replace (19 * (nblk t / 32 + 1) >? 0) with true by lia. rewrite !(wrap_small 32) by lia.
  destruct (8 * ne t (nblk t) >? 0) eqn:E1, (ne t (nblk t) =? 0) eqn:E2; try lia; rewrite wrap_small; lia.
Qed.
Lemma cf_sizes32 m t r : addresses_ok m -> text_ok t -> zlen t <= 2 ^ 32 - 64 -> build_cf32 m t = Ok r ->
  cf_text_size32 r = zlen t /\ cf_size32 r = (60 * kept_blocks t + 8 * text_blocks t + 156) mod 2 ^ 32.
Proof.
  intros A H Hl E. destruct (build_cf_gen32 m t A H Hl) as [B C]. pose proof (nblk_bound32 t Hl) as NB. pose proof (zlen_nonneg t).
  destruct (Z_le_gt_dec 1 (nblk t)) as [N1|N1]; [destruct (Z.eq_dec (ne t (nblk t)) 0) as [N2|N2]; [rewrite (C N1 N2) in E; discriminate|]|];
    (destruct (B ltac:(lia)) as (r' & E' & P); rewrite E in E'; injection E' as <-; destruct P as (P1 & _ & P2 & _);
     split; [unfold cf_text_size32; rewrite P2; apply wrap_small; lia|]; unfold cf_size32; rewrite P1, kept_ne; change (text_blocks t) with (nblk t);
     replace (15 * ne t (nblk t) + 2 * nblk t + 1 >? 0) with true by lia; rewrite (wrap_small 32 (15 * ne t (nblk t) + 2 * nblk t + 1 + 32)) by lia; unfold wrap; f_equal; lia).
Qed.

(** Bytes that are neither 0 nor 255: every block is kept. *)
Lemma ne_all t n : 0 <= n -> (forall b, 0 <= b < n -> homob t b = false) -> ne t n = n.
Proof.
  intros Hn. revert n Hn. apply (natlike_ind (fun n => (forall b, 0 <= b < n -> homob t b = false) -> ne t n = n)).
  - intros _. pose proof (ne_bound t 0 ltac:(lia)). lia.
  - intros x Hx IH H. unfold Z.succ in *. rewrite ne_succ by lia. rewrite IH by (intros b Hb; apply H; lia). rewrite H by lia. reflexivity.
Qed.
Lemma zn_same (v : Z) k : forall n, 0 <= k < Z.of_nat n -> zn 0 (repeat v n) k = v.
Proof.
  intros n Hk. unfold zn. assert (G : forall n j, (j < n)%nat -> nth j (repeat v n) 0 = v); [|apply G; lia].
  clear. induction n; intros j H; [lia|]. destruct j; [reflexivity|]. cbn. apply IHn. lia.
Qed.
Lemma repeat_kept n : 0 <= n -> kept_blocks (repeat 1 (Z.to_nat (64 * n))) = n /\ text_blocks (repeat 1 (Z.to_nat (64 * n))) = n.
Proof.
  intros Hn. rewrite kept_ne. set (t := repeat 1 (Z.to_nat (64 * n))). assert (L : zlen t = 64 * n) by (unfold t; rewrite zlen_repeat; lia).
  change (text_blocks t) with (nblk t). assert (E : nblk t = n) by (unfold nblk; rewrite L; lia). split; [|exact E]. rewrite E. apply ne_all; [exact Hn|].
  intros b Hb. assert (B0 : tb t (512 * b) = 0 /\ tb t (512 * b + 7) = 1).
  { unfold tb. replace ((512 * b) / 8) with (64 * b) by lia. replace ((512 * b + 7) / 8) with (64 * b) by lia. replace ((512 * b) mod 8) with 0 by lia. replace ((512 * b + 7) mod 8) with 7 by lia.
    assert (V : zn 0 t (64 * b) = 1) by (unfold t; apply zn_same; lia). rewrite V. split; reflexivity. }
  unfold homob. destruct (_ <=? _); [|reflexivity]. cbn [andb]. apply orb_false_iff. split; apply Z.eqb_neq; intros D.
  - pose proof (ts_zero t (512 * b) (512 * (b + 1)) ltac:(lia) D (512 * b + 7) ltac:(lia)). lia.
  - pose proof (ts_full t (512 * b) (512 * (b + 1)) ltac:(lia) ltac:(lia) (512 * b) ltac:(lia)). lia.
Qed.
Lemma cf_size32_bad : exists m t r, addresses_ok m /\ text_ok t /\ zlen t = 2 ^ 32 - 64 /\ build_cf32 m t = Ok r /\ cf_size32 r < 2 ^ 29.
Proof.
  pose proof (mem_of_ok 0 0 ltac:(lia) eq_refl) as A.
  assert (G : forall t, text_ok t -> zlen t = 2 ^ 32 - 64 -> kept_blocks t = 2 ^ 26 - 1 /\ text_blocks t = 2 ^ 26 - 1 ->
    exists m t r, addresses_ok m /\ text_ok t /\ zlen t = 2 ^ 32 - 64 /\ build_cf32 m t = Ok r /\ cf_size32 r < 2 ^ 29).
  { intros t T L [K N]. destruct (build_cf_gen32 (mem_of 0 0) t A T ltac:(lia)) as [B _]. rewrite <- kept_ne in B. destruct (B ltac:(right; lia)) as (r & E & _).
    exists (mem_of 0 0), t, r. split; [exact A|]. split; [exact T|]. split; [exact L|]. split; [exact E|].
    destruct (cf_sizes32 (mem_of 0 0) t r A T ltac:(lia) E) as [_ ->]. rewrite K, N. reflexivity. }
  apply (G (repeat 1 (Z.to_nat (64 * (2 ^ 26 - 1))))).
  - apply Forall_forall. intros x Hx. apply repeat_spec in Hx. subst. lia.
  - rewrite zlen_repeat. clear. lia.
  - apply repeat_kept. clear. lia.
Qed.
