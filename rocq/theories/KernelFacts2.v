(** The micro-benchmarks: calls, queries, totals. *)
From Coq Require Import ZifyBool.
From Verif Require Import Perf PerfFacts Base BaseFacts Mem MemFacts Tables Words WordFacts Blocks BlockFacts Spec SpecIndex SpecRandom SpecKernel SpecPerf Usage BitmapFacts ProgramFacts PropFacts2 IndexFacts
  Random RandomFacts Kernels KernelFacts.
Ltac Zify.zify_post_hook ::= Z.div_mod_to_equations.

(** ** Lists *)
Lemma find_one_select B : forall k, 0 <= k < count_true B -> is_select B k (find_one B k).
Proof.
  induction B as [|b B IH]; intros k Hk; [cbn in Hk; lia|]. cbn [count_true find_one] in *.
  assert (S : forall k, 0 <= k < count_true B -> is_select (b :: B) (b2z b + k) (1 + find_one B k)).
  { intros k' Hk'. destruct (IH k' Hk') as (R1 & R2 & R3). split; [unfold zlen in *; cbn [length]; lia|]. split.
    - unfold bit, zn in *. replace (Z.to_nat (1 + find_one B k')) with (S (Z.to_nat (find_one B k'))) by lia. exact R2.
    - unfold ones_before in *. replace (Z.to_nat (1 + find_one B k')) with (S (Z.to_nat (find_one B k'))) by lia. cbn [firstn count_true]. lia. }
  destruct b; cbn [b2z] in *.
  - destruct (Z.eqb_spec k 0).
    + subst. split; [unfold zlen; cbn [length]; lia|]. split; reflexivity.
    + replace k with (1 + (k - 1)) at 1 by lia. apply S. lia.
  - replace k with (0 + k) at 1 by lia. apply S. lia.
Qed.

Lemma slice_words ws a n : 0 <= a -> 0 <= n -> slice (bits_of_words ws) (64 * a) (64 * n) = bits_of_words (slice ws a n).
Proof.
  intros Ha Hn. unfold slice.
  assert (SK : forall m l, skipn (64 * m) (bits_of_words l) = bits_of_words (skipn m l)).
  { induction m; intros l; [rewrite Nat.mul_0_r; reflexivity|]. destruct l as [|w l]; [rewrite !skipn_nil; reflexivity|].
    cbn [skipn bits_of_words flat_map]. rewrite skipn_app.
    assert (L : length (bits_of_word w) = 64%nat) by (pose proof (zlen_bits_of_word w) as E; unfold zlen in E; lia).
    rewrite skipn_all2 by (rewrite L; lia). rewrite L. replace (64 * S m - 64)%nat with (64 * m)%nat by lia. apply IHm. }
  assert (F : forall m l, firstn (64 * m) (bits_of_words l) = bits_of_words (firstn m l)).
  { induction m; intros l; [rewrite Nat.mul_0_r; reflexivity|]. destruct l as [|w l]; [rewrite !firstn_nil; reflexivity|].
    cbn [firstn bits_of_words flat_map]. rewrite firstn_app.
    assert (L : length (bits_of_word w) = 64%nat) by (pose proof (zlen_bits_of_word w) as E; unfold zlen in E; lia).
    rewrite firstn_all2 by (rewrite L; lia). rewrite L. replace (64 * S m - 64)%nat with (64 * m)%nat by lia. rewrite IHm. reflexivity. }
  replace (Z.to_nat (64 * a)) with (64 * Z.to_nat a)%nat by lia. replace (Z.to_nat (64 * n)) with (64 * Z.to_nat n)%nat by lia.
  rewrite SK, F. reflexivity.
Qed.

Lemma slice_bones arr o n t : place_ok arr o n -> 0 <= n -> 0 <= t <= 64 * n -> bones (at_word arr o) t = ones_before (bits_of_words (slice arr o n)) t.
Proof.
  intros (H1 & H2 & H3) Hn Ht. rewrite ones_before_sum by (rewrite zlen_bits, zlen_slice by lia; lia). apply sumf_ext. intros i Hi.
  rewrite bit_words by (rewrite zlen_slice by lia; lia). unfold bbit, wbit. rewrite zn_slice by lia. reflexivity.
Qed.

Lemma slice_bsel arr o n k r : place_ok arr o n -> 0 <= n -> bsel (at_word arr o) n k r -> is_select (bits_of_words (slice arr o n)) k r.
Proof.
  intros H Hn (R1 & R2 & R3). pose proof H as (H1 & H2 & H3). split; [rewrite zlen_bits, zlen_slice by lia; lia|].
  rewrite <- (slice_bones arr o n) by (auto; lia). split; auto.
  assert (E : bones (at_word arr o) (r + 1) = bones (at_word arr o) r + bbit (at_word arr o) r) by (unfold bones; apply sumf_succ; lia).
  rewrite !(slice_bones arr o n) in E by (auto; lia). rewrite ones_before_succ in E by (rewrite zlen_bits, zlen_slice by lia; lia).
  rewrite R2 in E. destruct (bit _ r); cbn [b2z] in E; [auto|lia].
Qed.

Lemma value_word w : 0 <= w < 2 ^ 64 -> bits_value (bits_of_word w) = w.
Proof.
  intros Hw. unfold bits_of_word.
  assert (G : forall n a w, 0 <= a -> 0 <= w < 2 ^ Z.of_nat n -> bits_value (map (fun i => Z.testbit w (i - a)) (zrange a n)) = w).
  { clear. induction n; intros a w Ha Hw; [cbn in *; lia|]. cbn [zrange map bits_value].
    assert (E : bits_value (map (fun i => Z.testbit w (i - a)) (zrange (a + 1) n)) = w / 2).
    { rewrite <- (IHn (a + 1) (w / 2)); [|lia|rewrite Nat2Z.inj_succ, Z.pow_succ_r in Hw by lia; lia]. f_equal. apply map_ext_in.
      intros i Hi. apply in_zrange in Hi. rewrite <- Z.div2_div, Z.div2_spec, Z.shiftr_spec by lia. f_equal. lia. }
    rewrite E. rewrite Z.sub_diag, Z.bit0_odd, Zodd_mod. destruct (Zeq_bool (w mod 2) 1) eqn:Q; cbn [b2z].
    - apply Zeq_bool_eq in Q. lia.
    - apply Zeq_bool_neq in Q. lia. }
  transitivity (bits_value (map (fun i => Z.testbit w (i - 0)) (zrange 0 64))); [|apply G; auto; lia]. reflexivity.
Qed.

(** ** One call *)
Definition mem (p : kprog) (bits : list Z) : list Z := match p with KSearch _ _ => map popcount bits | _ => bits end.
Definition ks_ok (p : kprog) (s : kstat) : Prop :=
  match p with
  | KRank w _ => stat_ok (lanes w) (ks_rank s)
  | KSelect w _ => stat_ok (lanes w) (ks_rank s) /\ stat_ok (lanes w) (ks_select s)
  | KSearch w _ => sums_ok w (ks_own s)
  | KPrefix w _ | KPopsel w _ => length (ks_own s) = lanes w
  | _ => True
  end.
Definition arg_ok (q : question) (b : list bool) (k : Z) : Prop :=
  match q_arg q with ANone => True | ABelow m => 0 <= k < m | AOnes _ => 0 <= k < count_true b end.

Lemma ks_init p : ks_ok p (kstat_init p).
Proof.
  destruct p; cbn [ks_ok]; auto; try apply stat_init_ok; try (split; apply stat_init_ok); try (cbn; apply repeat_length).
Qed.

(** Words per bucket. *)
Definition bw (p : kprog) : Z := bucket_bits p / 64.
Lemma bw_bits p : bucket_bits p = 64 * bw p /\ 1 <= bw p <= 8.
Proof. unfold bw. destruct p; try destruct w; cbn; lia. Qed.
Lemma ask_bits p : q_bits (asks p) = bucket_bits p.
Proof. destruct p; reflexivity. Qed.

Lemma bucket_words p bits j : 0 <= j -> bucket (asks p) (bits_of_words bits) j = bits_of_words (slice bits (bw p * j) (bw p)).
Proof.
  intros Hj. unfold bucket. rewrite ask_bits. destruct (bw_bits p) as [E H]. rewrite E. rewrite <- slice_words by nia. f_equal. lia.
Qed.

Lemma slice_map {A B} (f : A -> B) l a n : slice (map f l) a n = map f (slice l a n).
Proof. unfold slice. rewrite skipn_map, firstn_map. reflexivity. Qed.

Lemma words_slice ws a n : words_ok ws -> words_ok (slice ws a n).
Proof. intros H. unfold slice, words_ok. rewrite <- (firstn_skipn (Z.to_nat a) ws) in H. apply Forall_app in H as [_ H]. rewrite <- (firstn_skipn (Z.to_nat n)) in H. apply Forall_app in H as [H _]. exact H. Qed.

Lemma psum_counts ws i : 0 <= i <= zlen ws -> psum (map popcount ws) i = ones_before (bits_of_words ws) (64 * i).
Proof.
  intros Hi. unfold ones_before, psum.
  assert (F : forall m l, firstn (64 * m) (bits_of_words l) = bits_of_words (firstn m l)).
  { induction m; intros l; [rewrite Nat.mul_0_r; reflexivity|]. destruct l as [|w l]; [rewrite !firstn_nil; reflexivity|].
    cbn [firstn bits_of_words flat_map]. rewrite firstn_app.
    assert (L : length (bits_of_word w) = 64%nat) by (pose proof (zlen_bits_of_word w) as E; unfold zlen in E; lia).
    rewrite firstn_all2 by (rewrite L; lia). rewrite L. replace (64 * S m - 64)%nat with (64 * m)%nat by lia. rewrite IHm. reflexivity. }
  replace (Z.to_nat (64 * i)) with (64 * Z.to_nat i)%nat by lia. rewrite F, firstn_map. generalize (firstn (Z.to_nat i) ws). clear.
  induction l as [|w l IH]; [reflexivity|]. cbn [map fold_right bits_of_words flat_map]. rewrite count_true_app, <- popcount_word. unfold bits_of_words in IH. lia.
Qed.

Lemma counts_ok bits : words_ok (map popcount bits).
Proof. apply Forall_forall. intros x Hx. apply in_map_iff in Hx as (w & <- & _). rewrite popcount_word, count_true_all, zlen_bits_of_word. pose proof (ones_before_bound (bits_of_word w) 64). rewrite zlen_bits_of_word in *. lia. Qed.

(** The word of the (k+1)-th one. *)
Lemma search_word A k i s : 0 <= k < count_true (bits_of_words A) -> is_search (map popcount A) k (i, s) ->
  s = ones_before (bits_of_words A) (64 * (find_one (bits_of_words A) k / 64)).
Proof.
  intros Hk (H1 & -> & H2). unfold zlen in H1. rewrite map_length in H1. fold (zlen A) in H1. rewrite !psum_counts in * by lia.
  destruct (find_one_select _ _ Hk) as (P1 & P2 & P3). rewrite zlen_bits in P1. set (p := find_one _ k) in *.
  assert (p / 64 = i); [|congruence].
  assert (64 * i <= p).
  { destruct (Z_le_gt_dec (64 * i) p); auto. pose proof (ones_before_mono (bits_of_words A) (p + 1) (64 * i) ltac:(lia) ltac:(rewrite zlen_bits; lia)) as M.
    rewrite ones_before_succ, P2, P3 in M by (rewrite zlen_bits; lia). cbn [b2z] in M. lia. }
  assert (p < 64 * (i + 1)).
  { destruct (Z_lt_ge_dec p (64 * (i + 1))); auto. pose proof (ones_before_mono (bits_of_words A) (64 * (i + 1)) p ltac:(lia) ltac:(rewrite zlen_bits; lia)) as M. lia. }
  lia.
Qed.

Lemma slice_head arr o n : place_ok arr o n -> 1 <= n -> exists r, slice arr o n = zn 0 arr o :: r.
Proof.
  intros (H1 & H2 & H3) Hn. pose proof (zlen_slice arr o n ltac:(lia) ltac:(lia) ltac:(lia)) as L. pose proof (zn_slice arr o n 0 ltac:(lia) H2) as E.
  destruct (slice arr o n) as [|a r]; [cbn in L; lia|]. exists r. unfold W, at_word in E. cbn [w_arr w_off] in E. rewrite Z.add_0_r in E. rewrite <- E. reflexivity.
Qed.
Lemma first_word arr o n t : place_ok arr o n -> 1 <= n -> 0 <= t <= 64 -> ones_before (bits_of_words (slice arr o n)) t = ones_before (bits_of_word (zn 0 arr o)) t.
Proof.
  intros H Hn Ht. destruct (slice_head _ _ _ H Hn) as (r & ->). unfold ones_before. cbn [bits_of_words flat_map]. rewrite firstn_app.
  pose proof (zlen_bits_of_word (zn 0 arr o)) as L. unfold zlen in L. remember (bits_of_word (zn 0 arr o)) as b. replace (Z.to_nat t - length b)%nat with 0%nat by lia.
  cbn [firstn]. rewrite app_nil_r. reflexivity.
Qed.
Lemma place_less arr o n m : place_ok arr o n -> m <= n -> place_ok arr o m.
Proof. intros (H1 & H2 & H3) L. repeat split; auto. lia. Qed.

Lemma kcall_ok c p s bits j k : prog_ok p = true -> words_ok bits -> 0 <= j -> bw p * (j + 1) <= zlen bits -> ks_ok p s ->
  arg_ok (asks p) (bucket (asks p) (bits_of_words bits) j) k ->
  exists s', kcall c p s {| w_arr := mem p bits; w_off := bw p * j |} k = Ok (q_answer (asks p) (bucket (asks p) (bits_of_words bits) j) k, s') /\ ks_ok p s'.
Proof.
  intros Hp Hb Hj Hl Hs Hk. rewrite bucket_words in * by lia. destruct (bw_bits p) as [EB HB].
  assert (P : place_ok bits (bw p * j) (bw p)) by (repeat split; auto; nia).
  set (o := bw p * j) in *. change {| w_arr := mem p bits; w_off := o |} with (at_word (mem p bits) o).
  pose proof (place_blk _ _ _ P) as HK.
  assert (LS : zlen (slice bits o (bw p)) = bw p) by (apply zlen_slice; destruct P as (_ & ? & ?); lia).
  destruct p; cbn [kcall mem asks q_answer] in *; unfold arg_ok in Hk; cbn [asks q_arg ask_rank64 ask_rank ask_select ask_search ask_prefix ask_count ask_first] in Hk;
    cbn [q_answer ask_rank64 ask_rank ask_select ask_search ask_prefix ask_count ask_first ks_ok prog_ok] in *.
  - rewrite rank64_kernel_ok by (auto; eapply place_less; eauto; lia). cbn [bind]. eexists. split; [f_equal; apply (f_equal2 pair); [|reflexivity]|exact I].
    rewrite first_word; auto; destruct (k =? 0) eqn:E; lia.
  - assert (R : rank_result (lanes w) (at_word bits o) k (rank_w c w m (ks_rank s) (at_word bits o) k)).
    { destruct w; cbn [rank_w lanes] in *; [apply rank_u256_ok|apply rank_u512_ok]; auto. }
    destruct R as (st & -> & R). cbn [bind]. eexists. split; [f_equal; apply (f_equal2 pair); [|reflexivity]|cbn; exact R]. unfold rank_spec. apply slice_bones; auto; destruct w; cbn in *; lia.
  - rewrite ldw_ok with (n := bw (KSelect64 m)) by (auto; lia). cbn [bind].
    destruct (slice_head _ _ _ P ltac:(lia)) as (r & ER). rewrite ER in *. cbn in LS. destruct r; [|unfold zlen in LS; cbn in LS; lia]. cbn [bits_of_words flat_map] in *. rewrite app_nil_r in *.
    replace (W (at_word bits o) 0) with (zn 0 bits o) by (unfold W, at_word; cbn [w_arr w_off]; rewrite Z.add_0_r; reflexivity).
    destruct (select_u64_spec c m (zn 0 bits o) k) as (q & -> & Q & _); auto.
    { apply words_zn; auto. }
    cbn [bind]. eexists. split; [f_equal; apply (f_equal2 pair); [|reflexivity]|exact I]. eapply is_select_unique; [exact Q|]. apply find_one_select. auto.
  - assert (R : select_result (lanes w) (at_word bits o) k (select_w c w m (ks_select s) (at_word bits o) k)).
    { assert (0 <= k < bones (at_word bits o) (64 * lz w)).
      { rewrite (slice_bones bits o (lz w)); try lia; [|destruct w; exact P]. rewrite count_true_all, zlen_bits, LS in Hk. destruct w; exact Hk. }
      destruct w; cbn [select_w lanes] in *; [apply select_u256_ok|apply select_u512_ok]; try apply Hs; auto. }
    destruct R as (q & st & -> & Q & R). cbn [bind]. eexists. split; [f_equal; apply (f_equal2 pair); [|reflexivity]|cbn; split; [apply Hs|exact R]].
    eapply is_select_unique; [|apply find_one_select; auto]. apply slice_bsel; auto; try lia. destruct w; exact Q.
  - assert (PM : place_ok (map popcount bits) o (lz w)).
    { destruct P as (P1 & P2 & P3). split; [apply counts_ok|]. split; auto. unfold zlen. rewrite map_length. fold (zlen bits). destruct w; exact P3. }
    assert (BW : bw (KSearch w m) = lz w) by (destruct w; reflexivity). rewrite BW in *.
    assert (T : psum (slice (map popcount bits) o (lz w)) (lz w) = count_true (bits_of_words (slice bits o (lz w)))).
    { rewrite slice_map, psum_counts by lia. rewrite count_true_all, zlen_bits, LS. reflexivity. }
    assert (TB : count_true (bits_of_words (slice bits o (lz w))) <= 512).
    { rewrite count_true_all, zlen_bits, LS. pose proof (ones_before_bound (bits_of_words (slice bits o (lz w))) (64 * lz w)). rewrite zlen_bits, LS in *. destruct (lanes_cases w); lia. }
    destruct (search_kernel_in c w m (ks_own s) (map popcount bits) o k PM Hs) as (i & t & sums & S1 & -> & S2); try lia.
    cbn [bind]. eexists. split; [f_equal; apply (f_equal2 pair); [|reflexivity]|cbn; exact S2]. rewrite slice_map in S1. rewrite (search_word _ _ _ _ Hk S1). reflexivity.
  - assert (BW : bw (KPrefix w m) = lz w) by (destruct w; reflexivity). rewrite BW in *.
    destruct (prefix_kernel_ok w m (ks_own s) bits o k P Hs) as (sums & -> & L); [destruct w; exact Hk|]. cbn [bind]. eexists. split; [f_equal; apply (f_equal2 pair); [|reflexivity]|cbn; exact L].
    f_equal. assert (HK2 : 0 <= k < lz w) by (destruct w; exact Hk). rewrite psum_slice by (auto; lia). apply sumf_ext. intros i Hi.
    match goal with |- _ = bits_value (slice ?b (64 * i) 64) => change (slice b (64 * i) 64) with (slice b (64 * i) (64 * 1)) end. rewrite slice_words by lia.
    assert (P1 : place_ok (slice bits o (lz w)) i 1) by (split; [apply words_slice; auto|lia]).
    destruct (slice_head _ _ _ P1 ltac:(lia)) as (r & ER). pose proof (zlen_slice (slice bits o (lz w)) i 1 ltac:(lia) ltac:(lia) ltac:(lia)) as L1. rewrite ER in *.
    destruct r; [|unfold zlen in L1; cbn [length] in L1; lia]. cbn [bits_of_words flat_map]. rewrite app_nil_r, zn_slice by (destruct P as (_ & ? & _); lia).
    symmetry. apply value_word. apply words_zn; auto.
  - assert (BW : bw (KPopcnt w m) = lz w) by (destruct w; reflexivity). rewrite BW in *.
    rewrite popcnt_kernel_ok; auto; [|destruct m; try discriminate; unfold pm_ok; auto]. cbn [bind]. eauto.
  - assert (BW : bw (KPopcntVec w) = lz w) by (destruct w; reflexivity). rewrite BW in *.
    rewrite popcnt_vec_ok by auto. cbn [bind]. eexists. split; [f_equal; apply (f_equal2 pair); [|reflexivity]|exact I]. rewrite first_word by (auto; lia).
    destruct (slice_head _ _ _ P ltac:(lia)) as (r & ->). cbn [map]. unfold zn at 1. cbn [Z.to_nat nth]. rewrite count_true_all, zlen_bits_of_word. reflexivity.
  - assert (BW : bw (KPopsel w vec) = lz w) by (destruct w; reflexivity). rewrite BW in *.
    destruct (popsel_kernel_ok w vec (ks_own s) bits o P Hs) as (l & -> & L). cbn [bind]. eexists. split; [f_equal; apply (f_equal2 pair); [|reflexivity]|cbn; exact L]. rewrite first_word by (auto; lia).
    destruct (slice_head _ _ _ P ltac:(lia)) as (r & ->). cbn [map]. unfold zn at 1. cbn [Z.to_nat nth]. rewrite count_true_all, zlen_bits_of_word. reflexivity.
Qed.

(** ** Queries *)
Definition state_at (pos : Z) : Z := (71 + pos * 0x9E3779B97F4A7C15) mod 2 ^ 64.
Lemma next_at pos : 0 <= pos -> sm_next (state_at pos) = (draw 71 pos, state_at (pos + 1)).
Proof. apply sm_next_draw. Qed.
Definition place (p : kprog) (q : Z * Z) : Z * Z := let '(j, k) := q in (bw p * j, k).
Definition size_ok (p : kprog) (bits : list Z) (n : Z) : Prop := bucket_bits p <= n < 2 ^ 64 /\ n / 64 <= zlen bits.

Lemma bucket_word_ok p n z : bucket_bits p <= n < 2 ^ 64 -> 0 <= z -> bucket_word p n z = Ok (bw p * (z mod (n / bucket_bits p))).
Proof.
  intros Hn Hz. destruct (bw_bits p) as [E H]. unfold bucket_word. rewrite E in *.
  assert (1 <= n / (64 * bw p)) by (apply Z.div_le_lower_bound; lia). replace (n / (64 * bw p) =? 0) with false by lia.
  pose proof (Z.mod_pos_bound z (n / (64 * bw p)) ltac:(lia)). pose proof (Z.mul_div_le n (64 * bw p) ltac:(lia)).
  set (nb := n / (64 * bw p)) in *. set (j := z mod nb) in *. f_equal. rewrite wrap_small by nia.
  replace (j * (64 * bw p)) with (bw p * j * 64) by lia. apply Z.div_mul. lia.
Qed.

Lemma bucket_in p bits n j : size_ok p bits n -> 0 <= j < n / q_bits (asks p) -> bw p * (j + 1) <= zlen bits.
Proof.
  intros [H1 H2] Hj. rewrite ask_bits in Hj. destruct (bw_bits p) as [E H]. rewrite E in *.
  rewrite <- Z.div_div in Hj by lia. pose proof (Z.mul_div_le (n / 64) (bw p) ltac:(lia)). nia.
Qed.

Definition query_ok (q : question) (B : list bool) (n : Z) (jk : Z * Z) : Prop :=
  let '(j, k) := jk in 0 <= j < n / q_bits q /\ arg_ok q (bucket q B j) k.
Lemma asked_valid q B n pos k qs : asked q B n pos k qs -> 0 < n / q_bits q -> (forall m, q_arg q = ABelow m -> 0 < m) -> Forall (query_ok q B n) qs.
Proof.
  intros H Hn Hm. induction H; auto; constructor; auto; subst j; split; try (apply Z.mod_pos_bound; lia); unfold arg_ok; rewrite H; auto; apply Z.mod_pos_bound; auto.
Qed.
Lemma asks_below p m : q_arg (asks p) = ABelow m -> 0 < m.
Proof. destruct p; try destruct w; cbn; intros E; try discriminate; injection E as <-; reflexivity. Qed.
Lemma asked_unique q B n pos k qs : asked q B n pos k qs -> forall qs', asked q B n pos k qs' -> qs = qs'.
Proof.
  induction 1; intros qs' H'; inversion H'; subst; try congruence; try (exfalso; lia); try (apply f_equal2; [congruence|]); apply IHasked; assumption.
Qed.

Lemma count_bucket p w bits j : bw p = lz w -> words_ok bits -> 0 <= j -> bw p * (j + 1) <= zlen bits ->
  sum_loop (ldw {| w_arr := map popcount bits; w_off := bw p * j |}) 0 (lanes w) 0 = Ok (count_true (bucket (asks p) (bits_of_words bits) j)).
Proof.
  intros E Hb Hj Hl. rewrite bucket_words by lia. destruct (bw_bits p) as [EB HB]. set (o := bw p * j) in *. assert (HO : 0 <= o /\ o + bw p <= zlen bits) by nia.
  assert (PM : place_ok (map popcount bits) o (bw p)) by (split; [apply counts_ok|]; unfold zlen; rewrite map_length; fold (zlen bits); lia).
  assert (LS : zlen (slice bits o (bw p)) = bw p) by (apply zlen_slice; lia).
  pose proof (sum_loop_mod (ldw (at_word (map popcount bits) o)) (W (at_word (map popcount bits) o)) (lanes w) 0 0) as S.
  change {| w_arr := map popcount bits; w_off := o |} with (at_word (map popcount bits) o).
  change (u64 0) with 0 in S. rewrite S. 2:{ intros i Hi. apply ldw_ok with (n := bw p); [apply place_blk; auto|lia]. }
  rewrite !Z.add_0_l, <- (psum_slice _ _ (bw p)) by (auto; lia). rewrite slice_map, psum_counts by lia. rewrite <- E. rewrite count_true_all, zlen_bits, LS.
  pose proof (ones_before_bound (bits_of_words (slice bits o (bw p))) (64 * bw p)) as OB. rewrite zlen_bits, LS in OB. rewrite wrap_small by lia. reflexivity.
Qed.

Lemma rank_bucket c w m s bits j : words_ok bits -> 0 <= j -> bw (KSelect w m) * (j + 1) <= zlen bits -> stat_ok (lanes w) s ->
  exists st, rank_w c w RM_broadword_unrolled s {| w_arr := bits; w_off := bw (KSelect w m) * j |} (bucket_bits (KSelect w m) - 1) =
    Ok (count_true (bucket (asks (KSelect w m)) (bits_of_words bits) j), st) /\ stat_ok (lanes w) st.
Proof.
  intros Hb Hj Hl Hs. rewrite bucket_words by lia. assert (BW : bw (KSelect w m) = lz w) by (destruct w; reflexivity). assert (BB : bucket_bits (KSelect w m) = 64 * lz w) by reflexivity.
  rewrite BW, BB in *. assert (P : place_ok bits (lz w * j) (lz w)) by (repeat split; auto; lia).
  pose proof (place_blk _ _ _ P) as HK. assert (LS : zlen (slice bits (lz w * j) (lz w)) = lz w) by (apply zlen_slice; lia).
  assert (R : rank_result (lanes w) (at_word bits (lz w * j)) (64 * lz w - 1) (rank_w c w RM_broadword_unrolled s (at_word bits (lz w * j)) (64 * lz w - 1))).
  { destruct w; cbn [rank_w lanes] in *; [apply rank_u256_ok|apply rank_u512_ok]; auto; lia. }
  destruct R as (st & E & R). exists st. split; auto. rewrite count_true_all, zlen_bits, LS, <- slice_bones by (auto; lia).
  replace (64 * lz w) with (64 * lz w - 1 + 1) at 2 by lia. exact E.
Qed.

Lemma word_bucket m bits j : words_ok bits -> 0 <= j -> bw (KSelect64 m) * (j + 1) <= zlen bits ->
  exists v, ldw {| w_arr := bits; w_off := bw (KSelect64 m) * j |} 0 = Ok v /\ popcount v = count_true (bucket (asks (KSelect64 m)) (bits_of_words bits) j).
Proof.
  intros Hb Hj Hl. change (bw (KSelect64 m)) with 1 in *. assert (P : place_ok bits (1 * j) 1) by (repeat split; auto; lia).
  exists (zn 0 bits (1 * j)). split.
  - change {| w_arr := bits; w_off := 1 * j |} with (at_word bits (1 * j)). rewrite ldw_ok with (n := 1) by (try apply place_blk; auto; lia).
    unfold W, at_word. cbn [w_arr w_off]. rewrite Z.add_0_r. reflexivity.
  - rewrite bucket_words by lia. change (bw (KSelect64 m)) with 1.
    destruct (slice_head _ _ _ P ltac:(lia)) as (r & ER). pose proof (zlen_slice bits (1 * j) 1 ltac:(lia) ltac:(lia) ltac:(lia)) as L1. rewrite ER in *.
    destruct r; [|unfold zlen in L1; cbn [length] in L1; lia]. cbn [bits_of_words flat_map]. rewrite app_nil_r, popcount_word. reflexivity.
Qed.

Lemma queries_ok c p bits n pos nq qs : asked (asks p) (bits_of_words bits) n pos nq qs -> words_ok bits -> size_ok p bits n -> 0 <= pos ->
  exists F, forall fuel s, (F <= fuel)%nat -> ks_ok p s ->
    exists s', queries c p (mem p bits) n fuel nq s (state_at pos) = Ok (map (place p) qs, s') /\ ks_ok p s'.
Proof.
  intros H Hb Hs. set (B := bits_of_words bits) in *.
  assert (NB : 1 <= n / q_bits (asks p)).
  { destruct Hs as [? _]. rewrite ask_bits. destruct (bw_bits p). apply Z.div_le_lower_bound; lia. }
  induction H; intros Hpos.
  - exists 0%nat. intros fuel s _ HS. exists s. destruct fuel; auto.
  - destruct (IHasked ltac:(lia)) as (F & IH). exists (S F). intros fuel s Hf HS. destruct fuel as [|fuel]; [lia|].
    cbn [queries]. rewrite next_at by auto. rewrite bucket_word_ok by (try apply Hs; apply draw_range). cbn [bind].
    destruct (IH fuel s ltac:(lia) HS) as (s' & E & HS'). exists s'. split; auto. rewrite ask_bits in H0. subst j.
    destruct p; try discriminate H; rewrite E; reflexivity.
  - destruct (IHasked ltac:(lia)) as (F & IH). exists (S F). intros fuel s Hf HS. destruct fuel as [|fuel]; [lia|].
    cbn [queries]. rewrite next_at by auto. rewrite bucket_word_ok by (try apply Hs; apply draw_range). cbn [bind].
    destruct (IH fuel s ltac:(lia) HS) as (s' & E & HS'). exists s'. split; auto. rewrite ask_bits in H0. subst j.
    pose proof (asks_below _ _ H) as Hm.
    destruct p; try discriminate H; cbn in H; injection H as <-; rewrite next_at by lia; replace (pos + 1 + 1) with (pos + 2) by lia.
    + cbn [modm Z.eqb bind]. rewrite E. reflexivity.
    + unfold modm. replace (64 * lz w =? 0) with false by (destruct w; reflexivity). cbn [bind]. rewrite E. reflexivity.
    + unfold modm. replace (lz w =? 0) with false by (destruct w; reflexivity). cbn [bind]. rewrite E. destruct w; reflexivity.
  - destruct (IHasked ltac:(lia)) as (F & IH). exists (S F). intros fuel s Hf HS. destruct fuel as [|fuel]; [lia|].
    assert (Hj : 0 <= j < n / q_bits (asks p)) by (subst j; apply Z.mod_pos_bound; lia). pose proof (bucket_in _ _ _ _ Hs Hj) as HI.
    cbn [queries]. rewrite next_at by auto. rewrite bucket_word_ok by (try apply Hs; apply draw_range). cbn [bind].
    rewrite ask_bits in H0. rewrite <- H0. clear H0.
    destruct p; try discriminate H; cbn [mem] in *.
    + destruct (word_bucket m bits j) as (v & -> & EC); auto; try lia. cbn [bind]. fold B in EC. rewrite EC.
      replace (count_true _ =? 0) with false by lia. rewrite next_at by lia. unfold modm. replace (count_true _ =? 0) with false by lia. cbn [bind].
      replace (pos + 1 + 1) with (pos + 2) by lia. destruct (IH fuel s ltac:(lia) HS) as (s' & -> & HS'). exists s'. auto.
    + destruct (rank_bucket c w m (ks_rank s) bits j) as (st & -> & R); auto; try lia; [apply HS|]. cbn [bind]. fold B.
      replace (count_true _ =? 0) with false by lia. rewrite next_at by lia. unfold modm. replace (count_true _ =? 0) with false by lia. cbn [bind].
      replace (pos + 1 + 1) with (pos + 2) by lia. edestruct (IH fuel) as (s' & -> & HS'); [lia| |exists s'; auto]. split; [exact R|apply HS].
    + rewrite (count_bucket (KSearch w m)); auto; try lia; [|destruct w; reflexivity]. cbn [bind]. fold B. rewrite next_at by lia.
      unfold modm. replace (count_true _ =? 0) with false by lia. cbn [bind].
      replace (pos + 1 + 1) with (pos + 2) by lia. destruct (IH fuel s ltac:(lia) HS) as (s' & -> & HS'). exists s'. auto.
  - destruct (IHasked ltac:(lia)) as (F & IH). exists (S F). intros fuel s Hf HS. destruct fuel as [|fuel]; [lia|].
    assert (Hj : 0 <= j < n / q_bits (asks p)) by (subst j; apply Z.mod_pos_bound; lia). pose proof (bucket_in _ _ _ _ Hs Hj) as HI.
    cbn [queries]. rewrite next_at by auto. rewrite bucket_word_ok by (try apply Hs; apply draw_range). cbn [bind].
    rewrite ask_bits in H0. rewrite <- H0. clear H0.
    destruct p; try discriminate H; cbn [mem] in *.
    + destruct (word_bucket m bits j) as (v & -> & EC); auto; try lia. cbn [bind]. fold B in EC. rewrite EC.
      replace (count_true _ =? 0) with true by lia. destruct (IH fuel s ltac:(lia) HS) as (s' & -> & HS'). exists s'. auto.
    + destruct (rank_bucket c w m (ks_rank s) bits j) as (st & -> & R); auto; try lia; [apply HS|]. cbn [bind]. fold B.
      replace (count_true _ =? 0) with true by lia. edestruct (IH fuel) as (s' & -> & HS'); [lia| |exists s'; auto]. split; [exact R|apply HS].
Qed.

(** ** When the queries can be drawn *)
Lemma draw_period seed i m : draw seed (i + m * 2 ^ 64) = draw seed i.
Proof.
  unfold draw. f_equal. replace (seed + (i + m * 2 ^ 64 + 1) * 0x9E3779B97F4A7C15) with (seed + (i + 1) * 0x9E3779B97F4A7C15 + m * 0x9E3779B97F4A7C15 * 2 ^ 64) by ring.
  apply Z.mod_add. lia.
Qed.
Lemma asked_exists q B n : 0 < n / q_bits q < 2 ^ 64 ->
  (forall sk, q_arg q = AOnes sk -> sk = true /\ exists j, 0 <= j < n / q_bits q /\ 0 < count_true (bucket q B j)) ->
  forall k pos, 0 <= pos -> exists qs, asked q B n pos k qs.
Proof.
  intros Hn Hq. induction k as [|k IH]; intros pos Hpos; [exists []; constructor|].
  destruct (q_arg q) as [|m|sk] eqn:E.
  - destruct (IH (pos + 1) ltac:(lia)) as (qs & H). eexists. eapply asked_none; eauto.
  - destruct (IH (pos + 2) ltac:(lia)) as (qs & H). eexists. eapply asked_below; eauto.
  - destruct (Hq sk eq_refl) as (-> & j & Hj & Hc). destruct (draw_surj 71 j ltac:(lia)) as (i & Hi & Di).
    assert (G : forall d : nat, forall pos, 0 <= pos -> (exists r, pos <= r <= pos + Z.of_nat d /\ draw 71 r = j) -> exists qs, asked q B n pos (S k) qs).
    { clear pos Hpos. induction d as [|d IHd]; intros pos Hpos (r & Hr & Dr).
      - assert (r = pos) by lia. subst r. destruct (IH (pos + 2) ltac:(lia)) as (qs & H). eexists. eapply asked_ones; eauto. rewrite Dr, Z.mod_small by lia. exact Hc.
      - set (b := draw 71 pos mod (n / q_bits q)). assert (N0 : 0 <= count_true (bucket q B b)) by apply count_bounds.
        destruct (Z.eq_dec (count_true (bucket q B b)) 0) as [Z0|NZ].
        + assert (r <> pos) by (intros ->; unfold b in Z0; rewrite Dr, Z.mod_small in Z0 by lia; lia).
          destruct (IHd (pos + 1) ltac:(lia)) as (qs & H'); [exists r; split; auto; lia|]. eexists. eapply asked_skip; eauto.
        + destruct (IH (pos + 2) ltac:(lia)) as (qs & H). eexists. eapply asked_ones; eauto. fold b. lia. }
    apply (G (Z.to_nat (2 ^ 64 * 2 + pos)) pos Hpos). exists (i + (pos / 2 ^ 64 + 1) * 2 ^ 64). split; [|rewrite draw_period; auto]. lia.
Qed.

Lemma search_asked q B n nq : q_arg q = AOnes false -> forall a, (forall i, a <= i < a + Z.of_nat nq -> 0 < count_true (bucket q B (draw 71 (2 * i) mod (n / q_bits q)))) ->
  exists qs, asked q B n (2 * a) nq qs.
Proof.
  intros Hq. induction nq as [|nq IH]; intros a H; [exists []; constructor|].
  destruct (IH (a + 1)) as (qs & Hs); [intros i Hi; apply H; lia|]. eexists. eapply asked_ones; eauto; [apply H; lia|].
  replace (2 * a + 2) with (2 * (a + 1)) by lia. exact Hs.
Qed.

Lemma search_fails c w m bits n nq : words_ok bits -> size_ok (KSearch w m) bits n -> forall a fuel s, 0 <= a -> (nq <= fuel)%nat ->
  (exists i, a <= i < a + Z.of_nat nq /\ count_true (bucket (asks (KSearch w m)) (bits_of_words bits) (draw 71 (2 * i) mod (n / q_bits (asks (KSearch w m))))) = 0) ->
  queries c (KSearch w m) (map popcount bits) n fuel nq s (state_at (2 * a)) = Ub UB_div.
Proof.
  intros Hb Hs. assert (NB : 1 <= n / q_bits (asks (KSearch w m))).
  { destruct Hs as [? _]. rewrite ask_bits. destruct (bw_bits (KSearch w m)). apply Z.div_le_lower_bound; lia. }
  induction nq as [|nq IH]; intros a fuel s Ha Hf (i & Hi & Hz); [lia|]. destruct fuel as [|fuel]; [lia|].
  cbn [queries]. rewrite next_at by lia. rewrite bucket_word_ok by (try apply Hs; apply draw_range). cbn [bind].
  pose proof (Z.mod_pos_bound (draw 71 (2 * a)) (n / q_bits (asks (KSearch w m))) ltac:(lia)) as Hj. pose proof (bucket_in _ _ _ _ Hs Hj) as HI. rewrite ask_bits in Hj, HI, Hz.
  rewrite count_bucket; auto; try lia; [|destruct w; reflexivity]. cbn [bind]. rewrite next_at by lia.
  set (r := count_true _). unfold modm. destruct (Z.eqb_spec r 0); [reflexivity|]. cbn [bind].
  replace (2 * a + 1 + 1) with (2 * (a + 1)) by lia. rewrite IH; auto; try lia. exists i. rewrite ask_bits. split; auto.
  assert (i <> a) by (intros ->; apply n0; exact Hz). lia.
Qed.

(** ** Totals *)
Lemma foldM_map {A B C} (f : A -> C -> res A) (g : B -> C) l : forall s, foldM f (map g l) s = foldM (fun s x => f s (g x)) l s.
Proof. induction l as [|x l IH]; intros s; cbn; auto. destruct (f s (g x)); cbn; auto. Qed.

(** The number printed by one call of measure(). *)
Definition shown (p : kprog) (B : list bool) (junk : Z) (runs : nat) (qs : list (Z * Z)) : Z :=
  match p with
  | KPopcntVec _ => if (runs =? 0)%nat then junk else last (answers (asks p) B qs) junk
  | _ => (Z.of_nat runs * total (answers (asks p) B qs)) mod 2 ^ 64
  end.

Lemma kcall_place c p s bits n q : prog_ok p = true -> words_ok bits -> size_ok p bits n -> ks_ok p s -> query_ok (asks p) (bits_of_words bits) n q ->
  exists s', kcall c p s {| w_arr := mem p bits; w_off := fst (place p q) |} (snd (place p q)) =
    Ok (q_answer (asks p) (bucket (asks p) (bits_of_words bits) (fst q)) (snd q), s') /\ ks_ok p s'.
Proof.
  intros Hp Hb Hs Hk Hq. destruct q as [j k]. destruct Hq as [Hj Ha]. cbn [place fst snd].
  apply kcall_ok; auto; try lia. eapply bucket_in; eauto.
Qed.

Lemma last_def {A} (l : list A) a b : l <> [] -> last l a = last l b.
Proof. induction l as [|x l IH]; intros H; [congruence|]. destruct l; [reflexivity|]. cbn [last] in *. apply IH. discriminate. Qed.

Lemma last_cons {A} (l : list A) a x : last (a :: l) x = last l a.
Proof. destruct l as [|b l]; [reflexivity|]. change (last (a :: b :: l) x) with (last (b :: l) x). apply last_def. discriminate. Qed.

Lemma kmeasure_ok c p bits n junk runs qs s : prog_ok p = true -> words_ok bits -> size_ok p bits n -> Forall (query_ok (asks p) (bits_of_words bits) n) qs -> ks_ok p s ->
  exists s', kmeasure c p (mem p bits) junk runs (map (place p) qs) s = Ok (s', shown p (bits_of_words bits) junk runs qs) /\ ks_ok p s'.
Proof.
  intros Hp Hb Hz Hq Hs. set (B := bits_of_words bits) in *. unfold kmeasure.
  destruct (match p with KPopcntVec _ => true | _ => false end) eqn:EV.
  - set (f := fun '(s0, tmp) '(o, k) => _).
    assert (G : forall qs, Forall (query_ok (asks p) B n) qs -> forall s x, ks_ok p s -> exists s', foldM f (map (place p) qs) (s, x) = Ok (s', last (answers (asks p) B qs) x) /\ ks_ok p s').
    { clear s Hs qs Hq. induction qs as [|q qs IH]; intros Hq s x Hs; [exists s; auto|]. inversion_clear Hq as [|? ? Q1 Q2].
      destruct (kcall_place c p s bits n q Hp Hb Hz Hs Q1) as (s1 & E & H1). cbn [map foldM]. unfold f at 1.
      destruct (place p q) as [o k] eqn:EP. cbn [fst snd] in E. rewrite E. cbn [bind].
      replace (match p with KPopcntVec _ => _ | _ => _ end) with (q_answer (asks p) (bucket (asks p) (bits_of_words bits) (fst q)) (snd q)) by (destruct p; try discriminate; reflexivity).
      destruct (IH Q2 s1 (q_answer (asks p) (bucket (asks p) (bits_of_words bits) (fst q)) (snd q)) H1) as (s' & E' & H'). exists s'. split; auto. rewrite E'. do 2 f_equal.
      destruct q as [j k']. symmetry. apply last_cons. }
    replace (match p with KPopcntVec _ => junk | _ => 0 end) with junk by (destruct p; try discriminate; reflexivity).
    assert (SH : forall runs, shown p B junk runs qs = if (runs =? 0)%nat then junk else last (answers (asks p) B qs) junk) by (destruct p; try discriminate; reflexivity).
    rewrite SH.
    assert (L : forall r s x, ks_ok p s -> (answers (asks p) B qs = [] -> x = junk) ->
      exists s', foldM (fun st (_ : unit) => foldM f (map (place p) qs) st) (repeat tt r) (s, x) = Ok (s', if (r =? 0)%nat then x else last (answers (asks p) B qs) junk) /\ ks_ok p s').
    { clear s Hs. induction r; intros s x Hs Hx; [exists s; auto|]. cbn [repeat foldM]. destruct (G qs Hq s x Hs) as (s1 & E & H1). rewrite E. cbn [bind].
      destruct (IHr s1 (last (answers (asks p) B qs) x) H1) as (s' & E' & H'); [intros EA; rewrite EA; auto|]. exists s'. split; auto. rewrite E'. cbn [Nat.eqb]. do 2 f_equal.
      destruct (answers (asks p) B qs) eqn:EA; [rewrite Hx; auto; destruct r; reflexivity|]. destruct r; [|reflexivity]. apply last_def. discriminate. }
    apply L; auto.
  - replace (match p with KPopcntVec _ => junk | _ => 0 end) with 0 by (destruct p; try discriminate; reflexivity).
    assert (SH : shown p B junk runs qs = (Z.of_nat runs * total (answers (asks p) B qs)) mod 2 ^ 64) by (destruct p; try discriminate; reflexivity).
    rewrite SH. apply (runs_inv (ks_ok p)); auto. intros s0 acc H0. rewrite foldM_map.
    apply (acc_inv (ks_ok p) _ (fun '(j, k) => q_answer (asks p) (bucket (asks p) B j) k)); auto.
    intros s1 a q Hin H1. rewrite Forall_forall in Hq. destruct (kcall_place c p s1 bits n q Hp Hb Hz H1 (Hq q Hin)) as (s2 & E & H2).
    exists s2. split; auto. destruct (place p q) as [o k]. cbn [fst snd] in E. rewrite E. cbn [bind]. destruct q as [j k']. cbn [fst snd].
    rewrite u64_add_l. destruct p; try discriminate; reflexivity.
Qed.

Lemma kmeasures_ok c p bits n junk runs qs measures s : prog_ok p = true -> words_ok bits -> size_ok p bits n -> Forall (query_ok (asks p) (bits_of_words bits) n) qs -> ks_ok p s ->
  exists s', kmeasures c p (mem p bits) junk runs (map (place p) qs) measures s = Ok (s', repeat (shown p (bits_of_words bits) junk runs qs) measures) /\ ks_ok p s'.
Proof.
  intros Hp Hb Hz Hq Hs. unfold kmeasures.
  assert (G : forall m s outs, ks_ok p s -> exists s', foldM (fun '(s, outs) (_ : unit) => let* '(s, x) := kmeasure c p (mem p bits) junk runs (map (place p) qs) s in Ok (s, outs ++ [x]))
    (repeat tt m) (s, outs) = Ok (s', outs ++ repeat (shown p (bits_of_words bits) junk runs qs) m) /\ ks_ok p s').
  { clear s Hs. induction m; intros s outs Hs; [exists s; rewrite app_nil_r; auto|]. cbn [repeat foldM].
    destruct (kmeasure_ok c p bits n junk runs qs s Hp Hb Hz Hq Hs) as (s1 & -> & H1). cbn [bind].
    destruct (IHm s1 (outs ++ [shown p (bits_of_words bits) junk runs qs]) H1) as (s' & -> & H'). exists s'. rewrite <- app_assoc. auto. }
  apply (G measures s []); auto.
Qed.

(** ** The programs *)
Lemma micro_words sizes t p : sizes <> [] -> sizes_ok p sizes ->
  let B := micro_bits (64 * (last sizes 0 / 64)) t in
  exists bits, create_random_bits (repeat 0 (Z.to_nat (last sizes 0 / 64))) t 13 = Ok (bits, count_true B) /\ words_ok bits /\ zlen bits = last sizes 0 / 64 /\ bits_of_words bits = B /\
    exists i, 0 <= i < 256 /\ bit B i = true.
Proof.
  intros Hne [Hl Hs]. cbv zeta. set (w := last sizes 0 / 64).
  assert (Hw : 4 <= w < 2 ^ 58).
  { destruct sizes as [|n r]; [congruence|]. inversion_clear Hs as [|? ? H1 H2]. unfold w. lia. }
  destruct (create_zeros (Z.to_nat w) t 13) as (ws & r & E & Ww & Lw & Er & i & Hi & Bi); [lia|lia|lia|].
  destruct (create_contents (repeat 0 (Z.to_nat w)) t 13) as (ws' & E' & _ & Eb); [apply Forall_forall; intros x Hx; apply repeat_spec in Hx; subst x; lia|unfold zlen; rewrite repeat_length; lia|lia|].
  rewrite E in E'. inversion E' as [[E1 E2]]. subst ws'. clear E' E2.
  rewrite bits_of_zeros in Eb. unfold zlen in Eb at 1. rewrite repeat_length in Eb.
  assert (EB : micro_bits (64 * w) t = bits_of_words ws). { unfold micro_bits. rewrite Eb. repeat f_equal; lia. }
  exists ws. rewrite EB, <- Er. split; auto. split; auto. split; [lia|]. split; auto. exists i. auto.
Qed.

Lemma sizes_size p sizes bits n : sizes_ok p sizes -> zlen bits = last sizes 0 / 64 -> In n sizes -> size_ok p bits n.
Proof. intros [Hl Hs] L Hn. rewrite Forall_forall in Hs. specialize (Hs n Hn). split; [lia|]. rewrite L. apply Z.div_le_mono; lia. Qed.

Lemma size_positive p bits n : size_ok p bits n -> 0 < n / q_bits (asks p) < 2 ^ 64.
Proof.
  intros [H _]. rewrite ask_bits. destruct (bw_bits p) as [E ?]. assert (1 <= n / bucket_bits p) by (apply Z.div_le_lower_bound; lia).
  assert (n / bucket_bits p <= n) by (apply Z.div_le_upper_bound; nia). lia.
Qed.

Lemma micro_sizes c p bits junk nq runs measures sizes qss : prog_ok p = true -> words_ok bits -> Forall (size_ok p bits) sizes ->
  Forall2 (fun n qs => asked (asks p) (bits_of_words bits) n 0 nq qs) sizes qss ->
  exists F, forall fuel s outs, (F <= fuel)%nat -> ks_ok p s -> exists s', foldM (fun '(s, outs) n =>
      let* '(qs, s) := queries c p (mem p bits) n fuel nq s 71 in
      let* '(s, o) := kmeasures c p (mem p bits) junk runs qs measures s in
      Ok (s, outs ++ o)) sizes (s, outs) = Ok (s', outs ++ concat (map (fun qs => repeat (shown p (bits_of_words bits) junk runs qs) measures) qss)) /\ ks_ok p s'.
Proof.
  intros Hp Hb Hs H. induction H as [|n qs sizes qss Hq H IH].
  - exists 0%nat. intros fuel s outs _ HS. exists s. cbn. rewrite app_nil_r. auto.
  - inversion_clear Hs as [|? ? S1 S2]. destruct (IH S2) as (F & G). destruct (queries_ok c p bits n 0 nq qs Hq Hb S1 ltac:(lia)) as (F1 & Q).
    exists (F + F1)%nat. intros fuel s outs Hf HS. cbn [foldM]. destruct (Q fuel s ltac:(lia) HS) as (s1 & E1 & H1). change (state_at 0) with 71 in E1. rewrite E1. cbn [bind].
    pose proof (size_positive _ _ _ S1).
    destruct (kmeasures_ok c p bits n junk runs qs measures s1 Hp Hb S1) as (s2 & -> & H2); auto; [eapply asked_valid; eauto; [lia|apply asks_below]|]. cbn [bind].
    destruct (G fuel s2 (outs ++ repeat (shown p (bits_of_words bits) junk runs qs) measures) ltac:(lia) H2) as (s' & -> & H'). exists s'. cbn [map concat]. rewrite <- app_assoc. auto.
Qed.

Lemma micro_total c p junk t sizes nq runs measures qss : prog_ok p = true -> sizes <> [] -> sizes_ok p sizes ->
  let B := micro_bits (64 * (last sizes 0 / 64)) t in
  Forall2 (fun n qs => asked (asks p) B n 0 nq qs) sizes qss ->
  exists F, forall fuel, (F <= fuel)%nat ->
    micro_bench c p junk t sizes fuel nq runs measures = Ok (count_true B, concat (map (fun qs => repeat (shown p B junk runs qs) measures) qss)).
Proof.
  intros Hp Hne Hs. cbv zeta. intros H. destruct (micro_words sizes t p Hne Hs) as (bits & E & Hb & Lb & EB & _). rewrite <- EB in *.
  destruct (micro_sizes c p bits junk nq runs measures sizes qss Hp Hb) as (F & G); auto.
  { apply Forall_forall. intros n Hn. eapply sizes_size; eauto. }
  exists F. intros fuel Hf. unfold micro_bench. rewrite E. cbn [bind]. fold (mem p bits).
  destruct (G fuel (kstat_init p) [] Hf (ks_init p)) as (s' & -> & _). reflexivity.
Qed.

(** Every program but perf_search gets its queries. *)
Lemma micro_asked p t sizes nq : sizes <> [] -> sizes_ok p sizes -> (forall w m, p <> KSearch w m) ->
  exists qss, Forall2 (fun n qs => asked (asks p) (micro_bits (64 * (last sizes 0 / 64)) t) n 0 nq qs) sizes qss.
Proof.
  intros Hne Hs Hp. destruct (micro_words sizes t p Hne Hs) as (bits & _ & Hb & Lb & EB & i & Hi & Bi). set (B := micro_bits _ t) in *.
  assert (G : forall n, In n sizes -> exists qs, asked (asks p) B n 0 nq qs).
  { intros n Hn. pose proof (sizes_size _ _ _ _ Hs Lb Hn) as Z1. apply asked_exists; try lia; [eapply size_positive; eauto|].
    intros sk Hsk. split; [destruct p; try discriminate; cbn in Hsk; try congruence; exfalso; eapply Hp; reflexivity|].
    exists (i / q_bits (asks p)). destruct Hs as [Hl Hs]. rewrite Forall_forall in Hs. specialize (Hs n Hn). rewrite ask_bits. destruct (bw_bits p) as [E HB].
    assert (J : 0 <= i / bucket_bits p < n / bucket_bits p).
    { destruct p; try destruct w; cbn [bucket_bits lanes] in *; cbn in *; lia. }
    split; auto. pose proof J as J'. rewrite <- ask_bits in J'. pose proof (bucket_in p bits n _ Z1 J') as HI. rewrite ask_bits in HI.
    rewrite <- EB in *. unfold bucket. rewrite ask_bits, E in *. set (j := i / (64 * bw p)) in *.
    replace (64 * bw p * j) with (64 * (bw p * j)) by lia. rewrite slice_words by nia.
    apply Z.lt_le_trans with 1; [lia|]. apply count_pos with (i := i - 64 * (bw p * j)).
    - rewrite zlen_bits, zlen_slice by nia. unfold j. pose proof (Z.div_mod i (64 * bw p) ltac:(lia)). pose proof (Z.mod_pos_bound i (64 * bw p) ltac:(lia)). lia.
    - rewrite <- Bi. pose proof (Z.div_mod i (64 * bw p) ltac:(lia)). pose proof (Z.mod_pos_bound i (64 * bw p) ltac:(lia)). fold j in H. 
      assert (I1 : 0 <= i - 64 * (bw p * j) < 64 * bw p) by lia. clear H H0.
      rewrite !bit_words by (try rewrite zlen_slice by nia; nia). rewrite zn_slice by lia. unfold W, at_word. cbn [w_arr w_off].
      replace (bw p * j + (i - 64 * (bw p * j)) / 64) with (i / 64) by lia. f_equal. lia. }
  clear Hs Hne Lb EB. clearbody B. clear Bi. induction sizes as [|n r IH]; [exists []; constructor|]. destruct (G n (or_introl eq_refl)) as (qs & H). destruct IH as (qss & HH); [intros m Hm; apply G; right; auto|].
  exists (qs :: qss). constructor; auto.
Qed.

(** perf_search: the draw of an empty bucket is a division by zero. *)
Lemma hits_dec (f : Z -> Z) (nq : nat) : (forall i, 0 <= f i) -> (forall i, 0 <= i < Z.of_nat nq -> 0 < f i) \/ (exists i, 0 <= i < Z.of_nat nq /\ f i = 0).
Proof.
  intros Hf. induction nq as [|nq [IH|(i & Hi & E)]].
  - left. lia.
  - specialize (Hf (Z.of_nat nq)). destruct (Z.eq_dec (f (Z.of_nat nq)) 0).
    + right. exists (Z.of_nat nq). split; auto. lia.
    + left. intros i Hi. destruct (Z.eq_dec i (Z.of_nat nq)); [subst; lia|apply IH; lia].
  - right. exists i. split; auto. lia.
Qed.

Lemma search_sizes c w m bits junk nq runs measures sizes : words_ok bits -> Forall (size_ok (KSearch w m) bits) sizes ->
  Exists (empty_drawn (asks (KSearch w m)) (bits_of_words bits) nq) sizes ->
  exists F, forall fuel s outs, (F <= fuel)%nat -> ks_ok (KSearch w m) s -> foldM (fun '(s, outs) n =>
      let* '(qs, s) := queries c (KSearch w m) (map popcount bits) n fuel nq s 71 in
      let* '(s, o) := kmeasures c (KSearch w m) (map popcount bits) junk runs qs measures s in
      Ok (s, outs ++ o)) sizes (s, outs) = Ub UB_div.
Proof.
  intros Hb Hs. set (p := KSearch w m) in *. induction sizes as [|n r IH]; intros H; [inversion H|]. inversion_clear Hs as [|? ? S1 S2].
  destruct (hits_dec (fun i => count_true (bucket (asks p) (bits_of_words bits) (draw 71 (2 * i) mod (n / q_bits (asks p))))) nq) as [G|G]; [intros; apply count_bounds| |].
  - inversion_clear H as [? ? (i & Hi & E)|? ? H']; [specialize (G i Hi); cbv beta in G; lia|]. destruct (IH S2 H') as (F & IHF).
    destruct (search_asked (asks p) (bits_of_words bits) n nq eq_refl 0) as (qs & Hq); [intros i Hi; apply G; lia|].
    destruct (queries_ok c p bits n _ nq qs Hq Hb S1 ltac:(lia)) as (F1 & Q).
    exists (F + F1)%nat. intros fuel s outs Hf HS. cbn [foldM]. destruct (Q fuel s ltac:(lia) HS) as (s1 & E1 & H1). change (state_at (2 * 0)) with 71 in E1. cbn [mem p] in E1. fold p in E1. rewrite E1. cbn [bind].
    pose proof (size_positive _ _ _ S1).
    destruct (kmeasures_ok c p bits n junk runs qs measures s1 eq_refl Hb S1) as (s2 & E2 & H2); auto; [eapply asked_valid; eauto; [lia|apply asks_below]|]. cbn [mem p] in E2. fold p in E2. rewrite E2. cbn [bind].
    apply IHF; auto. lia.
  - exists nq. intros fuel s outs Hf HS. cbn [foldM]. pose proof (search_fails c w m bits n nq Hb S1 0 fuel s ltac:(lia) Hf) as E. change (state_at (2 * 0)) with 71 in E.
    unfold p. rewrite E; [reflexivity|]. destruct G as (i & Hi & Z0). exists i. split; [lia|exact Z0].
Qed.

Lemma micro_search c w m junk t sizes nq runs measures : sizes <> [] -> sizes_ok (KSearch w m) sizes ->
  let B := micro_bits (64 * (last sizes 0 / 64)) t in
  (Exists (empty_drawn (asks (KSearch w m)) B nq) sizes /\ exists F, forall fuel, (F <= fuel)%nat -> micro_bench c (KSearch w m) junk t sizes fuel nq runs measures = Ub UB_div) \/
  (~ Exists (empty_drawn (asks (KSearch w m)) B nq) sizes /\ exists qss, Forall2 (fun n qs => asked (asks (KSearch w m)) B n 0 nq qs) sizes qss).
Proof.
  intros Hne Hs. cbv zeta. destruct (micro_words sizes t _ Hne Hs) as (bits & E & Hb & Lb & EB & _). rewrite <- EB in *. set (q := asks (KSearch w m)) in *.
  assert (HZ : Forall (size_ok (KSearch w m) bits) sizes) by (apply Forall_forall; intros n Hn; eapply sizes_size; eauto).
  assert (D : Forall (fun n => forall i, 0 <= i < Z.of_nat nq -> 0 < count_true (bucket q (bits_of_words bits) (draw 71 (2 * i) mod (n / q_bits q)))) sizes \/ Exists (empty_drawn q (bits_of_words bits) nq) sizes).
  { clear. induction sizes as [|n r [IH|IH]]; [left; constructor| |right; right; auto].
    destruct (hits_dec (fun i => count_true (bucket q (bits_of_words bits) (draw 71 (2 * i) mod (n / q_bits q)))) nq) as [G|G]; [intros; apply count_bounds|left; constructor; auto|right; left; exact G]. }
  destruct D as [D|D].
  - right. split.
    + intros X. rewrite Forall_forall in D. apply Exists_exists in X as (n & Hn & i & Hi & Z0). specialize (D n Hn i Hi). lia.
    + clear - D. induction D as [|n r H _ (qss & IH)]; [exists []; constructor|]. destruct (search_asked q (bits_of_words bits) n nq eq_refl 0) as (qs & Hq); [intros i Hi; apply H; lia|].
      exists (qs :: qss). constructor; auto.
  - left. split; auto. destruct (search_sizes c w m bits junk nq runs measures sizes Hb HZ D) as (F & G). exists F. intros fuel Hf. unfold micro_bench. rewrite E. cbn [bind].
    rewrite G; auto. apply ks_init.
Qed.

(** ** Statements *)
Lemma micro_prints c p junk t sizes nq runs measures qss : prog_ok p = true -> not_vec p -> sizes <> [] -> sizes_ok p sizes ->
  let B := micro_bits (64 * (last sizes 0 / 64)) t in
  Forall2 (fun n qs => asked (asks p) B n 0 nq qs) sizes qss ->
  exists F, forall fuel, (F <= fuel)%nat ->
    micro_bench c p junk t sizes fuel nq runs measures =
      Ok (count_true B, concat (map (fun qs => repeat ((Z.of_nat runs * total (answers (asks p) B qs)) mod 2 ^ 64) measures) qss)).
Proof.
  intros Hp Hv Hne Hs. cbv zeta. intros H. destruct (micro_total c p junk t sizes nq runs measures qss Hp Hne Hs H) as (F & G). exists F. intros fuel Hf.
  rewrite G by auto. destruct p; try contradiction; reflexivity.
Qed.

Lemma micro_vec c w junk t sizes nq runs measures qss : sizes <> [] -> sizes_ok (KPopcntVec w) sizes ->
  let B := micro_bits (64 * (last sizes 0 / 64)) t in
  Forall2 (fun n qs => asked (asks (KPopcntVec w)) B n 0 nq qs) sizes qss -> (0 < runs)%nat ->
  exists F, forall fuel, (F <= fuel)%nat ->
    micro_bench c (KPopcntVec w) junk t sizes fuel nq runs measures =
      Ok (count_true B, concat (map (fun qs => repeat (last (answers (asks (KPopcntVec w)) B qs) junk) measures) qss)).
Proof.
  intros Hne Hs. cbv zeta. intros H Hr. destruct (micro_total c (KPopcntVec w) junk t sizes nq runs measures qss eq_refl Hne Hs H) as (F & G). exists F. intros fuel Hf.
  rewrite G by auto. unfold shown. replace (runs =? 0)%nat with false by (destruct runs; [lia|reflexivity]). reflexivity.
Qed.

(** Programs with the same question print the same. *)
Lemma micro_modes c c' p p' junk junk' t sizes nq runs measures : prog_ok p = true -> prog_ok p' = true -> not_vec p -> not_vec p' -> asks p = asks p' ->
  sizes <> [] -> sizes_ok p sizes ->
  exists F, forall fuel, (F <= fuel)%nat ->
    micro_bench c p junk t sizes fuel nq runs measures = micro_bench c' p' junk' t sizes fuel nq runs measures.
Proof.
  intros Hp Hp' Hv Hv' E Hne Hs.
  assert (Hs' : sizes_ok p' sizes) by (destruct Hs as [H1 H2]; split; auto; rewrite <- (ask_bits p) in H2; rewrite <- (ask_bits p'), <- E; auto).
  assert (NS : forall A : Prop, (forall w m, p <> KSearch w m) \/ (exists w m w' m', p = KSearch w m /\ p' = KSearch w' m')).
  { intros _. destruct p; try (left; discriminate). right. exists w, m. destruct p'; try discriminate E; try (destruct w, w0; discriminate E). eauto. }
  destruct (NS True) as [N|(w & m & w' & m' & -> & ->)].
  - destruct (micro_asked p t sizes nq Hne Hs N) as (qss & H). destruct (micro_prints c p junk t sizes nq runs measures qss Hp Hv Hne Hs H) as (F & G).
    rewrite E in H. destruct (micro_prints c' p' junk' t sizes nq runs measures qss Hp' Hv' Hne Hs' H) as (F' & G'). exists (F + F')%nat. intros fuel Hf. rewrite G, G' by lia. rewrite E. reflexivity.
  - destruct (micro_search c w m junk t sizes nq runs measures Hne Hs) as [(X & F & G)|(X & qss & H)].
    + destruct (micro_search c' w' m' junk' t sizes nq runs measures Hne Hs') as [(X' & F' & G')|(X' & _)]; [|rewrite E in X; contradiction]. exists (F + F')%nat. intros fuel Hf. rewrite G, G' by lia. reflexivity.
    + destruct (micro_prints c (KSearch w m) junk t sizes nq runs measures qss Hp Hv Hne Hs H) as (F & G).
      rewrite E in H. destruct (micro_prints c' (KSearch w' m') junk' t sizes nq runs measures qss Hp' Hv' Hne Hs' H) as (F' & G'). exists (F + F')%nat. intros fuel Hf. rewrite G, G' by lia. rewrite E. reflexivity.
Qed.

Lemma k_search_in c w m sums arr o k : words_ok arr -> 0 <= o -> o + lz w <= zlen arr -> length sums = S (lanes w) -> zn 0 sums 0 = 0 ->
  let x := slice arr o (lz w) in 0 <= k < psum x (lz w) -> k < 2 ^ 64 -> (m = SC_avx512 -> psum x (lz w) < 2 ^ 63) ->
  exists i s sums', is_search x k (i, s) /\ search_kernel c w m sums {| w_arr := arr; w_off := o |} k = Ok (k - s, sums') /\
    length sums' = S (lanes w) /\ zn 0 sums' 0 = 0.
Proof. intros H1 H2 H3 H4 H5 x Hk Hk2 Hm. apply search_kernel_in; auto; [repeat split; auto|split; auto|intros E; specialize (Hm E); fold x; lia]. Qed.

Lemma k_search_past c w m sums arr o k : words_ok arr -> 0 <= o -> o + lz w <= zlen arr -> length sums = S (lanes w) -> zn 0 sums 0 = 0 ->
  let T := psum (slice arr o (lz w)) (lz w) in T <= k < 2 ^ 64 ->
  match m with
  | SC_loop => search_kernel c w m sums {| w_arr := arr; w_off := o |} k =
      if c_debug c && (zn 0 arr (o + lz w - 1) <=? k - T) then AssertFail else Ok (k - T, sums)
  | SC_avx512 => k < 2 ^ 63 -> exists sums', search_kernel c w m sums {| w_arr := arr; w_off := o |} k = Ok (k - T, sums') /\
      length sums' = S (lanes w) /\ zn 0 sums' 0 = 0
  end.
Proof. intros H1 H2 H3 H4 H5 T HT. apply (search_kernel_past c w m sums arr o k); auto; [repeat split; auto|split; auto]. Qed.

Lemma k_prefix w m sums arr o k : words_ok arr -> 0 <= o -> o + lz w <= zlen arr -> length sums = lanes w -> 0 <= k < lz w ->
  exists sums', prefix_kernel w m sums {| w_arr := arr; w_off := o |} k = Ok (psum (slice arr o (lz w)) (k + 1) mod 2 ^ 64, sums') /\ length sums' = lanes w.
Proof. intros. apply prefix_kernel_ok; auto. repeat split; auto. Qed.
Lemma k_prefix_past w m sums arr o k : words_ok arr -> 0 <= o -> o + lz w <= zlen arr -> length sums = lanes w -> lz w <= k < 2 ^ 64 - 1 ->
  prefix_kernel w m sums {| w_arr := arr; w_off := o |} k =
    match m with
    | PS_loop => if o + k <? zlen arr then Ok (psum (slice arr o (k + 1)) (k + 1) mod 2 ^ 64, sums) else Ub UB_bounds
    | _ => Ub UB_bounds
    end.
Proof. intros. apply prefix_kernel_past; auto. repeat split; auto. Qed.

Lemma k_popcnt c w m arr o : (m = PC_broadword \/ m = PC_builtin) -> words_ok arr -> 0 <= o -> o + lz w <= zlen arr ->
  popcnt_kernel c w m {| w_arr := arr; w_off := o |} = Ok (count_true (bits_of_words (slice arr o (lz w)))).
Proof. intros. apply popcnt_kernel_ok; auto. repeat split; auto. Qed.
Lemma k_popcnt_vec w arr o : words_ok arr -> 0 <= o -> o + lz w <= zlen arr ->
  popcnt_vec_kernel w {| w_arr := arr; w_off := o |} = Ok (map (fun v => count_true (bits_of_word v)) (slice arr o (lz w))).
Proof. intros. apply popcnt_vec_ok. repeat split; auto. Qed.
Lemma k_popsel w vec cnts arr o : words_ok arr -> 0 <= o -> o + lz w <= zlen arr -> length cnts = lanes w ->
  exists cnts', popsel_kernel w vec cnts {| w_arr := arr; w_off := o |} = Ok (map (fun v => count_true (bits_of_word v)) (slice arr o (lz w)), cnts') /\ length cnts' = lanes w.
Proof. intros. apply popsel_kernel_ok; auto. repeat split; auto. Qed.

Lemma k_rank64 arr o k : words_ok arr -> 0 <= o < zlen arr -> 0 <= k < 64 ->
  rank64_kernel {| w_arr := arr; w_off := o |} k =
    Ok (if k =? 0 then count_true (bits_of_word (zn 0 arr o)) else ones_before (bits_of_word (zn 0 arr o)) k).
Proof.
  intros. assert (place_ok arr o 1) by (repeat split; auto; lia). change {| w_arr := arr; w_off := o |} with (at_word arr o). rewrite rank64_kernel_ok by auto.
  f_equal. destruct (k =? 0); auto.
Qed.
Lemma k_rank64_block arr o k : words_ok arr -> 0 <= o < zlen arr -> 0 <= k < 64 ->
  rank64_kernel {| w_arr := arr; w_off := o |} k = rank_b64 {| w_arr := arr; w_off := o |} ((k - 1) mod 64).
Proof.
  intros. assert (P : place_ok arr o 1) by (repeat split; auto; lia). change {| w_arr := arr; w_off := o |} with (at_word arr o). rewrite rank64_kernel_ok by auto.
  rewrite rank_b64_ok by (try apply place_blk; auto; lia). f_equal. rewrite (slice_bones arr o 1) by (auto; lia). rewrite first_word by (auto; lia). f_equal.
  destruct (Z.eqb_spec k 0); lia.
Qed.

Lemma micro_search_exact c w m junk t sizes nq runs measures : sizes <> [] -> sizes_ok (KSearch w m) sizes ->
  let B := micro_bits (64 * (last sizes 0 / 64)) t in
  (Exists (empty_drawn (asks (KSearch w m)) B nq) sizes -> exists F, forall fuel, (F <= fuel)%nat -> micro_bench c (KSearch w m) junk t sizes fuel nq runs measures = Ub UB_div) /\
  (~ Exists (empty_drawn (asks (KSearch w m)) B nq) sizes -> exists qss, Forall2 (fun n qs => asked (asks (KSearch w m)) B n 0 nq qs) sizes qss).
Proof. intros H1 H2. cbv zeta. destruct (micro_search c w m junk t sizes nq runs measures H1 H2) as [(X & Y)|(X & Y)]; split; intros; auto; contradiction. Qed.

Lemma asked_in_range p B n pos nq qs : asked (asks p) B n pos nq qs -> q_bits (asks p) <= n -> Forall (fun '(j, k) => 0 <= j /\ q_bits (asks p) * (j + 1) <= n /\
    match q_arg (asks p) with ANone => k = 0 | ABelow m => 0 <= k < m | AOnes _ => 0 <= k < count_true (bucket (asks p) B j) end) qs /\ length qs = nq.
Proof.
  intros H Hn. assert (HB : 0 < q_bits (asks p)) by (rewrite ask_bits; destruct (bw_bits p); lia). assert (1 <= n / q_bits (asks p)) by (apply Z.div_le_lower_bound; lia).
  pose proof (Z.mul_div_le n (q_bits (asks p)) HB) as M. pose proof (asks_below p) as AB. revert AB.
  set (nb := n / q_bits (asks p)) in *.
  assert (J : forall z, 0 <= z mod nb /\ q_bits (asks p) * (z mod nb + 1) <= n) by (intros z; pose proof (Z.mod_pos_bound z nb ltac:(lia)); nia).
  induction H; intros AB; try (destruct (IHasked AB) as [I1 I2]); [split; [constructor|reflexivity]| | | |auto]; (split; [|cbn; congruence]); constructor; auto; subst j; fold nb; try rewrite H; (split; [apply J|]); (split; [apply J|]); auto.
  - apply Z.mod_pos_bound. auto.
  - apply Z.mod_pos_bound. auto.
Qed.
