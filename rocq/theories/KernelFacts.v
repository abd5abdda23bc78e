(** The functions measured by the micro-benchmarks. *)
From Coq Require Import ZifyBool.
From Verif Require Import Base BaseFacts Mem MemFacts Tables Words WordFacts Blocks BlockFacts Spec SpecIndex SpecKernel Usage BitmapFacts PropFacts2 IndexFacts Random Kernels.
Ltac Zify.zify_post_hook ::= Z.div_mod_to_equations.

Notation lz w := (Z.of_nat (lanes w)).
Lemma lanes_cases w : lz w = 4 \/ lz w = 8.
Proof. destruct w; auto. Qed.

(** ** Prefix sums of arbitrary words *)
Lemma wrap_mid w a b c : wrap w (a + wrap w b + c) = wrap w (a + b + c).
Proof. rewrite <- (wrap_add_l w (a + wrap w b)), wrap_add_r, wrap_add_l. reflexivity. Qed.
Lemma wrap_mid_l w a b c : wrap w (wrap w a + b + c) = wrap w (a + b + c).
Proof. rewrite <- Z.add_assoc, wrap_add_l, Z.add_assoc. reflexivity. Qed.
Lemma zn_map_zrange (f : Z -> Z) n j : 0 <= j < Z.of_nat n -> zn 0 (map f (zrange 0 n)) j = f j.
Proof. intros. rewrite (zn_map f 0 0) by (unfold zlen; rewrite length_zrange; lia). rewrite zn_zrange by lia. f_equal. Qed.

Definition wsums (f : Z -> Z) (n : nat) : list Z := map (fun j => u64 (sumf f 0 (j + 1))) (zrange 0 n).

Lemma vec_psum_ok w v : length v = lanes w -> vec_psum w v = wsums (zn 0 v) (lanes w).
Proof.
  destruct w; cbn [lanes vec_psum].
  - destruct v as [|a [|b [|c [|d [|]]]]]; try discriminate. intros _.
    transitivity [u64 (u64 (a + 0) + 0); u64 (u64 (b + a) + 0); u64 (u64 (c + b) + u64 (a + 0)); u64 (u64 (d + c) + u64 (b + a))]; [reflexivity|].
    transitivity [u64 (a + 0); u64 (a + (b + 0)); u64 (a + (b + (c + 0))); u64 (a + (b + (c + (d + 0))))]; [|reflexivity].
    repeat rewrite ?wrap_add_l, ?wrap_add_r, ?wrap_mid, ?wrap_mid_l, ?Z.add_assoc. repeat (apply f_equal2; [f_equal; lia|]). reflexivity.
  - destruct v as [|a [|b [|c [|d [|e [|f [|g [|h [|]]]]]]]]]; try discriminate. intros _.
    transitivity [u64 (u64 (u64 (a + 0) + 0) + 0); u64 (u64 (u64 (b + a) + 0) + 0); u64 (u64 (u64 (c + b) + u64 (a + 0)) + 0); u64 (u64 (u64 (d + c) + u64 (b + a)) + 0); u64 (u64 (u64 (e + d) + u64 (c + b)) + u64 (u64 (a + 0) + 0)); u64 (u64 (u64 (f + e) + u64 (d + c)) + u64 (u64 (b + a) + 0)); u64 (u64 (u64 (g + f) + u64 (e + d)) + u64 (u64 (c + b) + u64 (a + 0))); u64 (u64 (u64 (h + g) + u64 (f + e)) + u64 (u64 (d + c) + u64 (b + a)))]; [reflexivity|].
    transitivity [u64 (a + 0); u64 (a + (b + 0)); u64 (a + (b + (c + 0))); u64 (a + (b + (c + (d + 0)))); u64 (a + (b + (c + (d + (e + 0))))); u64 (a + (b + (c + (d + (e + (f + 0)))))); u64 (a + (b + (c + (d + (e + (f + (g + 0))))))); u64 (a + (b + (c + (d + (e + (f + (g + (h + 0))))))))]; [|reflexivity].
    repeat rewrite ?wrap_add_l, ?wrap_add_r, ?wrap_mid, ?wrap_mid_l, ?Z.add_assoc. repeat (apply f_equal2; [f_equal; lia|]). reflexivity.
Qed.

Lemma zlen_wsums f n : zlen (wsums f n) = Z.of_nat n.
Proof. unfold wsums, zlen. rewrite map_length, length_zrange. reflexivity. Qed.
Lemma zn_wsums f n j : 0 <= j < Z.of_nat n -> zn 0 (wsums f n) j = u64 (sumf f 0 (j + 1)).
Proof. intros Hj. unfold wsums. rewrite zn_map_zrange by lia. reflexivity. Qed.
Lemma wsums_ext f g n : (forall j, 0 <= j < Z.of_nat n -> f j = g j) -> wsums f n = wsums g n.
Proof.
  intros H. unfold wsums. apply map_ext_in. intros j Hj. apply in_zrange in Hj. f_equal. apply sumf_ext. intros i Hi. apply H. lia.
Qed.

Lemma vec_psum_block w x : blk x (lz w) -> exists v, ldws x 0 (lanes w) = Ok v /\ vec_psum w v = wsums (W x) (lanes w).
Proof.
  intros Hb. eexists. split; [apply (ldws_ok x (lz w)); auto; lia|].
  rewrite vec_psum_ok by (rewrite map_length, length_zrange; reflexivity).
  apply wsums_ext. intros j Hj. rewrite zn_map_zrange by lia. reflexivity.
Qed.

(** ** Search *)
Lemma W_nonneg x n j : blk x n -> 0 <= W x j.
Proof. intros H. apply (W_word x n j H). Qed.

(** The last position whose sum is at most [k]. *)
Definition stop (x : wptr) (n k q : Z) : Prop :=
  0 <= q <= n /\ sumf (W x) 0 q <= k /\ (q < n -> k < sumf (W x) 0 (q + 1)).

Lemma stop_exists x n k : 0 <= n -> 0 <= k -> exists q, stop x n k q.
Proof.
  intros Hn Hk. pattern n. apply natlike_ind; [| |exact Hn]; clear n Hn.
  - exists 0. split; [lia|]. rewrite sumf_empty by lia. lia.
  - intros n Hn (q & H1 & H2 & H3). unfold Z.succ. destruct (Z.eq_dec q n) as [->|].
    + destruct (Z.lt_ge_cases k (sumf (W x) 0 (n + 1))); [exists n|exists (n + 1)]; repeat split; try lia; auto.
    + exists q. repeat split; try lia; auto.
Qed.

Lemma search_loop_ok x n k q : blk x n -> 0 <= k < 2 ^ 64 -> stop x n k q -> forall fuel i cnt, 0 <= i <= q -> i + Z.of_nat fuel = n ->
  search_loop x fuel i (k - sumf (W x) 0 i) cnt = Ok (k - sumf (W x) 0 q, if q <? n then W x q else if i <? n then W x (n - 1) else cnt).
Proof.
  intros Hb Hk (Q1 & Q2 & Q3). induction fuel as [|f IH]; intros i cnt Hi Hf; cbn [search_loop].
  - assert (i = q) as -> by lia. replace (q <? n) with false by lia. reflexivity.
  - rewrite (ldw_ok x n) by (auto; lia). cbn [bind]. pose proof (sumf_succ (W x) 0 i ltac:(lia)) as Es.
    destruct (Z.eq_dec i q) as [->|].
    + specialize (Q3 ltac:(lia)). replace (k - sumf (W x) 0 q <? W x q) with true by lia. replace (q <? n) with true by lia. reflexivity.
    + pose proof (sumf_mono (W x) 0 (i + 1) q ltac:(lia) ltac:(intros; apply (W_nonneg x n); auto)) as M.
      replace (k - sumf (W x) 0 i <? W x i) with false by lia.
      pose proof (sumf_mono (W x) 0 0 i ltac:(lia) ltac:(intros; apply (W_nonneg x n); auto)) as M0. rewrite (sumf_empty _ 0 0) in M0 by lia.
      pose proof (W_nonneg x n i Hb).
      rewrite wrap_small by lia. replace (k - sumf (W x) 0 i - W x i) with (k - sumf (W x) 0 (i + 1)) by lia.
      rewrite IH by lia. f_equal. f_equal. destruct (Z.ltb_spec q n); [reflexivity|]. replace (i <? n) with true by lia.
      destruct (Z.ltb_spec (i + 1) n); [reflexivity|]. f_equal. lia.
Qed.

Lemma mask_stop x n k q : (n <= 8)%nat -> blk x (Z.of_nat n) -> 0 <= k < 2 ^ 63 -> sumf (W x) 0 (Z.of_nat n) < 2 ^ 63 -> stop x (Z.of_nat n) k q ->
  vcmple_mask (wsums (W x) n) (set1 64 n k) = 2 ^ q - 1.
Proof.
  intros Hn Hb Hk Hs (Q1 & Q2 & Q3). unfold vcmple_mask, set1. rewrite wrap_small by lia.
  set (l := wsums _ _). assert (L : length l = n) by (unfold l, wsums; rewrite map_length, length_zrange; auto).
  replace (repeat k n) with (repeat k (length l)) by (rewrite L; reflexivity). rewrite map2_repeat. unfold l, wsums. rewrite map_map.
  assert (N0 : forall i, 0 <= W x i) by (intros; apply (W_nonneg x (Z.of_nat n)); auto).
  rewrite (threshold_map _ n 0 q).
  - rewrite mask_ones. rewrite Z2Nat.id by lia. rewrite Z.sub_0_r. reflexivity.
  - lia.
  - intros j Hj.
    pose proof (sumf_mono (W x) 0 0 (j + 1) ltac:(lia) ltac:(intros; apply N0)) as M0. rewrite (sumf_empty _ 0 0) in M0 by lia.
    pose proof (sumf_mono (W x) 0 (j + 1) (Z.of_nat n) ltac:(lia) ltac:(intros; apply N0)) as M1.
    rewrite wrap_small by lia. rewrite !sgn_small by lia.
    destruct (Z.lt_ge_cases j q).
    + pose proof (sumf_mono (W x) 0 (j + 1) q ltac:(lia) ltac:(intros; apply N0)). lia.
    + specialize (Q3 ltac:(lia)). pose proof (sumf_mono (W x) 0 (q + 1) (j + 1) ltac:(lia) ltac:(intros; apply N0)). lia.
Qed.

(** The static array of search: its element 0 is 0. *)
Definition sums_ok (w : width) (sums : list Z) : Prop := length sums = S (lanes w) /\ zn 0 sums 0 = 0.

Lemma search_vec_ok c w sums x k q : sums_ok w sums -> blk x (lz w) -> 0 <= k < 2 ^ 63 -> sumf (W x) 0 (lz w) < 2 ^ 63 -> stop x (lz w) k q ->
  exists sums', search_kernel c w SC_avx512 sums x k = Ok (k - sumf (W x) 0 q, sums') /\ sums_ok w sums'.
Proof.
  intros (S1 & S2) Hb Hk Hs Hq. cbn [search_kernel]. destruct (vec_psum_block w x Hb) as (v & E & Ev). rewrite E. cbn [bind]. rewrite Ev.
  assert (L8 : (lanes w <= 8)%nat) by (destruct w; cbn; lia).
  rewrite (mask_stop x (lanes w) k q) by auto. pose proof Hq as (Q1 & Q2 & _). rewrite lt_cnt_ok by lia. cbn [bind].
  assert (LS : zlen sums = lz w + 1) by (unfold zlen; lia).
  destruct (store_words_ok sums 1 (wsums (W x) (lanes w))) as (a & Ea & La & Pa); [lia|rewrite zlen_wsums; lia|]. rewrite Ea. cbn [bind].
  rewrite zlen_wsums in Pa.
  assert (V : forall j, 0 <= j <= lz w -> zn 0 a j = sumf (W x) 0 j).
  { intros j Hj. rewrite Pa by lia. destruct (Z.eq_dec j 0) as [->|].
    - cbn [Z.leb andb]. rewrite S2, sumf_empty by lia. reflexivity.
    - replace ((1 <=? j) && (j <? 1 + lz w)) with true by lia. rewrite zn_wsums by lia.
      replace (j - 1 + 1) with j by lia. apply wrap_small. assert (N0 : forall i, 0 <= W x i) by (intros; apply (W_nonneg x (lz w)); auto).
      pose proof (sumf_mono (W x) 0 0 j ltac:(lia) ltac:(intros; apply N0)) as M0. rewrite (sumf_empty _ 0 0) in M0 by lia.
      pose proof (sumf_mono (W x) 0 j (lz w) ltac:(lia) ltac:(intros; apply N0)). lia. }
  rewrite geti_ok by lia. cbn [bind]. rewrite V by lia.
  assert (N0 : forall i, 0 <= W x i) by (intros; apply (W_nonneg x (lz w)); auto).
  pose proof (sumf_mono (W x) 0 0 q ltac:(lia) ltac:(intros; apply N0)) as M0. rewrite (sumf_empty _ 0 0) in M0 by lia.
  rewrite wrap_small by lia. eexists. split; [reflexivity|]. split; [unfold zlen in *; lia|]. rewrite V by lia. apply sumf_empty. lia.
Qed.

(** ** Statements about slices of arrays *)
Definition at_word (arr : list Z) (o : Z) : wptr := {| w_arr := arr; w_off := o |}.
Definition place_ok (arr : list Z) (o n : Z) : Prop := words_ok arr /\ 0 <= o /\ o + n <= zlen arr.

Lemma place_blk arr o n : place_ok arr o n -> blk (at_word arr o) n.
Proof. auto. Qed.
Lemma zlen_slice {A} (arr : list A) o n : 0 <= o -> 0 <= n -> o + n <= zlen arr -> zlen (slice arr o n) = n.
Proof. intros. unfold slice, zlen in *. rewrite firstn_length, skipn_length. lia. Qed.
Lemma zn_slice arr o n j : 0 <= j < n -> 0 <= o -> zn 0 (slice arr o n) j = W (at_word arr o) j.
Proof. intros. unfold slice. rewrite zn_firstn_skipn by lia. reflexivity. Qed.
Lemma psum_slice arr o n i : place_ok arr o n -> 0 <= i <= n -> psum (slice arr o n) i = sumf (W (at_word arr o)) 0 i.
Proof.
  intros (H1 & H2 & H3) Hi. rewrite psum_sumf by (rewrite zlen_slice; lia). apply sumf_ext. intros j Hj. apply zn_slice; lia.
Qed.

Lemma stop_search arr o n k q : place_ok arr o n -> 0 <= n -> 0 <= k < psum (slice arr o n) n -> stop (at_word arr o) n k q ->
  is_search (slice arr o n) k (q, psum (slice arr o n) q) /\ q < n.
Proof.
  intros Hp Hn Hk (Q1 & Q2 & Q3). rewrite psum_slice in Hk by (auto; lia).
  assert (q < n) by (destruct (Z.eq_dec q n) as [->|]; lia). split; auto. pose proof Hp as (P1 & P2 & P3).
  cbn. rewrite zlen_slice by lia. split; [lia|]. split; auto. rewrite !psum_slice by (auto; lia). split; auto.
Qed.

Lemma stop_past arr o n k q : place_ok arr o n -> 0 <= n -> psum (slice arr o n) n <= k -> stop (at_word arr o) n k q ->
  sumf (W (at_word arr o)) 0 q = psum (slice arr o n) n /\ (q < n -> False).
Proof.
  intros Hp Hn Hk (Q1 & Q2 & Q3). rewrite psum_slice in * by (auto; lia).
  assert (q < n -> False).
  { intros Hq. specialize (Q3 Hq). pose proof (sumf_mono (W (at_word arr o)) 0 (q + 1) n ltac:(lia) ltac:(intros; apply (W_nonneg _ n); auto)). lia. }
  split; auto. f_equal. lia.
Qed.

Lemma search_kernel_in c w m sums arr o k : place_ok arr o (lz w) -> sums_ok w sums -> 0 <= k < psum (slice arr o (lz w)) (lz w) -> k < 2 ^ 64 ->
  (m = SC_avx512 -> psum (slice arr o (lz w)) (lz w) <= 2 ^ 63 - 1) ->
  exists i s sums', is_search (slice arr o (lz w)) k (i, s) /\ search_kernel c w m sums (at_word arr o) k = Ok (k - s, sums') /\ sums_ok w sums'.
Proof.
  intros Hp Hs Hk Hk2 Hv. destruct (stop_exists (at_word arr o) (lz w) k ltac:(lia) ltac:(lia)) as (q & Hq).
  destruct (stop_search arr o (lz w) k q Hp ltac:(lia) Hk Hq) as (HS & Hql). pose proof Hq as (Q1 & Q2 & Q3).
  exists q, (psum (slice arr o (lz w)) q). rewrite (psum_slice arr o (lz w) q) in * by (auto; lia).
  destruct m.
  - exists sums. split; auto. split; auto. cbn [search_kernel].
    pose proof (search_loop_ok (at_word arr o) (lz w) k q (place_blk _ _ _ Hp) ltac:(lia) Hq (lanes w) 0 0 ltac:(lia) ltac:(lia)) as E.
    rewrite (sumf_empty (W (at_word arr o)) 0 0) in E by lia. rewrite Z.sub_0_r in E. rewrite E. cbn [bind]. replace (q <? lz w) with true by lia.
    rewrite sumf_succ in Q3 by lia. specialize (Q3 Hql). unfold massert. replace (k - sumf (W (at_word arr o)) 0 q <? W (at_word arr o) q) with true by lia.
    rewrite andb_false_r. reflexivity.
  - specialize (Hv eq_refl). rewrite psum_slice in * by (auto; lia). destruct (search_vec_ok c w sums (at_word arr o) k q Hs (place_blk _ _ _ Hp) ltac:(lia) ltac:(lia) Hq) as (s' & E & H'). exists s'. auto.
Qed.

Lemma search_kernel_past c w m sums arr o k : place_ok arr o (lz w) -> sums_ok w sums -> psum (slice arr o (lz w)) (lz w) <= k < 2 ^ 64 ->
  let T := psum (slice arr o (lz w)) (lz w) in
  match m with
  | SC_loop => search_kernel c w m sums (at_word arr o) k =
      if c_debug c && (zn 0 arr (o + lz w - 1) <=? k - T) then AssertFail else Ok (k - T, sums)
  | SC_avx512 => k < 2 ^ 63 -> exists sums', search_kernel c w m sums (at_word arr o) k = Ok (k - T, sums') /\ sums_ok w sums'
  end.
Proof.
  intros Hp Hs Hk T. assert (P : 0 <= T). { unfold T. rewrite psum_slice by (auto; lia). pose proof (sumf_mono (W (at_word arr o)) 0 0 (lz w) ltac:(lia) ltac:(intros; apply (W_nonneg _ (lz w)); auto)) as M0. rewrite (sumf_empty _ 0 0) in M0 by lia. auto. }
  destruct (stop_exists (at_word arr o) (lz w) k ltac:(lia) ltac:(unfold T in *; lia)) as (q & Hq).
  destruct (stop_past arr o (lz w) k q Hp ltac:(lia) ltac:(lia) Hq) as (E1 & E2). fold T in E1, Hk.
  destruct m.
  - cbn [search_kernel]. pose proof (search_loop_ok (at_word arr o) (lz w) k q (place_blk _ _ _ Hp) ltac:(lia) Hq (lanes w) 0 0 ltac:(destruct Hq; lia) ltac:(lia)) as E.
    rewrite (sumf_empty (W (at_word arr o)) 0 0) in E by lia. rewrite Z.sub_0_r in E. rewrite E. cbn [bind]. replace (q <? lz w) with false by lia.
    pose proof (lanes_cases w). replace (0 <? lz w) with true by lia. rewrite E1. unfold massert, W, at_word. cbn [w_arr w_off]. replace (o + (lz w - 1)) with (o + lz w - 1) by lia.
    rewrite Z.ltb_antisym, negb_involutive. destruct (c_debug c && _); reflexivity.
  - intros Hk3. unfold T in *. rewrite psum_slice in * by (auto; lia).
    destruct (search_vec_ok c w sums (at_word arr o) k q Hs (place_blk _ _ _ Hp) ltac:(lia) ltac:(lia) Hq) as (s' & E & H'). exists s'. rewrite E, E1. auto.
Qed.

(** ** Prefix sums *)
Lemma sum_loop_mod get f fuel : forall b acc, (forall j, b <= j < b + Z.of_nat fuel -> get j = Ok (f j)) ->
  sum_loop get b fuel (u64 acc) = Ok (u64 (acc + sumf f b (b + Z.of_nat fuel))).
Proof.
  induction fuel as [|n IH]; intros b acc H; cbn [sum_loop].
  - rewrite sumf_empty by lia. do 2 f_equal. lia.
  - rewrite H by lia. cbn [bind]. rewrite wrap_add_l, IH by (intros; apply H; lia). rewrite (sumf_first f b (b + Z.of_nat (S n))) by lia.
    do 2 f_equal. replace (b + Z.of_nat (S n)) with (b + 1 + Z.of_nat n) by lia. lia.
Qed.

Lemma sum_loop_past x fuel : forall b acc, 0 <= b -> 0 <= w_off x -> w_off x + b <= zlen (w_arr x) -> zlen (w_arr x) < w_off x + b + Z.of_nat fuel ->
  sum_loop (ldw x) b fuel acc = Ub UB_bounds.
Proof.
  induction fuel as [|n IH]; intros b acc Hb Ho Hl Hp; [lia|]. cbn [sum_loop]. unfold ldw at 1.
  destruct (Z.eq_dec (w_off x + b) (zlen (w_arr x))) as [E|].
  - unfold geti. replace (w_off x + b <? zlen (w_arr x)) with false by lia. rewrite andb_false_r. reflexivity.
  - rewrite geti_ok by lia. cbn [bind]. apply IH; lia.
Qed.

Lemma fill_sums x n : blk x n -> forall k b sums, 1 <= b -> b + Z.of_nat k <= n -> n <= zlen sums -> (forall j, 0 <= j < b -> zn 0 sums j = u64 (sumf (W x) 0 (j + 1))) ->
  exists sums', foldM (fun sums b => let* p := geti sums (b - 1) in let* v := ldw x b in seti sums b (u64 (p + v))) (zrange b k) sums = Ok sums' /\
    length sums' = length sums /\ forall j, 0 <= j < b + Z.of_nat k -> zn 0 sums' j = u64 (sumf (W x) 0 (j + 1)).
Proof.
  intros Hx. induction k as [|k IH]; intros b sums Hb Hk Hl HI; cbn [zrange foldM].
  - exists sums. split; auto. split; auto. intros. apply HI. lia.
  - rewrite geti_ok by lia. cbn [bind]. rewrite (ldw_ok x n) by (auto; lia). cbn [bind]. rewrite seti_ok by lia. cbn [bind].
    destruct (IH (b + 1) (upd sums b (u64 (zn 0 sums (b - 1) + W x b)))) as (s' & E & L & P); [lia|lia|rewrite zlen_upd; lia| |].
    { intros j Hj. rewrite zn_upd by lia. destruct (Z.eqb_spec j b) as [->|].
      - rewrite HI by lia. replace (b - 1 + 1) with b by lia. rewrite wrap_add_l, sumf_succ by lia. reflexivity.
      - apply HI. lia. }
    exists s'. split; auto. split; [pose proof (zlen_upd sums b (u64 (zn 0 sums (b - 1) + W x b))); unfold zlen in *; lia|]. intros. apply P. lia.
Qed.

Lemma prefix_kernel_ok w m sums arr o k : place_ok arr o (lz w) -> length sums = lanes w -> 0 <= k < lz w ->
  exists sums', prefix_kernel w m sums (at_word arr o) k = Ok (psum (slice arr o (lz w)) (k + 1) mod 2 ^ 64, sums') /\ length sums' = lanes w.
Proof.
  intros Hp Hs Hk. rewrite psum_slice by (auto; lia). set (x := at_word arr o). pose proof (place_blk _ _ _ Hp : blk x (lz w)) as Hb.
  assert (LS : zlen sums = lz w) by (unfold zlen; lia). pose proof (lanes_cases w).
  change (sumf (W x) 0 (k + 1) mod 2 ^ 64) with (u64 (sumf (W x) 0 (k + 1))). destruct m; cbn [prefix_kernel].
  - rewrite (sum_loop_mod (ldw x) (W x) _ 0 0) by (intros; apply (ldw_ok x (lz w)); auto; lia). cbn [bind]. exists sums. split; auto.
    replace (0 + Z.of_nat (Z.to_nat (k + 1))) with (k + 1) by lia. reflexivity.
  - rewrite (ldw_ok x (lz w)) by (auto; lia). cbn [bind]. rewrite seti_ok by lia. cbn [bind].
    destruct (fill_sums x (lz w) Hb (lanes w - 1) 1 (upd sums 0 (W x 0))) as (s' & E & L & P); [lia|lia|rewrite zlen_upd; lia| |].
    { intros j Hj. assert (j = 0) as -> by lia. rewrite zn_upd by lia. cbn [Z.eqb Z.add]. change 1 with (0 + 1) at 1. rewrite sumf_one. rewrite wrap_small; auto. apply (W_word x (lz w)); auto. }
    rewrite E. cbn [bind]. assert (LS' : length s' = lanes w) by (pose proof (zlen_upd sums 0 (W x 0)); unfold zlen in *; lia).
    rewrite geti_ok by (unfold zlen; lia). cbn [bind]. rewrite P by lia. eauto.
  - destruct (vec_psum_block w x Hb) as (v & E & Ev). rewrite E. cbn [bind]. rewrite Ev.
    destruct (store_words_ok sums 0 (wsums (W x) (lanes w))) as (a & Ea & La & Pa); [lia|rewrite zlen_wsums; lia|]. rewrite Ea. cbn [bind].
    rewrite geti_ok by lia. cbn [bind]. rewrite Pa by lia. rewrite zlen_wsums. replace ((0 <=? k) && (k <? 0 + lz w)) with true by lia.
    rewrite Z.sub_0_r, zn_wsums by lia. exists a. split; auto. unfold zlen in *; lia.
Qed.

Lemma geti_past l k : zlen l <= k -> geti l k = Ub UB_bounds.
Proof. intros. unfold geti. replace (k <? zlen l) with false by lia. rewrite andb_false_r. reflexivity. Qed.

Lemma prefix_kernel_past w m sums arr o k : place_ok arr o (lz w) -> length sums = lanes w -> lz w <= k < 2 ^ 64 - 1 ->
  prefix_kernel w m sums (at_word arr o) k =
    match m with
    | PS_loop => if o + k <? zlen arr then Ok (psum (slice arr o (k + 1)) (k + 1) mod 2 ^ 64, sums) else Ub UB_bounds
    | _ => Ub UB_bounds
    end.
Proof.
  intros Hp Hs Hk. set (x := at_word arr o). pose proof (place_blk _ _ _ Hp : blk x (lz w)) as Hb. pose proof (lanes_cases w).
  assert (LS : zlen sums = lz w) by (unfold zlen; lia). destruct m; cbn [prefix_kernel].
  - destruct (Z.ltb_spec (o + k) (zlen arr)).
    + assert (Hp' : place_ok arr o (k + 1)) by (destruct Hp as (? & ? & ?); repeat split; auto; lia).
      rewrite (sum_loop_mod (ldw x) (W x) _ 0 0) by (intros; apply (ldw_ok x (k + 1)); [apply (place_blk _ _ _ Hp')|lia]). cbn [bind].
      rewrite psum_slice by (auto; lia). change (sumf (W (at_word arr o)) 0 (k + 1) mod 2 ^ 64) with (u64 (sumf (W x) 0 (k + 1))).
      replace (0 + Z.of_nat (Z.to_nat (k + 1))) with (k + 1) by lia. reflexivity.
    + destruct Hp as (P1 & P2 & P3). rewrite sum_loop_past; [reflexivity|lia| | |]; cbn [x at_word w_arr w_off]; lia.
  - rewrite (ldw_ok x (lz w)) by (auto; lia). cbn [bind]. rewrite seti_ok by lia. cbn [bind].
    destruct (fill_sums x (lz w) Hb (lanes w - 1) 1 (upd sums 0 (W x 0))) as (s' & E & L & P); [lia|lia|rewrite zlen_upd; lia| |].
    { intros j Hj. assert (j = 0) as -> by lia. rewrite zn_upd by lia. cbn [Z.eqb Z.add]. change 1 with (0 + 1) at 1. rewrite sumf_one. rewrite wrap_small; auto. apply (W_word x (lz w)); auto. }
    rewrite E. cbn [bind]. rewrite geti_past; [reflexivity|]. pose proof (zlen_upd sums 0 (W x 0)); unfold zlen in *; lia.
  - destruct (vec_psum_block w x Hb) as (v & E & Ev). rewrite E. cbn [bind]. rewrite Ev.
    destruct (store_words_ok sums 0 (wsums (W x) (lanes w))) as (a & Ea & La & Pa); [lia|rewrite zlen_wsums; lia|]. rewrite Ea. cbn [bind].
    rewrite geti_past by lia. reflexivity.
Qed.

(** ** Counts *)
Lemma slice_bits arr o n : place_ok arr o n -> 0 <= n -> bits_of_words (slice arr o n) = flat_map bits_of_word (map (W (at_word arr o)) (zrange 0 (Z.to_nat n))).
Proof.
  intros Hp Hn. unfold bits_of_words. f_equal. apply (list_ext 0).
  - destruct Hp as (? & ? & ?). rewrite zlen_slice by lia. rewrite zlen_map. unfold zlen. rewrite length_zrange. lia.
  - destruct Hp as (? & ? & ?). intros j Hj. rewrite zlen_slice in Hj by lia. rewrite zn_slice by lia. rewrite zn_map_zrange by lia. reflexivity.
Qed.

Lemma count_words (f : Z -> Z) n : forall a, count_true (flat_map bits_of_word (map f (zrange a n))) = sumf (fun j => popcount (f j)) a (a + Z.of_nat n).
Proof.
  induction n as [|n IH]; intros a; cbn [zrange map flat_map]; [rewrite sumf_empty by lia; reflexivity|].
  rewrite count_true_app, IH, <- popcount_word, (sumf_first _ a) by lia. do 2 f_equal. lia.
Qed.

Lemma popcnt_fold c m x n : pm_ok m -> blk x n -> forall k a acc, 0 <= a -> a + Z.of_nat k <= n ->
  foldM (fun tmp j => let* v := ldw x j in let* p := popcount_u64 c m v in Ok (u64 (tmp + p))) (zrange a k) (u64 acc) =
  Ok (u64 (acc + sumf (fun j => popcount (W x j)) a (a + Z.of_nat k))).
Proof.
  intros Hm Hb. induction k as [|k IH]; intros a acc Ha Hk; cbn [zrange foldM].
  - rewrite sumf_empty by lia. do 2 f_equal. lia.
  - rewrite (ldw_ok x n) by (auto; lia). cbn [bind]. rewrite popcount_u64_ok by (auto; apply (W_word x n); auto). cbn [bind].
    rewrite wrap_add_l, IH by lia. rewrite (sumf_first _ a (a + Z.of_nat (S k))) by lia. do 2 f_equal. replace (a + Z.of_nat (S k)) with (a + 1 + Z.of_nat k) by lia. lia.
Qed.

Lemma popcnt_kernel_ok c w m arr o : pm_ok m -> place_ok arr o (lz w) ->
  popcnt_kernel c w m (at_word arr o) = Ok (count_true (bits_of_words (slice arr o (lz w)))).
Proof.
  intros Hm Hp. unfold popcnt_kernel. change 0 with (u64 0) at 2. rewrite (popcnt_fold c m (at_word arr o) (lz w) Hm (place_blk _ _ _ Hp)) by lia.
  rewrite slice_bits by (auto; lia). rewrite Nat2Z.id, count_words. f_equal. apply wrap_small.
  pose proof (sumf_bound (fun j => popcount (W (at_word arr o) j)) 64 0 (0 + lz w) ltac:(lia) ltac:(intros; apply popcount_bound)). pose proof (lanes_cases w). lia.
Qed.

Lemma popcnt_vec_ok w arr o : place_ok arr o (lz w) ->
  popcnt_vec_kernel w (at_word arr o) = Ok (map (fun v => count_true (bits_of_word v)) (slice arr o (lz w))).
Proof.
  intros Hp. unfold popcnt_vec_kernel. rewrite (ldws_ok _ (lz w)) by (try apply (place_blk _ _ _ Hp); lia). cbn [bind].
  rewrite popcount_vec_ok.
  - f_equal. rewrite map_map. apply (list_ext 0); destruct Hp as (? & ? & ?).
    + rewrite !zlen_map, zlen_slice by lia. unfold zlen. rewrite length_zrange. lia.
    + intros j Hj. rewrite zlen_map in Hj. unfold zlen in Hj. rewrite length_zrange in Hj. rewrite zn_map_zrange by lia.
      rewrite (zn_map _ 0 0) by (rewrite zlen_slice; lia). rewrite zn_slice by lia. apply popcount_word.
  - apply Forall_forall. intros v Hv. apply in_map_iff in Hv as (j & <- & _). apply (W_word _ (lz w)). apply (place_blk _ _ _ Hp).
Qed.

Lemma popsel_kernel_ok w vec cnts arr o : place_ok arr o (lz w) -> length cnts = lanes w ->
  exists cnts', popsel_kernel w vec cnts (at_word arr o) = Ok (map (fun v => count_true (bits_of_word v)) (slice arr o (lz w)), cnts') /\ length cnts' = lanes w.
Proof.
  intros Hp Hl. destruct vec; cbn [popsel_kernel]; unfold popsel_kernel.
  - rewrite popcnt_vec_ok by auto. cbn [bind]. eauto.
  - destruct (fill_cells (ldw (at_word arr o)) (W (at_word arr o)) (lanes w) 0 cnts) as (cs & E & L & P); [lia|unfold zlen; lia|intros; apply (ldw_ok _ (lz w)); [apply (place_blk _ _ _ Hp)|lia]|].
    rewrite E. cbn [bind]. assert (Lc : length cs = lanes w) by (unfold zlen in *; lia). exists cs. split; auto. rewrite firstn_all2 by lia.
    repeat f_equal. apply (list_ext 0); destruct Hp as (? & ? & ?).
    + rewrite zlen_map, zlen_slice by lia. unfold zlen. lia.
    + intros j Hj. rewrite P by (unfold zlen in *; lia). replace ((0 <=? j) && (j <? 0 + lz w)) with true by (unfold zlen in *; lia).
      rewrite (zn_map _ 0 0) by (rewrite zlen_slice; unfold zlen in *; lia). rewrite zn_slice by (unfold zlen in *; lia). apply popcount_word.
Qed.

(** ** The mask of perf_rank64 *)
Lemma rank64_kernel_ok arr o k : place_ok arr o 1 -> 0 <= k < 64 ->
  rank64_kernel (at_word arr o) k = Ok (ones_before (bits_of_word (zn 0 arr o)) (if k =? 0 then 64 else k)).
Proof.
  intros Hp Hk. unfold rank64_kernel. rewrite (ldw_ok _ 1) by (try apply (place_blk _ _ _ Hp); lia). cbn [bind].
  unfold shl64. replace ((0 <=? k) && (k <? 64)) with true by lia. cbn [bind]. rewrite Z.shiftl_mul_pow2 by lia. unfold W, at_word. cbn [w_arr w_off]. rewrite Z.add_0_r.
  destruct Hp as (Hw & Ho & Hl). pose proof (words_zn arr o Hw).
  destruct (Z.eqb_spec k 0) as [->|].
  - cbn [negb b2z]. rewrite <- wones_word by lia. rewrite <- popcount_wones. do 2 f_equal.
    change (u64 (0 * _ - 1)) with (Z.ones 64). rewrite Z.land_ones by lia. apply Z.mod_small. lia.
  - cbn [negb b2z]. rewrite <- wones_word by lia. rewrite <- popcount_land_ones by lia. do 3 f_equal.
    rewrite Z.mul_1_l. assert (0 < 2 ^ k <= 2 ^ 63) by (split; [apply Z.pow_pos_nonneg; lia|apply Z.pow_le_mono_r; lia]).
    rewrite Z.mul_1_l. rewrite (wrap_small 64 (2 ^ k)) by lia. rewrite wrap_small by lia. rewrite Z.ones_equiv. lia.
Qed.
