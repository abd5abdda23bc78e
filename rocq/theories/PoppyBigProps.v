(** The properties of the poppy index of bitmaps of 2^32 bits and more. *)
From Coq Require Import ZifyBool.
From Verif Require Import Base BaseFacts Words WordFacts BlockFacts NodeFacts Spec BitmapFacts ProgramFacts PropFacts2 SpecPoppy SpecPoppyBig Poppy PoppyFacts PoppyFacts2 PoppyProps PoppyBigFacts PoppyBigFacts2 PoppyBigFacts3.
Ltac Zify.zify_post_hook ::= Z.div_mod_to_equations.

Lemma piece_ms ws i : 0 <= i < pieces ws -> piece_ones ws i = piece ws i.
Proof.
  unfold pieces. intros Hi. unfold piece_ones, piece. rewrite !ones_msb by lia. rewrite (ms_split ws 0 (2 ^ 32 * i) (2 ^ 32 * (i + 1))) by lia. lia.
Qed.

Lemma piece_0 ws : piece ws 0 = ms ws 0 (2 ^ 32).
Proof. reflexivity. Qed.

Lemma big_build_cases junk ws : big_ok ws ->
  ((forall i, 0 <= i < pieces ws -> piece_fits ws i) /\ exists t, wrapper_build junk ws = Ok t /\ binv ws t /\
     forall g, 2 ^ 21 * pieces ws <= g < 64 * zlen ws / 2048 -> zn 0 (p_l2 t) g = junk g) \/
  ((exists i, 0 <= i < pieces ws /\ ~ piece_fits ws i) /\ wrapper_build junk ws = Ub UB_bounds).
Proof.
  intros (W & Hn). unfold wrapper_build, piece_fits. replace (zlen ws * 64) with (64 * zlen ws) by lia.
  destruct (poppy_new_big junk ws W Hn) as [(F & t & E & I & J)|((i & Hi & F) & E)]; fold (pieces ws) in *.
  - left. split; [intros i Hi; rewrite piece_ms by exact Hi; auto|]. exists t. auto.
  - right. split; [exists i; split; [exact Hi|rewrite piece_ms by exact Hi; lia]|exact E].
Qed.

Lemma big_build junk ws : big_ok ws ->
  ((forall i, 0 <= i < pieces ws -> piece_fits ws i) -> exists t, wrapper_build junk ws = Ok t) /\
  (forall i, 0 <= i < pieces ws -> ~ piece_fits ws i -> wrapper_build junk ws = Ub UB_bounds).
Proof.
  intros H. destruct (big_build_cases junk ws H) as [(F & t & E & _)|((i & Hi & F) & E)].
  - split; [eauto|]. intros i Hi N. exfalso. apply N. auto.
  - split; [|auto]. intros A. exfalso. apply F. auto.
Qed.

Lemma big_inv junk ws t : big_ok ws -> wrapper_build junk ws = Ok t ->
  binv ws t /\ (forall i, 0 <= i < pieces ws -> piece_fits ws i) /\
  (forall g, 2 ^ 21 * pieces ws <= g < 64 * zlen ws / 2048 -> zn 0 (p_l2 t) g = junk g).
Proof.
  intros H B. destruct (big_build_cases junk ws H) as [(F & t' & E & I & J)|(_ & E)]; [|congruence].
  rewrite B in E. injection E as <-. auto.
Qed.

Lemma big_rank junk dbg ws t pos : big_ok ws -> wrapper_build junk ws = Ok t -> 0 <= pos <= 64 * zlen ws ->
  poppy_rank dbg t pos = if pos <? 2 ^ 32 * pieces ws then Ok (ones_before (bits_msb ws) pos) else Ub UB_bounds.
Proof.
  intros H B Hp. destruct (big_inv junk ws t H B) as (I & _ & _). destruct H as (W & Hn). unfold pieces.
  destruct (Z.ltb_spec pos (2 ^ 32 * (64 * zlen ws / 2 ^ 32))) as [L|L].
  - rewrite ones_msb by lia. apply big_rank_ok; auto; lia.
  - apply (big_rank_out dbg ws t pos); auto; lia.
Qed.

Lemma big_wrapper_rank junk dbg ws t i : big_ok ws -> wrapper_build junk ws = Ok t -> 0 <= i < 64 * zlen ws ->
  wrapper_rank dbg t i = if i + 1 <? 2 ^ 32 * pieces ws then Ok (rank_spec (bits_msb ws) i) else Ub UB_bounds.
Proof.
  intros H B Hi. unfold wrapper_rank. rewrite wrap_small by (destruct H as (_ & ?); lia).
  rewrite (big_rank junk dbg ws t (i + 1) H B) by lia. reflexivity.
Qed.

Lemma fold_bytes : forall cs a n, 0 <= a -> 0 <= n -> Forall (fun c => 0 <= c < n) cs -> a + zlen cs * (4 * n + 4) < 2 ^ 64 ->
  fold_left (fun r c => u64 (r + 4 * c + 4)) cs a = a + 4 * fold_right Z.add 0 cs + 4 * zlen cs.
Proof.
  induction cs as [|c cs IH]; intros a n Ha Hn F B; [cbn; lia|]. inversion F as [|? ? Hc Hcs]; subst. cbn [fold_left fold_right].
  rewrite zlen_cons in *. pose proof (zlen_nonneg cs). assert (0 <= zlen cs * (4 * n + 4)) by (apply Z.mul_nonneg_nonneg; lia).
  rewrite (wrap_small 64 (a + 4 * c + 4)) by lia. rewrite (IH (a + 4 * c + 4) n) by (auto; lia). lia.
Qed.

Lemma big_counts junk ws t : big_ok ws -> wrapper_build junk ws = Ok t ->
  p_count t = ones_before (bits_msb ws) (2 ^ 32 * pieces ws) /\ wrapper_size t = 64 * zlen ws /\
  wrapper_bytes t = 8 * zlen ws + 8 * (zlen ws / 32) + 12 * pieces ws + 4 * locations ws + 40.
Proof.
  intros H B. destruct (big_inv junk ws t H B) as (I & FT & _). destruct H as (W & Hn).
  split; [rewrite ones_msb by (unfold pieces; lia); apply (bi_count _ _ I)|]. split; [apply (bi_n _ _ I)|].
  unfold wrapper_bytes, poppy_bytes. rewrite (bi_cnt _ _ I), (bi_l1len _ _ I), (bi_l2len _ _ I), (bi_bits _ _ I). fold (pieces ws).
  assert (EL : map (fun j => cdiv (piece ws j) 8192) (zrange 0 (Z.to_nat (pieces ws))) =
               map (fun i => cdiv (piece_ones ws i) 8192) (zrange 0 (Z.to_nat (pieces ws)))).
  { apply map_ext_in. intros i Hi. apply in_zrange in Hi. rewrite piece_ms by lia. reflexivity. }
  rewrite EL. set (cs := map _ _).
  assert (LC : zlen cs = pieces ws) by (unfold cs; rewrite zlen_map; unfold zlen; rewrite length_zrange; unfold pieces; lia).
  assert (PB : 1 <= pieces ws < 2 ^ 16) by (unfold pieces; lia).
  rewrite (fold_bytes cs _ (2 ^ 20)).
  - rewrite LC. unfold locations. fold cs. replace (64 * zlen ws / 2048) with (zlen ws / 32) by lia. lia.
  - lia.
  - lia.
  - apply Forall_forall. intros c Hc. unfold cs in Hc. apply in_map_iff in Hc. destruct Hc as (i & <- & Hi). apply in_zrange in Hi.
    rewrite piece_ms by lia. pose proof (piece_bound ws i). unfold cdiv. lia.
  - rewrite LC. lia.
Qed.

(** ** select *)
Lemma word_answer ws k p j (f : res Z) : words ws -> is_select (bits_of_words ws) k p -> in_word ws (k + 1) j -> j < 2 ^ 26 ->
  f = (let* s := select64 (zn 0 ws j) (k + 1 - ms ws 0 (64 * j)) in Ok (u64 (64 * j + s))) ->
  if (zn 0 ws (p / 64) =? 2 ^ 64 - 1) && (p mod 64 =? 63) then f = Ub UB_shift
  else exists q, f = Ok q /\ next_in_word ws k p q.
Proof.
  intros W HS IW Hj E.
  pose proof (in_word_unique ws _ _ _ IW (select_in_word ws k p W HS)) as ->. set (j := p / 64) in *.
  pose proof (word_rank ws k p W HS) as WR. fold j in WR.
  set (r := k + 1 - ms ws 0 (64 * j)) in *. destruct IW as (J1 & J2).
  pose proof (ms_split ws 0 (64 * j) (64 * (j + 1)) ltac:(lia)) as SJ.
  pose proof (full_word ws j W ltac:(lia)) as FW.
  destruct (select64_cases (zn 0 ws j) r ltac:(unfold r; lia)) as [(L & s & Es & Ws)|[(L & L2 & Es)|(L & L2 & Es)]];
    rewrite Es in E; cbn [bind] in E.
  - destruct ((zn 0 ws j =? 2 ^ 64 - 1) && (p mod 64 =? 63)) eqn:Q.
    + exfalso. assert (F1 : zn 0 ws j = 2 ^ 64 - 1) by lia. assert (F2 : p mod 64 = 63) by lia. rewrite F1 in *. rewrite F2 in WR. destruct WR as (_ & _ & WR).
      change (wones (2 ^ 64 - 1) 0 63) with 63 in WR. change (popcount (2 ^ 64 - 1)) with 64 in L. unfold r in L. lia.
    + exists (64 * j + s). split; [rewrite E; f_equal; apply wrap_small; destruct Ws; lia|]. split; [exact HS|]. left.
      pose proof (wsel_select ws j r s W J1 Ws) as QS. replace (ms ws 0 (64 * j) + r) with (k + 1) in QS by (unfold r; lia).
      split; [exact QS|]. fold j. destruct Ws. lia.
  - destruct ((zn 0 ws j =? 2 ^ 64 - 1) && (p mod 64 =? 63)) eqn:Q.
    + exfalso. assert (F1 : zn 0 ws j = 2 ^ 64 - 1) by lia. rewrite F1 in L. change (popcount (2 ^ 64 - 1)) with 64 in L. lia.
    + exists (64 * (j + 1)). split; [rewrite E; f_equal; rewrite wrap_small; lia|]. split; [exact HS|]. right. split; [|reflexivity].
      intros q Hq Eq. pose proof (select_in_word ws (k + 1) q W Hq) as (Q1 & Q2). rewrite Eq in Q2. fold j in Q2. unfold r in L. lia.
  - rewrite L2 in L. symmetry in L.
    assert (EW : zn 0 ws j = 2 ^ 64 - 1) by (apply popcount_64; [apply word_at; auto|exact L]).
    rewrite EW in WR. destruct WR as (W1 & _ & W3). unfold r in L2.
    pose proof (wones_bound (2 ^ 64 - 1) 0 (p mod 64) ltac:(lia)). replace (_ && _) with true by lia. exact E.
Qed.

Definition other_select64 : Z -> Z -> res Z := fun x k => Ok (select64_popcount_search x k).

Lemma word_answer_other ws k p j (f : res Z) : words ws -> is_select (bits_msb ws) k p -> in_word ws (k + 1) j -> j < 2 ^ 26 ->
  f = (let* s := other_select64 (zn 0 ws j) (k + 1 - ms ws 0 (64 * j)) in Ok (u64 (64 * j + s))) -> f = Ok p.
Proof.
  intros W HS (J1 & J2) Hj ->. unfold other_select64.
  cbn [bind]. pose proof (ms_split ws 0 (64 * j) (64 * (j + 1)) ltac:(lia)) as SJ. pose proof (full_word ws j W ltac:(lia)) as FW.
  pose proof (select64_popcount_search_ok (zn 0 ws j) (k + 1 - ms ws 0 (64 * j)) (word_at ws j W) ltac:(lia)) as M.
  pose proof (msel_select ws j _ _ W J1 M) as Q.
  replace (ms ws 0 (64 * j) + (k + 1 - ms ws 0 (64 * j)) - 1) with k in Q by lia.
  rewrite (is_select_unique _ _ _ _ HS Q). f_equal. apply wrap_small. destruct M. lia.
Qed.

(** The first piece of several. *)
Lemma first_piece_word sel junk dbg ws t k : big_ok ws -> 2 <= pieces ws -> wrapper_build junk ws = Ok t -> 0 <= k < piece_ones ws 0 ->
  exists j, in_word ws (k + 1) j /\ j < 2 ^ 26 /\
    poppy_select_with sel dbg t (k + 1) = (let* s := sel (zn 0 ws j) (k + 1 - ms ws 0 (64 * j)) in Ok (u64 (64 * j + s))).
Proof.
  intros H HP B Hk. destruct (big_inv junk ws t H B) as (I & FT & _). destruct H as (W & Hn).
  pose proof (FT 0 ltac:(lia)) as F0. unfold piece_fits in F0. rewrite piece_ms in * by lia.
  apply select_first_piece; auto; [unfold pieces in HP; lia|]. rewrite piece_0 in Hk. lia.
Qed.

Lemma first_piece_exact junk dbg ws t k p : big_ok ws -> 2 <= pieces ws -> wrapper_build junk ws = Ok t ->
  0 <= k < piece_ones ws 0 -> is_select (bits_of_words ws) k p ->
  if (zn 0 ws (p / 64) =? 2 ^ 64 - 1) && (p mod 64 =? 63) then wrapper_select dbg t k = Ub UB_shift
  else exists q, wrapper_select dbg t k = Ok q /\ next_in_word ws k p q.
Proof.
  intros H HP B Hk HS. destruct (first_piece_word select64 junk dbg ws t k H HP B Hk) as (j & J1 & J2 & E).
  unfold wrapper_select. rewrite wrap_small.
  - apply (word_answer ws k p j); auto. apply H.
  - rewrite piece_ms in Hk by lia. pose proof (piece_bound ws 0). lia.
Qed.

Lemma first_piece_other junk dbg ws t k p : big_ok ws -> 2 <= pieces ws -> wrapper_build junk ws = Ok t ->
  0 <= k < piece_ones ws 0 -> is_select (bits_msb ws) k p -> poppy_select_with other_select64 dbg t (k + 1) = Ok p.
Proof.
  intros H HP B Hk HS. destruct (first_piece_word other_select64 junk dbg ws t k H HP B Hk) as (j & J1 & J2 & E).
  apply (word_answer_other ws k p j); auto. apply H.
Qed.

(** Later pieces. *)
Lemma select_piece ws k p : words_ok ws -> is_select (bits_msb ws) k p -> p < 2 ^ 32 * pieces ws ->
  ms ws 0 (2 ^ 32 * (p / 2 ^ 32)) < k + 1 <= ms ws 0 (2 ^ 32 * (p / 2 ^ 32 + 1)).
Proof.
  intros W (H1 & H2 & H3) Hp. unfold pieces in Hp. rewrite zlen_bits_msb in H1. rewrite <- !ones_msb by lia.
  pose proof (ones_before_mono (bits_msb ws) (2 ^ 32 * (p / 2 ^ 32)) p ltac:(lia) ltac:(rewrite zlen_bits_msb; lia)).
  pose proof (ones_before_mono (bits_msb ws) (p + 1) (2 ^ 32 * (p / 2 ^ 32 + 1)) ltac:(lia) ltac:(rewrite zlen_bits_msb; lia)).
  pose proof (ones_before_succ (bits_msb ws) p ltac:(rewrite zlen_bits_msb; lia)) as S. rewrite H2 in S. cbn [b2z] in S. lia.
Qed.

Lemma later_piece sel junk dbg ws t k p q : in_word_answers sel -> big_ok ws -> zlen ws mod 2 ^ 26 = 0 -> 64 * zlen ws <= 2 ^ 37 ->
  wrapper_build junk ws = Ok t -> piece_ones ws 0 = 0 -> is_select (bits_msb ws) k p ->
  poppy_select_with sel dbg t (k + 1) = Ok q -> 2 ^ 32 * (p / 2 ^ 32 + 1) - 513 <= q <= 2 ^ 32 * (p / 2 ^ 32 + 1).
Proof.
  intros HA H M Hm B Z0 HS E. destruct (big_inv junk ws t H B) as (I & FT & _). destruct H as (W & Hn).
  rewrite piece_ms in Z0 by (unfold pieces; lia). rewrite piece_0 in Z0.
  pose proof HS as (H1 & H2 & H3). rewrite zlen_bits_msb in H1.
  pose proof (select_piece ws k p W HS ltac:(unfold pieces; lia)) as SP.
  assert (Hi : 1 <= p / 2 ^ 32).
  { destruct (Z_lt_le_dec 0 (p / 2 ^ 32)) as [|L]; [lia|]. exfalso. replace (p / 2 ^ 32) with 0 in SP by lia.
    replace (2 ^ 32 * (0 + 1)) with (2 ^ 32) in SP by lia. replace (2 ^ 32 * 0) with 0 in SP by lia. rewrite ms_empty in SP. lia. }
  apply (select_later_piece sel dbg ws t (k + 1) (p / 2 ^ 32) q); auto; lia.
Qed.
