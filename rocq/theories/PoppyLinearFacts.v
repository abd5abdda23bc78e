(** Proofs about selectLinear. *)
From Coq Require Import ZifyBool.
From Verif Require Import Base BaseFacts Words WordFacts BlockFacts NodeFacts Spec BitmapFacts ProgramFacts PropFacts2 SpecPoppy Poppy PoppyFacts PoppyFacts2 PoppyProps PoppyLinear.
Ltac Zify.zify_post_hook ::= Z.div_mod_to_equations.

Definition from (x : Z) (ws : list Z) : list Z := skipn (Z.to_nat x) ws.

Lemma from_len x ws : 0 <= x <= zlen ws -> zlen (from x ws) = zlen ws - x.
Proof. intros H. unfold from, zlen in *. rewrite skipn_length. lia. Qed.

Lemma from_zn x ws i : 0 <= x -> 0 <= i -> zn 0 ws (x + i) = zn 0 (from x ws) i.
Proof.
  intros Hx Hi. unfold zn, from. replace (Z.to_nat (x + i)) with (Z.to_nat x + Z.to_nat i)%nat by lia.
  generalize (Z.to_nat x) as a, (Z.to_nat i) as b. intros a. revert ws. induction a as [|a IH]; intros ws b; [reflexivity|].
  destruct ws as [|w ws]; [destruct b; reflexivity|]. cbn [Nat.add skipn nth]. apply IH.
Qed.

Lemma from_words x ws : words ws -> words (from x ws).
Proof. intros W. unfold words, from in *. rewrite Forall_forall in *. intros w Hw. apply W. rewrite <- (firstn_skipn (Z.to_nat x) ws). apply in_or_app. right. exact Hw. Qed.

Lemma geti_beyond l i : zlen l <= i -> geti l i = Ub UB_bounds.
Proof. intros H. unfold geti. replace ((0 <=? i) && (i <? zlen l)) with false by lia. reflexivity. Qed.

(** Enough ones from word x + i on. *)
Lemma loop_found ws x : words ws -> zlen ws < 2 ^ 58 -> 0 <= x -> forall fuel i k, 0 <= i -> x + i < zlen ws -> zlen ws - x - i <= Z.of_nat fuel ->
  1 <= k <= ms (from x ws) (64 * i) (64 * (zlen ws - x)) ->
  exists j, linear_loop fuel ws (zlen ws) x i k (popcount (zn 0 (from x ws) i)) =
      Ok (j, k - ms (from x ws) (64 * i) (64 * j), popcount (zn 0 (from x ws) j)) /\
    i <= j < zlen ws - x /\ 1 <= k - ms (from x ws) (64 * i) (64 * j) <= popcount (zn 0 (from x ws) j).
Proof.
  intros W HL Hx. pose proof (from_words x ws W) as W'. set (l := from x ws) in *.
  induction fuel as [|f IH]; intros i k Hi Hn Hf Hk; [lia|]. cbn [linear_loop].
  rewrite (wrap_small 64 (zlen ws - 1)) by lia. pose proof (full_word l i W' Hi) as FW.
  pose proof (ms_split l (64 * i) (64 * (i + 1)) (64 * (zlen ws - x)) ltac:(lia)) as SP.
  destruct (k >? popcount (zn 0 l i)) eqn:E.
  - assert (NE : i + 1 < zlen ws - x).
    { destruct (Z.eq_dec (i + 1) (zlen ws - x)) as [Q|Q]; [|lia]. rewrite <- Q in SP, Hk. rewrite ms_empty in SP. lia. }
    replace (i <? zlen ws - 1) with true by lia. cbn [andb]. rewrite wrap_small by lia. rewrite geti_ok by lia. cbn [bind].
    rewrite from_zn by lia. fold l.
    destruct (IH (i + 1) (k - popcount (zn 0 l i)) ltac:(lia) ltac:(lia) ltac:(lia) ltac:(lia)) as (j & Ej & Hj & Hr).
    exists j. pose proof (ms_split l (64 * i) (64 * (i + 1)) (64 * j) ltac:(lia)) as SJ.
    replace (k - popcount (zn 0 l i) - ms l (64 * (i + 1)) (64 * j)) with (k - ms l (64 * i) (64 * j)) in * by lia.
    rewrite Ej. split; [reflexivity|]. split; [lia|]. exact Hr.
  - exists i. rewrite ms_empty, Z.sub_0_r. cbn [andb]. split; [reflexivity|]. lia.
Qed.

(** Not enough. *)
Lemma loop_missing ws x : words ws -> zlen ws < 2 ^ 58 -> 0 <= x -> forall fuel i k, 0 <= i -> x + i < zlen ws -> zlen ws - x - i <= Z.of_nat fuel ->
  ms (from x ws) (64 * i) (64 * (zlen ws - x)) < k ->
  if x =? 0 then exists k', linear_loop fuel ws (zlen ws) x i k (popcount (zn 0 (from x ws) i)) =
      Ok (zlen ws - 1, k', popcount (zn 0 (from x ws) (zlen ws - 1))) /\ popcount (zn 0 (from x ws) (zlen ws - 1)) < k'
  else linear_loop fuel ws (zlen ws) x i k (popcount (zn 0 (from x ws) i)) = Ub UB_bounds.
Proof.
  intros W HL Hx. pose proof (from_words x ws W) as W'. set (l := from x ws) in *.
  induction fuel as [|f IH]; intros i k Hi Hn Hf Hk; [lia|]. cbn [linear_loop].
  rewrite (wrap_small 64 (zlen ws - 1)) by lia. pose proof (full_word l i W' Hi) as FW.
  pose proof (ms_split l (64 * i) (64 * (i + 1)) (64 * (zlen ws - x)) ltac:(lia)) as SP.
  pose proof (ms_bound l (64 * (i + 1)) (64 * (zlen ws - x)) ltac:(lia)) as MB.
  replace (k >? popcount (zn 0 l i)) with true by lia. cbn [andb].
  destruct (Z.eq_dec (i + 1) (zlen ws - x)) as [Q|Q].
  - rewrite wrap_small by lia. destruct (x =? 0) eqn:E.
    + replace (i <? zlen ws - 1) with false by lia. exists k. replace (zlen ws - 1) with i by lia. split; [reflexivity|].
      rewrite <- Q in SP, Hk. rewrite ms_empty in SP. lia.
    + replace (i <? zlen ws - 1) with true by lia. rewrite geti_beyond by lia. reflexivity.
  - replace (i <? zlen ws - 1) with true by lia. rewrite wrap_small by lia. rewrite geti_ok by lia. cbn [bind]. rewrite from_zn by lia. fold l.
    apply IH; lia.
Qed.

Lemma from_ones x ws : 0 <= x < zlen ws -> count_true (bits_msb (from x ws)) = ms (from x ws) 0 (64 * (zlen ws - x)).
Proof.
  intros H. rewrite count_true_all, zlen_bits_msb, from_len by lia. apply ones_msb. rewrite from_len; lia.
Qed.

Lemma linear_found sel ws x k : words ws -> zlen ws < 2 ^ 58 -> 0 <= x < zlen ws -> 1 <= k <= ms (from x ws) 0 (64 * (zlen ws - x)) ->
  exists j, in_word (from x ws) k j /\ select_linear_with sel ws (zlen ws) x k =
    (let* s := sel (zn 0 (from x ws) j) (k - ms (from x ws) 0 (64 * j)) in Ok (u64 (64 * j + s))).
Proof.
  intros W HL Hx Hk. pose proof (from_words x ws W) as W'. pose proof (from_len x ws ltac:(lia)) as FL.
  destruct (loop_found ws x W HL ltac:(lia) (S (length ws)) 0 k ltac:(lia) ltac:(lia) ltac:(unfold zlen in *; lia) Hk) as (j & E & Hj & Hr).
  exists j. pose proof (full_word (from x ws) j W' ltac:(lia)) as FW. change (64 * 0) with 0 in *.
  pose proof (ms_split (from x ws) 0 (64 * j) (64 * (j + 1)) ltac:(lia)) as SJ.
  pose proof (ms_bound (from x ws) 0 (64 * (zlen ws - x)) ltac:(lia)) as MB.
  pose proof (popcount_bound (zn 0 (from x ws) j)) as PB.
  split; [split; lia|]. unfold select_linear_with. rewrite (wrap_small 64 (zlen ws - x)), (wrap_small 64 ((zlen ws - x) * 64)) by lia.
  replace (k >? (zlen ws - x) * 64) with false by lia. rewrite geti_ok by lia. cbn [bind].
  replace (zn 0 ws x) with (zn 0 (from x ws) 0) by (rewrite <- from_zn by lia; f_equal; lia). rewrite E. cbn [bind].
  replace (popcount (zn 0 (from x ws) j) <? k - ms (from x ws) 0 (64 * j)) with false by lia. rewrite Bool.andb_false_r.
  rewrite (wrap_small 64 (x + j)) by lia. rewrite geti_ok by lia. cbn [bind]. rewrite from_zn by lia.
  set (r := k - ms (from x ws) 0 (64 * j)) in *. rewrite (wrap_small 32 r) by lia.
  replace (sgn 32 r) with r by (unfold sgn; replace (r <? 2 ^ (32 - 1)) with true by lia; reflexivity).
  replace (j * 64) with (64 * j) by lia. reflexivity.
Qed.

(** What the call of select64 makes of the word, for any array. *)
Lemma shipped_word ws k p : words ws -> zlen ws < 2 ^ 58 -> is_select (bits_of_words ws) k p -> 0 <= k -> forall j, in_word ws (k + 1) j ->
  let out := (let* s := select64 (zn 0 ws j) (k + 1 - ms ws 0 (64 * j)) in Ok (u64 (64 * j + s))) in
  (zn 0 ws (p / 64) = 2 ^ 64 - 1 /\ p mod 64 = 63 -> out = Ub UB_shift) /\
  (~ (zn 0 ws (p / 64) = 2 ^ 64 - 1 /\ p mod 64 = 63) -> exists q, out = Ok q /\ next_in_word ws k p q).
Proof.
  intros W HL HS Hk j IW out.
  pose proof (in_word_unique ws _ _ _ IW (select_in_word ws k p W HS)) as ->. subst out. set (j := p / 64) in *.
  pose proof (word_rank ws k p W HS) as WR. fold j in WR.
  set (r := k + 1 - ms ws 0 (64 * j)) in *. destruct IW as (J1 & J2).
  pose proof (ms_split ws 0 (64 * j) (64 * (j + 1)) ltac:(lia)) as SJ.
  pose proof (full_word ws j W ltac:(lia)) as FW.
  destruct (select64_cases (zn 0 ws j) r ltac:(unfold r; lia)) as [(L & s & Es & Ws)|[(L & L2 & Es)|(L & L2 & Es)]];
    rewrite Es; cbn [bind].
  - split.
    + intros (F1 & F2). exfalso. rewrite F1 in *. rewrite F2 in WR. destruct WR as (_ & _ & WR).
      change (wones (2 ^ 64 - 1) 0 63) with 63 in WR. change (popcount (2 ^ 64 - 1)) with 64 in L. unfold r in L. lia.
    + intros _. exists (64 * j + s). split; [f_equal; apply wrap_small; destruct Ws; lia|]. split; [exact HS|]. left.
      pose proof (wsel_select ws j r s W J1 Ws) as Q. replace (ms ws 0 (64 * j) + r) with (k + 1) in Q by (unfold r; lia).
      split; [exact Q|]. fold j. destruct Ws. lia.
  - split.
    + intros (F1 & F2). exfalso. rewrite F1 in L. change (popcount (2 ^ 64 - 1)) with 64 in L. lia.
    + intros _. exists (64 * (j + 1)). split; [f_equal; rewrite wrap_small; lia|]. split; [exact HS|]. right. split; [|reflexivity].
      intros q Hq Eq. pose proof (select_in_word ws (k + 1) q W Hq) as (Q1 & Q2). rewrite Eq in Q2. fold j in Q2. unfold r in L. lia.
  - split; [intros _; reflexivity|]. intros F. exfalso. apply F. rewrite L2 in L. symmetry in L.
    assert (EW : zn 0 ws j = 2 ^ 64 - 1) by (apply popcount_64; [apply word_at; auto|exact L]). split; [exact EW|].
    rewrite EW in WR. destruct WR as (W1 & _ & W3). unfold r in L2.
    pose proof (wones_bound (2 ^ 64 - 1) 0 (p mod 64) ltac:(lia)). lia.
Qed.

Lemma select_bounds B k p : is_select B k p -> 0 <= k < count_true B.
Proof.
  intros (H1 & H2 & H3). rewrite count_true_all. pose proof (ones_before_succ B p ltac:(lia)) as S. rewrite H2 in S. cbn [b2z] in S.
  pose proof (ones_before_mono B (p + 1) (zlen B) ltac:(lia) ltac:(lia)). pose proof (ones_before_mono B 0 p ltac:(lia) ltac:(lia)).
  change (ones_before B 0) with (count_true (firstn 0 B)) in *. change (count_true (firstn 0 B)) with 0 in *. lia.
Qed.

Lemma same_total ws : words ws -> count_true (bits_of_words ws) = count_true (bits_msb ws).
Proof.
  intros W. rewrite !count_true_all, zlen_bits, zlen_bits_msb. pose proof (zlen_nonneg ws).
  rewrite ones_words, ones_msb by lia. symmetry. apply whole_words; [exact W|lia].
Qed.

(** ** The statements of C116 *)
Lemma linear_other ws x k p : words_ok ws -> zlen ws < 2 ^ 58 -> 0 <= x < zlen ws -> is_select (bits_msb (from x ws)) k p ->
  select_linear_with (fun w r => Ok (select64_popcount_search w r)) ws (zlen ws) x (k + 1) = Ok p.
Proof.
  intros W HL Hx HS. pose proof (from_words x ws W) as W'. pose proof (select_bounds _ _ _ HS) as SB. rewrite from_ones in SB by lia.
  destruct (linear_found (fun w r => Ok (select64_popcount_search w r)) ws x (k + 1) W HL Hx ltac:(lia)) as (j & (J1 & J2) & ->).
  rewrite from_len in J1 by lia.
  cbn [bind]. set (l := from x ws) in *. pose proof (ms_split l 0 (64 * j) (64 * (j + 1)) ltac:(lia)) as SJ. pose proof (full_word l j W' ltac:(lia)) as FW.
  pose proof (select64_popcount_search_ok (zn 0 l j) (k + 1 - ms l 0 (64 * j)) (word_at l j W') ltac:(lia)) as M.
  assert (J3 : 0 <= j < zlen l) by (unfold l; rewrite from_len; lia).
  pose proof (msel_select l j _ _ W' J3 M) as Q.
  replace (ms l 0 (64 * j) + (k + 1 - ms l 0 (64 * j)) - 1) with k in Q by lia.
  rewrite (is_select_unique _ _ _ _ HS Q). f_equal. apply wrap_small. destruct M. lia.
Qed.

Lemma linear_shipped ws x k p : words_ok ws -> zlen ws < 2 ^ 58 -> 0 <= x < zlen ws -> is_select (bits_of_words (from x ws)) k p ->
  if (zn 0 ws (x + p / 64) =? 2 ^ 64 - 1) && (p mod 64 =? 63) then select_linear ws (zlen ws) x (k + 1) = Ub UB_shift
  else exists q, select_linear ws (zlen ws) x (k + 1) = Ok q /\ next_in_word (from x ws) k p q.
Proof.
  intros W HL Hx HS. pose proof (from_words x ws W) as W'. pose proof (select_bounds _ _ _ HS) as SB. rewrite same_total, from_ones in SB by (auto; lia).
  destruct (linear_found select64 ws x (k + 1) W HL Hx ltac:(lia)) as (j & IW & E). unfold select_linear.
  destruct (shipped_word (from x ws) k p W' ltac:(rewrite from_len; lia) HS ltac:(lia) j IW) as (S1 & S2). rewrite <- E in S1, S2.
  rewrite from_zn by (destruct HS; lia).
  destruct ((zn 0 (from x ws) (p / 64) =? 2 ^ 64 - 1) && (p mod 64 =? 63)) eqn:F; [apply S1|apply S2]; lia.
Qed.

Lemma linear_never ws x k p : words_ok ws -> zlen ws < 2 ^ 58 -> 0 <= x < zlen ws -> is_select (bits_of_words (from x ws)) k p ->
  select_linear ws (zlen ws) x (k + 1) <> Ok p.
Proof.
  intros W HL Hx HS E. pose proof (linear_shipped ws x k p W HL Hx HS) as S.
  destruct ((zn 0 ws (x + p / 64) =? 2 ^ 64 - 1) && (p mod 64 =? 63)); [congruence|].
  destruct S as (q & E' & N). apply next_after in N. rewrite E in E'. injection E' as ->. lia.
Qed.

Lemma linear_missing sel ws x k : words_ok ws -> zlen ws < 2 ^ 58 -> 0 <= x < zlen ws -> count_true (bits_msb (from x ws)) < k < 2 ^ 64 ->
  select_linear_with sel ws (zlen ws) x k =
    if (x =? 0) || (64 * (zlen ws - x) <? k) then Ok (2 ^ 64 - 1) else Ub UB_bounds.
Proof.
  intros W HL Hx Hk. rewrite from_ones in Hk by lia.
  pose proof (loop_missing ws x W HL ltac:(lia) (S (length ws)) 0 k ltac:(lia) ltac:(lia) ltac:(unfold zlen in *; lia) ltac:(apply Hk)) as L.
  unfold select_linear_with. rewrite (wrap_small 64 (zlen ws - x)), (wrap_small 64 ((zlen ws - x) * 64)) by lia.
  replace (64 * (zlen ws - x) <? k) with (k >? (zlen ws - x) * 64) by lia.
  destruct (k >? (zlen ws - x) * 64); [rewrite Bool.orb_true_r; reflexivity|]. rewrite Bool.orb_false_r.
  rewrite geti_ok by lia. cbn [bind].
  replace (zn 0 ws x) with (zn 0 (from x ws) 0) by (rewrite <- from_zn by lia; f_equal; lia).
  destruct (x =? 0).
  - destruct L as (k' & -> & Hk'). cbn [bind]. rewrite (wrap_small 64 (zlen ws - 1)) by lia. rewrite Z.eqb_refl.
    replace (_ <? k') with true by lia. reflexivity.
  - rewrite L. reflexivity.
Qed.

Lemma linear_beyond sel ws x k : zlen ws < 2 ^ 58 -> zlen ws <= x < zlen ws + 2 ^ 58 -> 0 <= k < 2 ^ 64 ->
  select_linear_with sel ws (zlen ws) x k =
    if (x =? zlen ws) && (1 <=? k) || negb (x =? zlen ws) && (2 ^ 64 - 64 * (x - zlen ws) <? k) then Ok (2 ^ 64 - 1) else Ub UB_bounds.
Proof.
  intros HL Hx Hk. pose proof (zlen_nonneg ws). unfold select_linear_with.
  assert (E : u64 (u64 (zlen ws - x) * 64) = if x =? zlen ws then 0 else 2 ^ 64 - 64 * (x - zlen ws)).
  { destruct (x =? zlen ws) eqn:E.
    - replace (zlen ws - x) with 0 by lia. reflexivity.
    - unfold wrap. rewrite Z.mul_mod_idemp_l by lia. symmetry. apply (Z.mod_unique_pos _ _ (-1)); lia. }
  rewrite E. destruct (x =? zlen ws) eqn:X; cbn [andb orb negb].
  - replace (k >? 0) with (1 <=? k) by lia. rewrite Bool.orb_false_r. destruct (1 <=? k); [reflexivity|]. rewrite geti_beyond by lia. reflexivity.
  - replace (k >? 2 ^ 64 - 64 * (x - zlen ws)) with (2 ^ 64 - 64 * (x - zlen ws) <? k) by lia.
    destruct (_ <? k); [reflexivity|]. rewrite geti_beyond by lia. reflexivity.
Qed.

Lemma popcount_0 w : 0 <= w < 2 ^ 64 -> popcount w = 0 -> w = 0.
Proof.
  intros Hw H. apply Z.bits_inj'. intros i Hi. rewrite Z.bits_0. destruct (Z_lt_le_dec i 64) as [L|L].
  - rewrite popcount_wones in H. rewrite (wones_split w 0 i 64) in H by lia. rewrite (wones_split w i (i + 1) 64) in H by lia.
    pose proof (wones_bound w 0 i ltac:(lia)). pose proof (wones_bound w (i + 1) 64 ltac:(lia)).
    assert (E : wones w i (i + 1) = wbit w i) by apply sumf_one. unfold wbit in E. destruct (Z.testbit w i); [|reflexivity]. cbn [b2z] in E. lia.
  - apply (bits_above w 64 i); lia.
Qed.

Lemma linear_zero ws x : words_ok ws -> zlen ws < 2 ^ 58 -> 0 <= x < zlen ws ->
  if zn 0 ws x =? 0 then select_linear ws (zlen ws) x 0 = Ok 64
  else exists q, select_linear ws (zlen ws) x 0 = Ok q /\ is_select (bits_of_word (zn 0 ws x)) 0 q.
Proof.
  intros W HL Hx. assert (E : select_linear ws (zlen ws) x 0 = (let* s := select64 (zn 0 ws x) 0 in Ok (u64 s))).
  { unfold select_linear, select_linear_with. rewrite (wrap_small 64 (zlen ws - x)), (wrap_small 64 ((zlen ws - x) * 64)) by lia.
    replace (0 >? (zlen ws - x) * 64) with false by lia. rewrite geti_ok by lia. cbn [bind linear_loop].
    pose proof (popcount_bound (zn 0 ws x)). replace (0 >? popcount (zn 0 ws x)) with false by lia. cbn [andb bind].
    replace (popcount (zn 0 ws x) <? 0) with false by lia. rewrite Bool.andb_false_r. rewrite wrap_small by lia.
    replace (x + 0) with x by lia. rewrite geti_ok by lia. cbn [bind]. reflexivity. }
  pose proof (word_at ws x W) as WA. pose proof (pdep_spec (zn 0 ws x) 0 WA ltac:(lia)) as P. rewrite <- popcount_word in P.
  rewrite E. unfold select64. destruct (zn 0 ws x =? 0) eqn:N.
  - replace (zn 0 ws x) with 0 in * by lia. reflexivity.
  - destruct (0 <? popcount (zn 0 ws x)) eqn:C.
    + destruct P as (r & -> & S). exists r. split; [|exact S]. cbn [bind]. f_equal. apply wrap_small. destruct S as (S & _).
      rewrite zlen_bits_of_word in S. lia.
    + exfalso. pose proof (popcount_bound (zn 0 ws x)). assert (Z0 : popcount (zn 0 ws x) = 0) by lia.
      assert (zn 0 ws x = 0); [|lia]. apply popcount_0; auto.
Qed.
