(** Facts about the poppy index of bitmaps of 2^32 bits and more: select. *)
From Coq Require Import ZifyBool.
From Verif Require Import Base BaseFacts Words WordFacts BlockFacts NodeFacts Spec BitmapFacts ProgramFacts SpecPoppy SpecPoppyBig Poppy PoppyFacts PoppyFacts2 PoppyBigFacts PoppyBigFacts2.
Ltac Zify.zify_post_hook ::= Z.div_mod_to_equations.

Lemma find_l1_ok ws l1 i r m : (forall j, 0 <= j < m -> zn 0 l1 j = ms ws 0 (2 ^ 32 * j)) -> zlen l1 = m -> m < 2 ^ 32 ->
  0 <= i < m -> ms ws 0 (2 ^ 32 * i) < r <= ms ws 0 (2 ^ 32 * (i + 1)) -> r < 2 ^ 64 ->
  forall fuel id, i <= id < m -> id - i < Z.of_nat fuel -> find_l1 fuel l1 id r = Ok (i, r - ms ws 0 (2 ^ 32 * i)).
Proof.
  intros HE HL Hm Hi Hr Hr2. induction fuel as [|f IH]; intros id Hid Hf; [lia|]. cbn [find_l1].
  rewrite geti_ok by lia. cbn [bind]. rewrite HE by lia. pose proof (ms_bound ws 0 (2 ^ 32 * i) ltac:(lia)).
  destruct (Z.eq_dec id i) as [->|].
  - replace (_ <? r) with true by lia. rewrite wrap_small by lia. reflexivity.
  - pose proof (ms_mono ws 0 (2 ^ 32 * (i + 1)) (2 ^ 32 * id) ltac:(lia)).
    replace (_ <? r) with false by lia. rewrite wrap_small by lia. apply IH; lia.
Qed.

(** What follows the search for the L2 entry, in the first piece. *)
Lemma select_tail sel ws t g r : words ws -> p_bits t = ws -> 0 <= g < 2 ^ 21 -> g < zlen (p_l2 t) -> 2048 * (g + 1) <= 64 * zlen ws ->
  zn 0 (p_l2 t) g = l2_entry ws g -> ms ws 0 (2048 * g) < r <= ms ws 0 (2048 * (g + 1)) ->
  exists j, in_word ws r j /\ j < 2 ^ 26 /\
    (let* e := geti (p_l2 t) g in
     let rank := u64 (r - Z.land e 0xFFFFFFFF) in
     let '(g0, rank0) := find_group 3 0 (u32 (Z.shiftr e 32)) rank in
     let* s := select512_with sel (p_bits t) (sgn 32 (u32 ((u32 (0 + g) * 4 + g0) * 8))) (sgn 32 (u32 rank0)) in
     Ok (u64 (u64 (Z.shiftl 0 32) + u32 (Z.shiftl g 11) + Z.shiftl g0 9 + s))) =
    (let* s := sel (zn 0 ws j) (r - ms ws 0 (64 * j)) in Ok (u64 (64 * j + s))).
Proof.
  intros W PB Hg Hgl Hin HE Hrg.
  rewrite geti_ok by lia. cbn [bind]. rewrite HE by lia. rewrite entry_low by lia.
  pose proof (ms_bound ws 0 (2048 * g) ltac:(lia)) as Bg. pose proof (ms_bound ws 0 (2048 * (g + 1)) ltac:(lia)) as Bg1.
  rewrite (wrap_small 64 (r - ms ws 0 (2048 * g))) by lia. cbv zeta.
  rewrite (wrap_small 32 (Z.shiftr (l2_entry ws g) 32)).
  2:{ rewrite entry_high by lia. pose proof (blk_bound ws (4 * g)). pose proof (blk_bound ws (4 * g + 1)). pose proof (blk_bound ws (4 * g + 2)). lia. }
  pose proof (ms_split ws 0 (2048 * g) (2048 * (g + 1)) ltac:(lia)) as Sg.
  destruct (find_group_ok ws g (r - ms ws 0 (2048 * g)) ltac:(lia) ltac:(lia)) as (q & Eq & Hq & Hrq). rewrite Eq.
  set (k := r - ms ws 0 (2048 * g) - ms ws (2048 * g) (2048 * g + 512 * q)) in *.
  pose proof (ms_bound ws (2048 * g) (2048 * g + 512 * q) ltac:(lia)) as Bq.
  pose proof (ms_split ws (2048 * g) (2048 * g + 512 * q) (2048 * g + 512 * (q + 1)) ltac:(lia)) as Sq.
  pose proof (ms_bound ws (2048 * g + 512 * q) (2048 * g + 512 * (q + 1)) ltac:(lia)) as Bk.
  rewrite Z.add_0_l. rewrite (wrap_small 32 g) by lia. rewrite (wrap_small 32 ((g * 4 + q) * 8)) by lia. rewrite (wrap_small 32 k) by lia.
  unfold sgn. replace ((g * 4 + q) * 8 <? 2 ^ (32 - 1)) with true by lia. replace (k <? 2 ^ (32 - 1)) with true by lia.
  rewrite PB.
  set (x := (g * 4 + q) * 8). assert (Hx : 0 <= x /\ x + 8 <= zlen ws) by (unfold x in *; lia).
  assert (X1 : 64 * x = 2048 * g + 512 * q) by (unfold x; lia). assert (X2 : 64 * (x + 8) = 2048 * g + 512 * (q + 1)) by (unfold x; lia).
  destruct (select512_ok sel ws x k W ltac:(lia) ltac:(lia)) as (j & Hj & Hk & E5). { rewrite X1, X2. lia. }
  exists (x + j). pose proof (ms_split ws 0 (64 * x) (64 * (x + j)) ltac:(lia)) as S1.
  pose proof (ms_split ws 0 (2048 * g) (64 * x) ltac:(lia)) as S2. rewrite X1 in S2.
  assert (EK : k - ms ws (64 * x) (64 * (x + j)) = r - ms ws 0 (64 * (x + j))) by (rewrite X1 in *; unfold k; lia).
  split.
  { split; [lia|]. rewrite EK in Hk. rewrite full_word in Hk by (auto; lia).
    pose proof (ms_split ws 0 (64 * (x + j)) (64 * (x + j + 1)) ltac:(lia)). lia. }
  split; [unfold x; lia|]. rewrite E5, EK. destruct (sel (zn 0 ws (x + j)) (r - ms ws 0 (64 * (x + j)))); cbn [bind]; [|reflexivity|reflexivity].
  f_equal. rewrite Z.shiftl_0_l. change (u64 0) with 0. rewrite Z.add_0_l. rewrite (Z.shiftl_mul_pow2 g), (Z.shiftl_mul_pow2 q) by lia.
  rewrite (wrap_small 32 (g * 2 ^ 11)) by lia. f_equal. change (2 ^ 11) with 2048. change (2 ^ 9) with 512. lia.
Qed.

(** Ones of the first of several pieces. *)
Lemma select_first_piece sel dbg ws t r : words ws -> 2 ^ 33 <= 64 * zlen ws < 2 ^ 48 -> binv ws t -> piece ws 0 + 8191 < 2 ^ 32 ->
  1 <= r <= ms ws 0 (2 ^ 32) ->
  exists j, in_word ws r j /\ j < 2 ^ 26 /\
    poppy_select_with sel dbg t r = (let* s := sel (zn 0 ws j) (r - ms ws 0 (64 * j)) in Ok (u64 (64 * j + s))).
Proof.
  intros W Hn I HF Hr. unfold poppy_select_with.
  set (m := 64 * zlen ws / 2 ^ 32). assert (Hm : 2 <= m < 2 ^ 16 /\ 2 ^ 32 * m <= 64 * zlen ws) by (unfold m; lia).
  pose proof (ms_mono ws 0 (2 ^ 32) (2 ^ 32 * m) ltac:(lia)) as MM. pose proof (ms_bound ws 0 (2 ^ 32) ltac:(lia)) as MB.
  rewrite massert_true by (rewrite (bi_count _ _ I); fold m; lia). cbn [bind].
  pose proof (bi_l1len _ _ I) as L1. fold m in L1. pose proof (bi_l1 _ _ I) as P1. fold m in P1.
  assert (F1 : find_l1 (S (length (p_l1 t))) (p_l1 t) (zlen (p_l1 t) - 1) r = Ok (0, r)).
  { rewrite (find_l1_ok ws (p_l1 t) 0 r m P1 L1).
    - change (2 ^ 32 * 0) with 0. rewrite ms_empty, Z.sub_0_r. reflexivity.
    - lia.
    - lia.
    - change (2 ^ 32 * 0) with 0. rewrite ms_empty. change (2 ^ 32 * (0 + 1)) with (2 ^ 32). lia.
    - lia.
    - lia.
    - unfold zlen in *. lia. }
  rewrite F1. cbn [bind]. change (u32 (0 * 2 ^ 21)) with 0. replace (0 =? zlen (p_l1 t) - 1) with false by lia.
  destruct (bi_loc _ _ I 0 ltac:(fold m; lia)) as (LL & PL). set (loc := zn [] (p_loc t) 0) in *.
  assert (EP : piece ws 0 = ms ws 0 (2 ^ 32)) by reflexivity. rewrite EP in *.
  rewrite (wrap_small 64 (r - 1)) by lia.
  assert (HJ : 0 <= (r - 1) / 8192 < zlen loc) by (rewrite LL; unfold cdiv; lia).
  rewrite geti_ok by exact HJ. cbn [bind].
  destruct (PL ((r - 1) / 8192) HJ) as (Q1 & _ & Q3). change (2 ^ 32 * 0) with 0 in Q3. rewrite Z.add_0_l in Q3.
  set (p := zn 0 loc ((r - 1) / 8192)) in *. rewrite (Z.shiftr_div_pow2 p) by lia. change (2 ^ 11) with 2048.
  assert (HE : forall g, 0 <= g < 2 ^ 21 -> zn 0 (p_l2 t) g = l2_entry ws g).
  { intros g Hg. rewrite (bi_l2 _ _ I) by (fold m; lia). replace (g / 2 ^ 21) with 0 by lia. reflexivity. }
  pose proof (bi_l2len _ _ I) as L2.
  assert (Hlo : ms ws 0 (2048 * (p / 2048)) < r).
  { pose proof (ms_mono ws 0 (2048 * (p / 2048)) p ltac:(lia)). lia. }
  destruct (find_l2_ok ws (p_l2 t) (2 ^ 21) r (S (length (p_l2 t))) (p / 2048)) as (g & Eg & Hg & Hrg); [lia|lia|lia|unfold zlen in *; lia|exact HE| |].
  { change (2048 * 2 ^ 21) with (2 ^ 32). lia. }
  rewrite Eg. cbn [bind].
  destruct (select_tail sel ws t g r W (bi_bits _ _ I) Hg ltac:(lia) ltac:(lia) (HE g Hg) Hrg) as (j & J1 & J2 & E).
  exists j. split; [exact J1|]. split; [exact J2|]. exact E.
Qed.

(** Less than two pieces: the search may meet entries beyond the first piece. *)
Lemma find_l2_stop ws l2 max lim rank : forall fuel id, 0 <= id < lim -> lim < max -> max <= 2 ^ 22 -> lim < 2 ^ 21 -> max <= zlen l2 -> lim - id < Z.of_nat fuel ->
  (forall g, 0 <= g <= lim -> zn 0 l2 g = l2_entry ws g) -> ms ws 0 (2048 * id) < rank <= ms ws 0 (2048 * lim) ->
  exists g, find_l2 fuel l2 max id rank = Ok g /\ 0 <= g < lim /\ ms ws 0 (2048 * g) < rank <= ms ws 0 (2048 * (g + 1)).
Proof.
  induction fuel as [|f IH]; intros id Hid Hm Hm2 Hl2 Hl Hf HE Hr; [lia|]. cbn [find_l2]. rewrite wrap_small by lia.
  replace (id + 1 <? max) with true by lia.
  rewrite geti_ok by lia. cbn [bind]. rewrite HE, entry_low by lia.
  destruct (Z.ltb_spec (ms ws 0 (2048 * (id + 1))) rank) as [H1|H1].
  - assert (id + 1 <> lim) by (intros Q; rewrite Q in H1; lia). apply IH; auto; lia.
  - exists id. split; [reflexivity|]. split; [lia|]. lia.
Qed.

Lemma select_below_last sel dbg ws t r : words ws -> 2 ^ 32 < 64 * zlen ws < 2 ^ 33 -> pinv ws t ->
  1 <= r <= ms ws 0 (2 ^ 32 - 2048) ->
  exists j, in_word ws r j /\ j < 2 ^ 26 /\
    poppy_select_with sel dbg t r = (let* s := sel (zn 0 ws j) (r - ms ws 0 (64 * j)) in Ok (u64 (64 * j + s))).
Proof.
  intros W Hn I Hr. unfold poppy_select_with.
  assert (RB : rank_bits (64 * zlen ws) = 2 ^ 32) by (unfold rank_bits; lia).
  pose proof (ms_mono ws 0 (2 ^ 32 - 2048) (2 ^ 32) ltac:(lia)) as MM. pose proof (ms_bound ws 0 (2 ^ 32) ltac:(lia)) as MB.
  rewrite massert_true by (rewrite (pi_count _ _ I), RB; lia). cbn [bind].
  rewrite (pi_l1 _ _ I). change (zlen [0]) with 1. change (length [0]) with 1%nat. change (1 - 1) with 0.
  cbn [find_l1]. change (geti [0] 0) with (Ok 0 : res Z). cbn [bind]. replace (0 <? r) with true by lia. cbn [bind].
  rewrite (wrap_small 64 (r - 0)) by lia. rewrite Z.sub_0_r. change (0 * 2 ^ 21) with 0. change (u32 0) with 0. rewrite Z.eqb_refl.
  rewrite (pi_l2 _ _ I), Z.sub_0_r. rewrite (wrap_small 32 (64 * zlen ws / 2048)) by lia.
  destruct (pi_loc _ _ I) as (loc & EL & LL & PL). rewrite EL. change (zn [] [loc] 0) with loc. rewrite RB in LL.
  rewrite (wrap_small 64 (r - 1)) by lia.
  assert (HJ : 0 <= (r - 1) / 8192 < zlen loc) by (rewrite LL; unfold cdiv; lia).
  rewrite geti_ok by exact HJ. cbn [bind].
  destruct (PL ((r - 1) / 8192) HJ) as (Q1 & _ & Q3).
  set (p := zn 0 loc ((r - 1) / 8192)) in *. rewrite (Z.shiftr_div_pow2 p) by lia. change (2 ^ 11) with 2048.
  assert (HE : forall g, 0 <= g < 2 ^ 21 -> zn 0 (p_l2 t) g = l2_entry ws g).
  { intros g Hg. apply (pi_entry _ _ I). unfold groups. lia. }
  pose proof (pi_l2 _ _ I) as L2.
  assert (Hlo : ms ws 0 (2048 * (p / 2048)) < r).
  { pose proof (ms_mono ws 0 (2048 * (p / 2048)) p ltac:(lia)). lia. }
  assert (Hp : p < 2 ^ 32 - 2048).
  { destruct (Z_lt_le_dec p (2 ^ 32 - 2048)) as [|Hge]; [assumption|]. pose proof (ms_mono ws 0 (2 ^ 32 - 2048) p ltac:(lia)). lia. }
  destruct (Z.eq_dec (64 * zlen ws / 2048) (2 ^ 21)) as [EM|EM].
  - rewrite EM. destruct (find_l2_ok ws (p_l2 t) (2 ^ 21) r (S (length (p_l2 t))) (p / 2048)) as (g & Eg & Hg & Hrg); [lia|lia|lia|unfold zlen in *; lia|exact HE| |].
    { change (2048 * 2 ^ 21) with (2 ^ 32). lia. }
    rewrite Eg. cbn [bind].
    destruct (select_tail sel ws t g r W (pi_bits _ _ I) Hg ltac:(lia) ltac:(lia) (HE g Hg) Hrg) as (j & J1 & J2 & E).
    exists j. split; [exact J1|]. split; [exact J2|]. exact E.
  - destruct (find_l2_stop ws (p_l2 t) (64 * zlen ws / 2048) (2 ^ 21 - 1) r (S (length (p_l2 t))) (p / 2048)) as (g & Eg & Hg & Hrg);
      [lia|lia|lia|lia|lia|unfold zlen in *; lia|intros; apply HE; lia| |].
    { replace (2048 * (2 ^ 21 - 1)) with (2 ^ 32 - 2048) by lia. lia. }
    rewrite Eg. cbn [bind].
    destruct (select_tail sel ws t g r W (pi_bits _ _ I) ltac:(lia) ltac:(lia) ltac:(lia) (HE g ltac:(lia)) Hrg) as (j & J1 & J2 & E).
    exists j. split; [exact J1|]. split; [exact J2|]. exact E.
Qed.

(** ** Later pieces, when the first holds no one *)
Lemma ms_zero_sub ws a b c d : ms ws a d = 0 -> a <= b <= c -> c <= d -> ms ws b c = 0.
Proof.
  intros H H1 H2. rewrite (ms_split ws a b d), (ms_split ws b c d) in H by lia.
  pose proof (ms_bound ws a b ltac:(lia)). pose proof (ms_bound ws b c ltac:(lia)). pose proof (ms_bound ws c d ltac:(lia)). lia.
Qed.

Lemma zero_entry ws g : ms ws 0 (2 ^ 32) = 0 -> 0 <= g < 2 ^ 21 -> l2_entry ws g = 0.
Proof.
  intros Z0 Hg. unfold l2_entry, blk. rewrite !(ms_zero_sub ws 0 _ _ (2 ^ 32) Z0) by lia. reflexivity.
Qed.

Lemma find_l2_zero l2 max rank : 1 <= rank -> max < 2 ^ 32 -> max <= zlen l2 -> (forall g, 0 <= g < max -> zn 0 l2 g = 0) ->
  forall fuel id, 0 <= id < max -> max - id <= Z.of_nat fuel -> find_l2 fuel l2 max id rank = Ok (max - 1).
Proof.
  intros Hr Hm Hl HE. induction fuel as [|f IH]; intros id Hid Hf; [lia|]. cbn [find_l2]. rewrite wrap_small by lia.
  destruct (Z.ltb_spec (id + 1) max) as [H|H].
  - rewrite geti_ok by lia. cbn [bind]. rewrite HE by lia. change (Z.land 0 4294967295) with 0. replace (0 <? rank) with true by lia.
    apply IH; lia.
  - f_equal. lia.
Qed.

(** Answers of an in-word select. *)
Definition in_word_answers (sel : Z -> Z -> res Z) : Prop := forall x k s, sel x k = Ok s -> -1 <= s <= 64.

Lemma word_loop_index ws x : forall fuel i k pop j k' p', word_loop fuel ws x i k pop = Ok (j, k', p') -> i <= j <= i + Z.of_nat fuel.
Proof.
  induction fuel as [|f IH]; intros i k pop j k' p' E; cbn [word_loop] in E.
  - injection E as -> -> ->. lia.
  - destruct (k >? pop); [|injection E as -> -> ->; lia]. destruct (geti ws (x + (i + 1))) as [w| |]; [|discriminate|discriminate].
    cbn [bind] in E. apply IH in E. lia.
Qed.

Lemma select512_answers sel ws x k s : in_word_answers sel -> select512_with sel ws x k = Ok s -> -1 <= s <= 512.
Proof.
  intros HS E. unfold select512_with in E. destruct (geti ws x) as [w| |]; [|discriminate|discriminate]. cbn [bind] in E.
  destruct (word_loop 7 ws x 0 k (popcount w)) as [[[i k'] pop]| |] eqn:EL; [|discriminate|discriminate]. cbn [bind] in E.
  apply word_loop_index in EL. destruct (geti ws (x + i)) as [w'| |]; [|discriminate|discriminate]. cbn [bind] in E.
  destruct ((i =? 7) && (popcount w' <? k')); [injection E as <-; lia|].
  destruct (sel w' k') as [s'| |] eqn:Es; [|discriminate|discriminate]. cbn [bind] in E. apply HS in Es. injection E as <-. lia.
Qed.

Lemma select_later_piece sel dbg ws t r i q : in_word_answers sel -> words ws -> 2 ^ 33 <= 64 * zlen ws <= 2 ^ 37 -> zlen ws mod 2 ^ 26 = 0 ->
  binv ws t -> ms ws 0 (2 ^ 32) = 0 -> 1 <= i < 64 * zlen ws / 2 ^ 32 ->
  ms ws 0 (2 ^ 32 * i) < r <= ms ws 0 (2 ^ 32 * (i + 1)) ->
  poppy_select_with sel dbg t r = Ok q -> 2 ^ 32 * (i + 1) - 513 <= q <= 2 ^ 32 * (i + 1).
Proof.
  intros HS W Hn Hmod I Z0 Hi Hr. unfold poppy_select_with.
  set (m := 64 * zlen ws / 2 ^ 32) in *. assert (Hm : 2 <= m <= 32 /\ 2 ^ 32 * m = 64 * zlen ws) by (unfold m; lia).
  pose proof (ms_mono ws 0 (2 ^ 32 * (i + 1)) (2 ^ 32 * m) ltac:(lia)) as MM. pose proof (ms_bound ws 0 (2 ^ 32 * m) ltac:(lia)) as MB.
  rewrite massert_true by (rewrite (bi_count _ _ I); fold m; lia). cbn [bind].
  pose proof (bi_l1len _ _ I) as L1. fold m in L1. pose proof (bi_l1 _ _ I) as P1. fold m in P1.
  rewrite (find_l1_ok ws (p_l1 t) i r m P1 L1) by (unfold zlen in *; lia). cbn [bind].
  pose proof (bi_l2len _ _ I) as L2.
  set (r' := r - ms ws 0 (2 ^ 32 * i)).
  pose proof (ms_split ws 0 (2 ^ 32 * i) (2 ^ 32 * (i + 1)) ltac:(lia)) as SP. fold (piece ws i) in SP. pose proof (piece_bound ws i) as PB.
  assert (Hr' : 1 <= r' <= piece ws i) by (unfold r'; lia).
  rewrite (wrap_small 32 (i * 2 ^ 21)) by lia. rewrite L1.
  replace (if i =? m - 1 then u32 (zlen (p_l2 t) - i * 2 ^ 21) else 2 ^ 21) with (2 ^ 21).
  2:{ destruct (Z.eqb_spec i (m - 1)) as [E|E]; [|reflexivity]. rewrite L2, wrap_small by lia. lia. }
  destruct (bi_loc _ _ I i ltac:(fold m; lia)) as (LL & PL). set (loc := zn [] (p_loc t) i) in *.
  rewrite (wrap_small 64 (r' - 1)) by lia.
  assert (HJ : 0 <= (r' - 1) / 8192 < zlen loc) by (rewrite LL; unfold cdiv; lia).
  rewrite geti_ok by exact HJ. cbn [bind].
  destruct (PL ((r' - 1) / 8192) HJ) as (Q1 & _ & _).
  set (p := zn 0 loc ((r' - 1) / 8192)) in *. rewrite (Z.shiftr_div_pow2 p) by lia. change (2 ^ 11) with 2048.
  assert (HE : forall g, 0 <= g < 2 ^ 21 -> zn 0 (p_l2 t) g = 0).
  { intros g Hg. rewrite (bi_l2 _ _ I) by (fold m; lia). replace (g / 2 ^ 21) with 0 by lia. apply (zero_entry ws g Z0 Hg). }
  rewrite (find_l2_zero (p_l2 t) (2 ^ 21) r') by (auto; unfold zlen in *; lia). cbn [bind].
  rewrite geti_ok by lia. cbn [bind]. rewrite HE by lia. change (Z.land 0 4294967295) with 0. rewrite Z.sub_0_r.
  rewrite (wrap_small 64 r') by lia. change (u32 (Z.shiftr 0 32)) with 0.
  assert (EG : forall x, 1 <= x -> find_group 3 0 0 x = (3, x)) by (intros [|y|y] Hy; [lia|reflexivity|lia]).
  rewrite EG by lia. intros E. destruct (select512_with sel _ _ _) as [s| |] eqn:E5; [|discriminate|discriminate]. cbn [bind] in E.
  apply (select512_answers sel _ _ _ _ HS) in E5.
  assert (Q : forall a b : Z, Ok a = Ok b -> b = a) by congruence. apply Q in E. subst q.
  rewrite !Z.shiftl_mul_pow2 by lia. rewrite (wrap_small 64 (i * 2 ^ 32)) by lia. change (u32 ((2 ^ 21 - 1) * 2 ^ 11)) with (2 ^ 32 - 2048).
  change (3 * 2 ^ 9) with 1536. rewrite wrap_small by lia. lia.
Qed.

Lemma select64_answers : in_word_answers select64.
Proof.
  intros x k s E. destruct (Z_lt_le_dec k 0) as [N|N].
  { unfold select64, select64_pdep_tzcnt, shl64 in E. replace ((0 <=? k) && (k <? 64)) with false in E by lia. discriminate. }
  destruct (Z_lt_le_dec k (popcount x)) as [L|L].
  - destruct (select_pdep_ok x k ltac:(lia)) as (r & E' & (R & _)). change (select_pdep x k) with (select64 x k) in E'.
    rewrite E in E'. injection E' as ->. lia.
  - unfold select64, select64_pdep_tzcnt, shl64 in E. destruct ((0 <=? k) && (k <? 64)) eqn:K; [|discriminate]. cbn [bind] in E.
    assert (Q : forall a b : Z, Ok a = Ok b -> b = a) by congruence. apply Q in E. subst s. rewrite Z.shiftl_mul_pow2, Z.mul_1_l by lia.
    assert (2 ^ k < 2 ^ 64) by (apply Z.pow_lt_mono_r; lia). rewrite wrap_small by lia.
    unfold pdep64. rewrite pdep_none; [change (tzcnt64 0) with 64; lia|lia|lia|]. rewrite popcount_wones in L. change (0 + Z.of_nat 64) with 64. lia.
Qed.

Lemma naive_answers : in_word_answers (fun x k => Ok (select64_naive x k)).
Proof.
  intros x k s E. injection E as <-. unfold select64_naive.
  assert (H : forall f cnt k, 0 <= cnt -> -1 <= select64_naive_loop f cnt x k <= Z.max (-1) (cnt + Z.of_nat f - 1)).
  { induction f as [|f IH]; intros cnt k0 Hc; cbn [select64_naive_loop]; [lia|].
    destruct (Z.testbit x (63 - cnt)); [destruct (k0 - 1 =? 0); [lia|]|]; [specialize (IH (cnt + 1) (k0 - 1) ltac:(lia))|specialize (IH (cnt + 1) k0 ltac:(lia))]; lia. }
  specialize (H 64%nat 0 k ltac:(lia)). lia.
Qed.
