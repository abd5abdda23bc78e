(** The poppy index of bitmaps between 2^32 and 2^33 bits, and large concrete bitmaps. *)
From Coq Require Import ZifyBool.
From Verif Require Import Base BaseFacts Words WordFacts BlockFacts NodeFacts Spec BitmapFacts ProgramFacts PropFacts2 SpecPoppy SpecPoppyBig Poppy PoppyFacts PoppyFacts2 PoppyProps PoppyBigFacts PoppyBigFacts2 PoppyBigFacts3 PoppyBigProps.
Ltac Zify.zify_post_hook ::= Z.div_mod_to_equations.

Lemma one_piece_inv junk ws t : big_ok ws -> pieces ws = 1 -> wrapper_build junk ws = Ok t -> pinv ws t /\ rank_bits (64 * zlen ws) = 2 ^ 32 /\ ms ws 0 (2 ^ 32) + 8191 < 2 ^ 32.
Proof.
  intros H HP B. destruct (big_inv junk ws t H B) as (I & FT & _). pose proof H as (W & Hn). unfold pieces in HP.
  assert (RB : rank_bits (64 * zlen ws) = 2 ^ 32) by (unfold rank_bits; lia).
  pose proof (FT 0 ltac:(unfold pieces; lia)) as F. unfold piece_fits in F. rewrite piece_ms in F by (unfold pieces; lia). rewrite piece_0 in F.
  split; [|auto]. apply (build_inv junk ws t); [|exact B]. split; [exact W|]. split; [lia|]. rewrite covered_ms, RB. exact F.
Qed.

(** Ones below the last L2 entry. *)
Lemma below_last_word sel junk dbg ws t k : big_ok ws -> pieces ws = 1 -> wrapper_build junk ws = Ok t ->
  0 <= k < ones_before (bits_msb ws) (2 ^ 32 - 2048) ->
  exists j, in_word ws (k + 1) j /\ j < 2 ^ 26 /\
    poppy_select_with sel dbg t (k + 1) = (let* s := sel (zn 0 ws j) (k + 1 - ms ws 0 (64 * j)) in Ok (u64 (64 * j + s))).
Proof.
  intros H HP B Hk. destruct (one_piece_inv junk ws t H HP B) as (I & RB & F). destruct H as (W & Hn). unfold pieces in HP.
  rewrite ones_msb in Hk by lia.
  destruct (Z.eq_dec (64 * zlen ws) (2 ^ 32)) as [E|E].
  - pose proof (ms_mono ws 0 (2 ^ 32 - 2048) (2 ^ 32) ltac:(lia)). apply poppy_select_word; auto; [lia|]. rewrite RB. lia.
  - apply select_below_last; auto; lia.
Qed.

Lemma below_last_exact junk dbg ws t k p : big_ok ws -> pieces ws = 1 -> wrapper_build junk ws = Ok t ->
  0 <= k < ones_before (bits_msb ws) (2 ^ 32 - 2048) -> is_select (bits_of_words ws) k p ->
  if (zn 0 ws (p / 64) =? 2 ^ 64 - 1) && (p mod 64 =? 63) then wrapper_select dbg t k = Ub UB_shift
  else exists q, wrapper_select dbg t k = Ok q /\ next_in_word ws k p q.
Proof.
  intros H HP B Hk HS. destruct (below_last_word select64 junk dbg ws t k H HP B Hk) as (j & J1 & J2 & E).
  unfold wrapper_select. rewrite wrap_small.
  - apply (word_answer ws k p j); auto. apply H.
  - destruct H as (W & Hn). rewrite ones_msb in Hk by lia. pose proof (ms_bound ws 0 (2 ^ 32 - 2048) ltac:(lia)). lia.
Qed.

Lemma below_last_other junk dbg ws t k p : big_ok ws -> pieces ws = 1 -> wrapper_build junk ws = Ok t ->
  0 <= k < ones_before (bits_msb ws) (2 ^ 32 - 2048) -> is_select (bits_msb ws) k p -> poppy_select_with other_select64 dbg t (k + 1) = Ok p.
Proof.
  intros H HP B Hk HS. destruct (below_last_word other_select64 junk dbg ws t k H HP B Hk) as (j & J1 & J2 & E).
  apply (word_answer_other ws k p j); auto. apply H.
Qed.

(** Where the search for the L2 entry stops. *)
Definition low32 (e : Z) : Z := Z.land e 0xFFFFFFFF.

Lemma find_l2_first l2 max rank : max <= zlen l2 -> max < 2 ^ 32 -> forall fuel id, 0 <= id < max -> max - id <= Z.of_nat fuel ->
  exists g, find_l2 fuel l2 max id rank = Ok g /\ id <= g < max /\ (forall h, id < h <= g -> low32 (zn 0 l2 h) < rank) /\
    (g + 1 = max \/ rank <= low32 (zn 0 l2 (g + 1))).
Proof.
  intros Hl Hm. induction fuel as [|f IH]; intros id Hid Hf; [lia|]. cbn [find_l2]. rewrite wrap_small by lia.
  destruct (Z.ltb_spec (id + 1) max) as [H|H].
  - rewrite geti_ok by lia. cbn [bind]. fold (low32 (zn 0 l2 (id + 1))).
    destruct (Z.ltb_spec (low32 (zn 0 l2 (id + 1))) rank) as [L|L].
    + destruct (IH (id + 1) ltac:(lia) ltac:(lia)) as (g & E & Hg & HL & HR). exists g. split; [exact E|]. split; [lia|]. split; [|exact HR].
      intros h Hh. destruct (Z.eq_dec h (id + 1)) as [->|]; [exact L|]. apply HL. lia.
    + exists id. split; [reflexivity|]. split; [lia|]. split; [intros; lia|right; exact L].
  - exists id. split; [reflexivity|]. split; [lia|]. split; [intros; lia|left; lia].
Qed.

Lemma group_index fuel : forall g x r g' r', find_group fuel g x r = (g', r') -> g <= g' <= g + Z.of_nat fuel.
Proof.
  induction fuel as [|f IH]; intros g x r g' r' E; cbn [find_group] in E; [injection E as -> ->; lia|].
  destruct (r >? Z.land x 1023); [apply IH in E; lia|injection E as -> ->; lia].
Qed.

(** Ones of the last L2 entry, when another entry follows it. *)
Lemma last_word sel junk dbg ws t k : big_ok ws -> pieces ws = 1 -> 2 ^ 32 + 2048 <= 64 * zlen ws -> wrapper_build junk ws = Ok t ->
  ones_before (bits_msb ws) (2 ^ 32 - 2048) <= k < piece_ones ws 0 ->
  (k < low32 (junk (2 ^ 21)) -> exists j, in_word ws (k + 1) j /\ j < 2 ^ 26 /\
    poppy_select_with sel dbg t (k + 1) = (let* s := sel (zn 0 ws j) (k + 1 - ms ws 0 (64 * j)) in Ok (u64 (64 * j + s)))) /\
  (low32 (junk (2 ^ 21)) <= k -> in_word_answers sel -> forall q, poppy_select_with sel dbg t (k + 1) = Ok q ->
    q <= 64 * zlen ws - 2 ^ 32 \/ q = 2 ^ 64 - 1).
Proof.
  intros H HP Hn2 B Hk. destruct (one_piece_inv junk ws t H HP B) as (I & RB & F).
  destruct (big_inv junk ws t H B) as (_ & _ & J). destruct H as (W & Hn). rewrite piece_ms, piece_0 in Hk by lia. rewrite HP in J. unfold pieces in HP.
  rewrite ones_msb in Hk by lia. set (r := k + 1).
  pose proof (ms_bound ws 0 (2 ^ 32 - 2048) ltac:(lia)) as MB0. pose proof (ms_bound ws 0 (2 ^ 32) ltac:(lia)) as MB.
  assert (J21 : zn 0 (p_l2 t) (2 ^ 21) = junk (2 ^ 21)) by (apply J; lia). clear J.
  unfold poppy_select_with. rewrite massert_true by (rewrite (pi_count _ _ I), RB; unfold r; lia). cbn [bind].
  rewrite (pi_l1 _ _ I). change (zlen [0]) with 1. change (length [0]) with 1%nat. change (1 - 1) with 0.
  cbn [find_l1]. change (geti [0] 0) with (Ok 0 : res Z). cbn [bind]. replace (0 <? r) with true by (unfold r; lia). cbn [bind].
  rewrite (wrap_small 64 (r - 0)) by (unfold r; lia). rewrite Z.sub_0_r. change (0 * 2 ^ 21) with 0. change (u32 0) with 0. rewrite Z.eqb_refl.
  rewrite (pi_l2 _ _ I), Z.sub_0_r. rewrite (wrap_small 32 (64 * zlen ws / 2048)) by lia.
  destruct (pi_loc _ _ I) as (loc & EL & LL & PL). rewrite EL. change (zn [] [loc] 0) with loc. rewrite RB in LL.
  rewrite (wrap_small 64 (r - 1)) by (unfold r; lia).
  assert (HJ : 0 <= (r - 1) / 8192 < zlen loc) by (rewrite LL; unfold cdiv, r; lia).
  rewrite geti_ok by exact HJ. cbn [bind].
  destruct (PL ((r - 1) / 8192) HJ) as (Q1 & _ & Q3).
  set (p := zn 0 loc ((r - 1) / 8192)) in *. rewrite (Z.shiftr_div_pow2 p) by lia. change (2 ^ 11) with 2048.
  assert (HE : forall g, 0 <= g < 2 ^ 21 -> zn 0 (p_l2 t) g = l2_entry ws g).
  { intros g Hg. apply (pi_entry _ _ I). unfold groups. lia. }
  pose proof (pi_l2 _ _ I) as L2. set (max := 64 * zlen ws / 2048) in *.
  assert (Hmax : 2 ^ 21 < max < 2 ^ 22 /\ 2048 * max <= 64 * zlen ws) by (unfold max; lia).
  assert (Hp : p < 2 ^ 32).
  { destruct (Z_lt_le_dec p (2 ^ 32)) as [|Hge]; [assumption|]. pose proof (ms_mono ws 0 (2 ^ 32) p ltac:(lia)). unfold r in *. lia. }
  destruct (find_l2_first (p_l2 t) max r ltac:(lia) ltac:(lia) (S (length (p_l2 t))) (p / 2048) ltac:(lia) ltac:(unfold zlen in *; lia)) as (g & Eg & Hg & HL & HR).
  rewrite Eg. cbn [bind].
  assert (Hg21 : 2 ^ 21 - 1 <= g).
  { destruct (Z_lt_le_dec g (2 ^ 21 - 1)) as [L|L]; [|exact L]. exfalso. destruct HR as [HR|HR]; [lia|].
    rewrite HE in HR by lia. unfold low32 in HR. rewrite entry_low in HR by lia.
    pose proof (ms_mono ws 0 (2048 * (g + 1)) (2 ^ 32 - 2048) ltac:(lia)). unfold r in HR. lia. }
  split.
  - intros HK. assert (Eg2 : g = 2 ^ 21 - 1).
    { destruct (Z.eq_dec g (2 ^ 21 - 1)) as [|N]; [assumption|]. exfalso. specialize (HL (2 ^ 21) ltac:(lia)). rewrite J21 in HL. unfold r in HL. lia. }
    destruct (select_tail sel ws t g r W (pi_bits _ _ I) ltac:(lia) ltac:(lia) ltac:(lia) (HE g ltac:(lia))) as (j & J1 & J2 & E).
    { rewrite Eg2. replace (2048 * (2 ^ 21 - 1)) with (2 ^ 32 - 2048) by lia. replace (2048 * (2 ^ 21 - 1 + 1)) with (2 ^ 32) by lia. unfold r; lia. }
    exists j. split; [exact J1|]. split; [exact J2|]. exact E.
  - intros HK HA q E. assert (Hg2 : 2 ^ 21 <= g).
    { destruct (Z.eq_dec g (2 ^ 21 - 1)) as [Q|N]; [|lia]. exfalso. destruct HR as [HR|HR]; [lia|].
      replace (g + 1) with (2 ^ 21) in HR by lia. rewrite J21 in HR. unfold r in HR. lia. }
    rewrite geti_ok in E by lia. cbn [bind] in E. destruct (find_group 3 0 _ _) as [g0 rank0] eqn:EF. apply group_index in EF.
    destruct (select512_with sel _ _ _) as [s| |] eqn:E5; [|discriminate|discriminate]. cbn [bind] in E.
    apply (select512_answers sel _ _ _ _ HA) in E5. assert (Q : forall a b : Z, Ok a = Ok b -> b = a) by congruence. apply Q in E. subst q.
    rewrite Z.shiftl_0_l. change (u64 0) with 0. rewrite Z.add_0_l. rewrite !Z.shiftl_mul_pow2 by lia. change (2 ^ 11) with 2048. change (2 ^ 9) with 512.
    assert (E32 : u32 (g * 2048) = 2048 * (g - 2 ^ 21)).
    { unfold wrap. replace (g * 2048) with (2048 * (g - 2 ^ 21) + 1 * 2 ^ 32) by lia. rewrite Z.mod_add by lia. apply Z.mod_small. lia. }
    rewrite E32. destruct (Z.eq_dec (2048 * (g - 2 ^ 21) + g0 * 512 + s) (-1)) as [N|N]; [right; rewrite N; reflexivity|].
    left. rewrite wrap_small by lia. lia.
Qed.

Lemma last_read junk dbg ws t k p : big_ok ws -> pieces ws = 1 -> 2 ^ 32 + 2048 <= 64 * zlen ws -> wrapper_build junk ws = Ok t ->
  ones_before (bits_msb ws) (2 ^ 32 - 2048) <= k < piece_ones ws 0 -> k < Z.land (junk (2 ^ 21)) 0xFFFFFFFF -> is_select (bits_of_words ws) k p ->
  if (zn 0 ws (p / 64) =? 2 ^ 64 - 1) && (p mod 64 =? 63) then wrapper_select dbg t k = Ub UB_shift
  else exists q, wrapper_select dbg t k = Ok q /\ next_in_word ws k p q.
Proof.
  intros H HP Hn2 B Hk HK HS. destruct (last_word select64 junk dbg ws t k H HP Hn2 B Hk) as (L & _).
  destruct (L HK) as (j & J1 & J2 & E). unfold wrapper_select. rewrite wrap_small.
  - apply (word_answer ws k p j); auto. apply H.
  - destruct H as (W & Hn). rewrite ones_msb in Hk by lia. rewrite piece_ms in Hk by lia. pose proof (piece_bound ws 0). pose proof (ms_bound ws 0 (2 ^ 32 - 2048) ltac:(lia)). lia.
Qed.

Lemma last_lost junk dbg ws t k q : big_ok ws -> pieces ws = 1 -> 2 ^ 32 + 2048 <= 64 * zlen ws -> wrapper_build junk ws = Ok t ->
  ones_before (bits_msb ws) (2 ^ 32 - 2048) <= k < piece_ones ws 0 -> Z.land (junk (2 ^ 21)) 0xFFFFFFFF <= k ->
  wrapper_select dbg t k = Ok q -> q <= 64 * zlen ws - 2 ^ 32 \/ q = 2 ^ 64 - 1.
Proof.
  intros H HP Hn2 B Hk HK E. destruct (last_word select64 junk dbg ws t k H HP Hn2 B Hk) as (_ & L).
  apply (L HK select64_answers q). rewrite <- E. unfold wrapper_select. f_equal. rewrite wrap_small; [reflexivity|].
  destruct H as (W & Hn). rewrite ones_msb in Hk by lia. rewrite piece_ms in Hk by lia. pose proof (piece_bound ws 0). pose proof (ms_bound ws 0 (2 ^ 32 - 2048) ltac:(lia)). lia.
Qed.

(** ** One one, far away *)
Definition one_at (n J : Z) : list Z := repeat 0 (Z.to_nat J) ++ 1 :: repeat 0 (Z.to_nat (n - J - 1)).

Lemma zlen_repeat {A} (x : A) n : 0 <= n -> zlen (repeat x (Z.to_nat n)) = n.
Proof. intros H. unfold zlen. rewrite repeat_length. lia. Qed.
Lemma zlen_one_at n J : 0 <= J < n -> zlen (one_at n J) = n.
Proof. intros H. unfold one_at. rewrite zlen_app, zlen_cons, !zlen_repeat by lia. lia. Qed.
Lemma nth_repeat0 n : forall i, nth i (repeat 0 n) 0 = 0.
Proof. induction n as [|n IH]; intros [|i]; cbn; auto. Qed.
Lemma zn_one_at n J j : 0 <= J < n -> 0 <= j -> zn 0 (one_at n J) j = if j =? J then 1 else 0.
Proof.
  intros H Hj. unfold one_at, zn. destruct (Z.eqb_spec j J) as [->|N].
  - rewrite app_nth2 by (rewrite repeat_length; lia). rewrite repeat_length. replace (Z.to_nat J - Z.to_nat J)%nat with 0%nat by lia. reflexivity.
  - destruct (Z_lt_le_dec j J) as [L|L].
    + rewrite app_nth1 by (rewrite repeat_length; lia). apply nth_repeat0.
    + rewrite app_nth2 by (rewrite repeat_length; lia). rewrite repeat_length.
      replace (Z.to_nat j - Z.to_nat J)%nat with (S (Z.to_nat (j - J - 1))) by lia. cbn [nth]. apply nth_repeat0.
Qed.
Lemma words_one_at n J : words_ok (one_at n J).
Proof.
  unfold words_ok, one_at. apply Forall_app. split; [|constructor; [lia|]]; apply Forall_forall; intros x Hx; apply repeat_spec in Hx; subst x; lia.
Qed.
Lemma ms_one_at n J b : 0 <= J < n -> 0 <= b -> ms (one_at n J) 0 b = if 64 * J + 63 <? b then 1 else 0.
Proof.
  intros H Hb. revert b Hb. apply natlike_ind; [replace (_ <? 0) with false by lia; reflexivity|].
  intros b Hb IH. unfold Z.succ. rewrite ms_succ by lia. rewrite IH.
  assert (EM : mb (one_at n J) b = if b =? 64 * J + 63 then 1 else 0).
  { unfold mb. rewrite zn_one_at by lia. destruct (Z.eqb_spec (b / 64) J) as [E|E].
    - destruct (Z.eqb_spec b (64 * J + 63)) as [E2|E2]; [replace (63 - b mod 64) with 0 by lia; reflexivity|].
      unfold wbit. assert (HP : 0 < 63 - b mod 64) by lia. change 1 with (2 ^ 0) at 1. rewrite Z.pow2_bits_false by lia. reflexivity.
    - replace (b =? 64 * J + 63) with false by lia. unfold wbit. rewrite Z.bits_0. reflexivity. }
  rewrite EM. destruct (64 * J + 63 <? b) eqn:Q1, (b =? 64 * J + 63) eqn:Q2, (64 * J + 63 <? b + 1) eqn:Q3; lia.
Qed.
Lemma select_one_at n J : 0 <= J < n -> is_select (bits_msb (one_at n J)) 0 (64 * J + 63).
Proof.
  intros H. split; [rewrite zlen_bits_msb, zlen_one_at; lia|]. split.
  - rewrite bit_msb by (rewrite zlen_one_at; lia). rewrite zn_one_at by lia. replace ((64 * J + 63) / 64) with J by lia. rewrite Z.eqb_refl.
    replace (63 - (64 * J + 63) mod 64) with 0 by lia. reflexivity.
  - rewrite ones_msb by (rewrite zlen_one_at; lia). rewrite ms_one_at by lia. replace (_ <? _) with false by lia. reflexivity.
Qed.
Lemma select_one_at_ordinary n J : 0 <= J < n -> is_select (bits_of_words (one_at n J)) 0 (64 * J).
Proof.
  intros H. assert (WS : wsel (zn 0 (one_at n J) J) 0 0) by (rewrite zn_one_at, Z.eqb_refl by lia; repeat split; lia).
  pose proof (wsel_select (one_at n J) J 0 0 (words_one_at n J) ltac:(rewrite zlen_one_at; lia) WS) as Q.
  rewrite ms_one_at in Q by lia. replace (64 * J + 63 <? 64 * J) with false in Q by lia. rewrite !Z.add_0_r in Q. exact Q.
Qed.
Lemma big_one_at n J : 0 <= J < n -> 2 ^ 26 <= n < 2 ^ 42 -> big_ok (one_at n J).
Proof. intros H Hn. split; [apply words_one_at|]. rewrite zlen_one_at; lia. Qed.
Lemma fits_one_at n J i : 0 <= J < n -> 0 <= i < pieces (one_at n J) -> piece_fits (one_at n J) i.
Proof.
  intros H Hi. unfold piece_fits. rewrite piece_ms by exact Hi. unfold piece.
  pose proof (ms_split (one_at n J) 0 (2 ^ 32 * i) (2 ^ 32 * (i + 1)) ltac:(lia)) as S.
  pose proof (ms_bound (one_at n J) 0 (2 ^ 32 * i) ltac:(lia)). rewrite (ms_one_at n J (2 ^ 32 * (i + 1))) in S by lia.
  destruct (64 * J + 63 <? 2 ^ 32 * (i + 1)); lia.
Qed.
Lemma piece_one_at n J : 0 <= J < n -> 2 ^ 26 <= n -> piece_ones (one_at n J) 0 = if J <? 2 ^ 26 then 1 else 0.
Proof.
  intros H Hn. rewrite piece_ms by (unfold pieces; rewrite zlen_one_at; lia). rewrite piece_0, ms_one_at by lia.
  replace (64 * J + 63 <? 2 ^ 32) with (J <? 2 ^ 26) by lia. reflexivity.
Qed.

(** 2^33 bits, the only one at the start of the second half. *)
Definition far_one : list Z := one_at (2 ^ 27) (2 ^ 26).
Lemma far_one_ok : big_ok far_one /\ zlen far_one = 2 ^ 27 /\ piece_ones far_one 0 = 0 /\ (forall i, 0 <= i < pieces far_one -> piece_fits far_one i) /\
  is_select (bits_msb far_one) 0 (2 ^ 32 + 63) /\ is_select (bits_of_words far_one) 0 (2 ^ 32).
Proof.
  unfold far_one. split; [apply big_one_at; lia|]. split; [apply zlen_one_at; lia|]. split; [apply piece_one_at; lia|].
  split; [intros i Hi; apply fits_one_at; [lia|exact Hi]|]. split; [replace (2 ^ 32 + 63) with (64 * 2 ^ 26 + 63) by lia; apply select_one_at; lia|replace (2 ^ 32) with (64 * 2 ^ 26) by lia; apply select_one_at_ordinary; lia].
Qed.

Lemma later_wrong junk dbg : exists ws t k p, big_ok ws /\ 64 * zlen ws = 2 ^ 33 /\ wrapper_build junk ws = Ok t /\
  is_select (bits_msb ws) k p /\
  forall sel, in_word_answers sel -> poppy_select_with sel dbg t (k + 1) <> Ok p.
Proof.
  destruct far_one_ok as (H & L & Z0 & F & S1 & _). revert H L Z0 F S1. generalize far_one. intros ws H L Z0 F S1.
  destruct (big_build junk ws H) as (BB & _). destruct (BB F) as (t & B). exists ws, t, 0, (2 ^ 32 + 63).
  split; [exact H|]. split; [rewrite L; reflexivity|]. split; [exact B|]. split; [exact S1|].
  intros sel HA E. pose proof (later_piece sel junk dbg ws t 0 (2 ^ 32 + 63) _ HA H ltac:(rewrite L; reflexivity) ltac:(rewrite L; lia) B Z0 S1 E) as Q.
  replace ((2 ^ 32 + 63) / 2 ^ 32) with 1 in Q by reflexivity. lia.
Qed.

(** 2^32 + 2048 bits, the only one in the last L2 entry. *)
Definition last_one : list Z := one_at (2 ^ 26 + 32) (2 ^ 26 - 1).
Lemma last_one_ok : big_ok last_one /\ zlen last_one = 2 ^ 26 + 32 /\ piece_ones last_one 0 = 1 /\ (forall i, 0 <= i < pieces last_one -> piece_fits last_one i) /\
  pieces last_one = 1 /\ ones_before (bits_msb last_one) (2 ^ 32 - 2048) = 0 /\
  is_select (bits_msb last_one) 0 (2 ^ 32 - 1) /\ is_select (bits_of_words last_one) 0 (2 ^ 32 - 64).
Proof.
  unfold last_one. split; [apply big_one_at; lia|]. split; [apply zlen_one_at; lia|]. split; [apply piece_one_at; lia|].
  split; [intros i Hi; apply fits_one_at; [lia|exact Hi]|]. split; [unfold pieces; rewrite zlen_one_at by lia; reflexivity|].
  split; [rewrite ones_msb by (rewrite zlen_one_at; lia); rewrite ms_one_at by lia; reflexivity|].
  split; [replace (2 ^ 32 - 1) with (64 * (2 ^ 26 - 1) + 63) by lia; apply select_one_at; lia|replace (2 ^ 32 - 64) with (64 * (2 ^ 26 - 1)) by lia; apply select_one_at_ordinary; lia].
Qed.

Lemma last_depends dbg : exists ws k p t1 t2, big_ok ws /\ is_select (bits_of_words ws) k p /\
  wrapper_build (fun _ => 0) ws = Ok t1 /\ wrapper_build (fun _ => 2 ^ 64 - 1) ws = Ok t2 /\
  (exists q, wrapper_select dbg t2 k = Ok q /\ next_in_word ws k p q) /\
  (forall q, wrapper_select dbg t1 k = Ok q -> ~ next_in_word ws k p q).
Proof.
  destruct last_one_ok as (H & L & P1 & F & P & O & _ & S2). revert H L P1 F P O S2. generalize last_one. intros ws H L P1 F P O S2.
  destruct (big_build (fun _ => 0) ws H) as (BB1 & _). destruct (BB1 F) as (t1 & B1).
  destruct (big_build (fun _ => 2 ^ 64 - 1) ws H) as (BB2 & _). destruct (BB2 F) as (t2 & B2).
  exists ws, 0, (2 ^ 32 - 64), t1, t2. split; [exact H|]. split; [exact S2|]. split; [exact B1|]. split; [exact B2|]. split.
  - pose proof (last_read _ dbg ws t2 0 (2 ^ 32 - 64) H P ltac:(rewrite L; lia) B2 ltac:(rewrite O, P1; lia) ltac:(reflexivity) S2) as Q.
    replace ((2 ^ 32 - 64) mod 64 =? 63) with false in Q by reflexivity. rewrite andb_false_r in Q. exact Q.
  - intros q E N. apply next_after in N.
    destruct (last_lost _ dbg ws t1 0 q H P ltac:(rewrite L; lia) B1 ltac:(rewrite O, P1; lia) ltac:(discriminate) E) as [Q|Q].
    + rewrite L in Q. lia.
    + subst q. replace (64 * ((2 ^ 32 - 64) / 64 + 1)) with (2 ^ 32) in N by reflexivity. lia.
Qed.

(** 2^32 ones. *)
Definition all_ones : list Z := repeat (2 ^ 64 - 1) (Z.to_nat (2 ^ 26)).
Lemma ms_full ws b : (forall j, 0 <= j < zlen ws -> zn 0 ws j = 2 ^ 64 - 1) -> 0 <= b -> b <= 64 * zlen ws -> ms ws 0 b = b.
Proof.
  intros HA Hb. pattern b. apply natlike_ind; [reflexivity| |exact Hb]. intros i Hi IH HL. unfold Z.succ in *.
  rewrite ms_succ by lia. rewrite IH by lia. unfold mb. rewrite HA by lia.
  change (2 ^ 64 - 1) with (Z.ones 64). unfold wbit. rewrite Z.ones_spec_low by lia. reflexivity.
Qed.
Lemma words_full n : words_ok (repeat (2 ^ 64 - 1) n).
Proof. apply Forall_forall. intros x Hx. apply repeat_spec in Hx. subst x. lia. Qed.
Lemma zn_full n j : 0 <= j < Z.of_nat n -> zn 0 (repeat (2 ^ 64 - 1) n) j = 2 ^ 64 - 1.
Proof.
  intros Hj. unfold zn. apply (repeat_spec n (2 ^ 64 - 1)). apply nth_In. rewrite repeat_length. lia.
Qed.
Lemma all_ones_ok : big_ok all_ones /\ pieces all_ones = 1 /\ piece_ones all_ones 0 = 2 ^ 32.
Proof.
  assert (L : zlen all_ones = 2 ^ 26) by (unfold all_ones; rewrite zlen_repeat; lia).
  assert (W : words_ok all_ones) by (unfold all_ones; apply words_full).
  assert (A : forall j, 0 <= j < 2 ^ 26 -> zn 0 all_ones j = 2 ^ 64 - 1) by (intros j Hj; unfold all_ones; rewrite zn_full; lia).
  revert L W A. generalize all_ones. intros ws L W A.
  assert (P : pieces ws = 1) by (unfold pieces; rewrite L; reflexivity).
  split; [|split; [exact P|]].
  - split; [exact W|rewrite L; lia].
  - rewrite piece_ms by lia. rewrite piece_0. apply ms_full; [|lia|rewrite L; lia]. rewrite L. exact A.
Qed.
Lemma big_build_fails : exists ws, big_ok ws /\ forall junk, wrapper_build junk ws = Ub UB_bounds.
Proof.
  destruct all_ones_ok as (H & P & C). exists all_ones. split; [exact H|]. intros junk. destruct (big_build junk all_ones H) as (_ & B).
  apply (B 0); [lia|]. unfold piece_fits. lia.
Qed.
