(** Proofs of the properties of single bitmaps. *)
From Coq Require Import ZifyBool.
From Verif Require Import Base BaseFacts Mem MemFacts Nodes NodeFacts Trees LevelFacts TreeFacts TreeBuild
  Words WordFacts Blocks BlockFacts Spec Bitmap Usage BitmapFacts ProgramFacts.
Ltac Zify.zify_post_hook ::= Z.div_mod_to_equations.

Lemma extend c ty addr s input ops more : history c ty addr s input ops ->
  valid_ops (current ty input ops) more -> selects_safe c ty (current ty input ops) more ->
  exists outs outs2, program c ty addr s input ops = Ok outs /\ program c ty addr s input (ops ++ more) = Ok (outs ++ outs2) /\
    answers_ok (current ty input ops) more outs2.
Proof.
  intros (Hu & Hr & Hv & Hs) Hv2 Hs2.
  destruct (program_run c ty addr s input ops Hu Hr Hv Hs) as (o1 & E1 & A1).
  destruct (program_run c ty addr s input (ops ++ more) Hu Hr) as (o2 & E2 & A2).
  { apply valid_app. auto. }
  { apply safe_app. auto. }
  destruct (answers_app _ _ _ _ A2) as (r1 & r2 & -> & B1 & B2).
  rewrite (answers_det _ _ _ _ B1 A1) in E2. exists o1, r2. auto.
Qed.

Ltac vok := cbn [valid_ops valid_op contents_after contents_after_all selects_safe app]; rewrite ?zlen_flip; repeat match goal with |- _ /\ _ => split end; auto; try lia.
Lemma answers_cons B o r l : answers_ok B (o :: r) l -> exists a q, l = a :: q /\ answer_ok B o a /\ answers_ok (contents_after B o) r q.
Proof. destruct l; cbn [answers_ok]; [contradiction|]. eauto. Qed.
Lemma answers_nil B l : answers_ok B [] l -> l = [].
Proof. destruct l; cbn [answers_ok]; tauto. Qed.
Ltac one_answer H := repeat match type of H with
  | answers_ok _ (_ :: _) _ => apply answers_cons in H; let a := fresh "a" in let q := fresh "q" in let H1 := fresh "A" in
      destruct H as (a & q & -> & H1 & H)
  | answers_ok _ [] _ => apply answers_nil in H; subst
  end.
Ltac open_answers := repeat match goal with
  | H : answer_ok _ (Flip _) ?a |- _ => destruct a; cbn [answer_ok] in H; try contradiction; clear H
  | H : answer_ok _ (Access _) ?a |- _ => destruct a; cbn [answer_ok] in H; try contradiction; subst
  | H : answer_ok _ (Rank _) ?a |- _ => destruct a; cbn [answer_ok] in H; try contradiction; subst
  | H : answer_ok _ (Select _) ?a |- _ => destruct a; cbn [answer_ok] in H; try contradiction
  | H : answer_ok _ Size ?a |- _ => destruct a; cbn [answer_ok] in H; try contradiction; subst
  | H : answer_ok _ Bits ?a |- _ => destruct a; cbn [answer_ok] in H; try contradiction
  end.

Lemma rank_after c ty addr s input ops i : history c ty addr s input ops -> 0 <= i < zlen (current ty input ops) ->
  exists outs, program c ty addr s input ops = Ok outs /\
    program c ty addr s input (ops ++ [Rank i]) = Ok (outs ++ [ONum (rank_spec (current ty input ops) i)]).
Proof.
  intros H Hi. destruct (extend c ty addr s input ops [Rank i] H) as (o1 & o2 & E1 & E2 & A); [vok|vok|].
  one_answer A. open_answers. exists o1. auto.
Qed.

Lemma select_after c ty addr s input ops k : history c ty addr s input ops -> 0 <= k < count_true (current ty input ops) ->
  select_safe c ty (current ty input ops) k ->
  exists outs p, program c ty addr s input ops = Ok outs /\
    program c ty addr s input (ops ++ [Select k]) = Ok (outs ++ [ONum p]) /\
    is_select (current ty input ops) k p /\ forall q, is_select (current ty input ops) k q -> q = p.
Proof.
  intros H Hk Hs. destruct (extend c ty addr s input ops [Select k] H) as (o1 & o2 & E1 & E2 & A); [vok|vok|].
  one_answer A. open_answers. eexists o1, _. split; auto. split; [exact E2|]. split; auto.
  intros q Hq. eapply is_select_unique; eauto.
Qed.

Lemma access_after c ty addr s input ops i : history c ty addr s input ops -> 0 <= i < zlen (current ty input ops) ->
  exists outs, program c ty addr s input ops = Ok outs /\
    program c ty addr s input (ops ++ [Access i]) = Ok (outs ++ [OBool (xorb (bit (initial ty input) i) (Nat.odd (flips_of ops i)))]).
Proof.
  intros H Hi. destruct (extend c ty addr s input ops [Access i] H) as (o1 & o2 & E1 & E2 & A); [vok|vok|].
  one_answer A. open_answers. exists o1. split; auto. rewrite E2. unfold current. rewrite bit_contents; [reflexivity| |apply H].
  unfold current in Hi. rewrite zlen_contents in Hi. auto.
Qed.

Lemma current_len ty input ops : zlen (current ty input ops) = zlen (initial ty input).
Proof. apply zlen_contents. Qed.

Lemma words_flip_other B i w w' : 0 <= i < zlen B -> words_ok w -> words_ok w' -> bits_of_words w = B -> bits_of_words w' = flip_bit B i ->
  length w' = length w /\ forall k, 0 <= k < zlen w -> k <> i / 64 -> zn 0 w' k = zn 0 w k.
Proof.
  intros Hi Hw Hw' <- E'.
  assert (E : w' = flipped w i).
  { apply words_inj; auto.
    - apply words_flipped; auto. rewrite zlen_bits in Hi. auto.
    - rewrite bits_flipped; auto. rewrite zlen_bits in Hi. auto. }
  subst w'. rewrite zlen_bits in Hi. unfold flipped. split; [unfold upd; apply length_upd_nat|].
  intros k Hk N. rewrite zn_upd by lia. destruct (Z.eqb_spec k (i / 64)); congruence.
Qed.

Lemma flip_frame c ty addr s input ops i j : history c ty addr s input ops ->
  0 <= i < zlen (current ty input ops) -> 0 <= j < zlen (current ty input ops) ->
  exists outs b x n r w w',
    program c ty addr s input ops = Ok outs /\
    program c ty addr s input (ops ++ [Access i; Access j; Size; Rank j; Bits; Flip i; Access i; Access j; Size; Rank j; Bits])
    = Ok (outs ++ [OBool b; OBool x; ONum n; ONum r; OWords w;
                   ONone;
                   OBool (negb b); OBool (if j =? i then negb x else x); ONum n;
                   ONum (if i <=? j then (if b then r - 1 else r + 1) else r); OWords w']) /\
    length w' = length w /\ (forall k, 0 <= k < zlen w -> k <> i / 64 -> zn 0 w' k = zn 0 w k).
Proof.
  intros H Hi Hj. set (B := current ty input ops) in *.
  destruct (extend c ty addr s input ops [Access i; Access j; Size; Rank j; Bits; Flip i; Access i; Access j; Size; Rank j; Bits] H) as (o1 & o2 & E1 & E2 & A).
  { fold B. cbn [valid_ops valid_op contents_after]. rewrite !zlen_flip. auto 20. }
  { fold B. cbn [selects_safe]. auto 20. }
  fold B in A. one_answer A. cbn [contents_after] in *. open_answers.
  match goal with H1 : words_ok ?w /\ bits_of_words ?w = B, H2 : words_ok ?w' /\ bits_of_words ?w' = flip_bit B i |- _ =>
    destruct H1 as [W1 W2]; destruct H2 as [W3 W4]; pose proof (words_flip_other B i w w' Hi W1 W3 W2 W4) as [L O];
    exists o1, (bit B i), (bit B j), (zlen B), (rank_spec B j), w, w' end.
  split; auto. split; [|split; auto].
  rewrite E2. unfold rank_spec. rewrite ones_flip by lia. rewrite !bit_flip by lia. rewrite Z.eqb_refl, zlen_flip.
  replace (i <? j + 1) with (i <=? j) by lia.
  repeat (f_equal; try lia).
  - destruct (Z.eqb_spec j i); congruence.
  - destruct (i <=? j), (bit B i); lia.
Qed.

Lemma build_contents c ty addr s input : usable c ty addr input -> reachable_statics c (ty_block ty) s ->
  let size := 64 * zlen input + (- (64 * zlen input)) mod block_size (ty_block ty) in
  program c ty addr s input [Size; Bits] = Ok [ONum size; OWords (input ++ repeat 0 (Z.to_nat (size / 64 - zlen input)))] /\
  size mod block_size (ty_block ty) = 0 /\ 64 * zlen input <= size < 64 * zlen input + block_size (ty_block ty).
Proof.
  intros Hu Hr size. assert (H : history c ty addr s input []) by (repeat split; cbn; auto; apply Hu).
  destruct (extend c ty addr s input [] [Size; Bits] H) as (o1 & o2 & E1 & E2 & A); [vok|vok|].
  one_answer A. open_answers.
  assert (o1 = []) as -> by (destruct Hu; unfold program in E1; destruct (new_bitmap c ty addr input); cbn [bind run] in E1; congruence).
  assert (HB : 0 < block_size (ty_block ty)) by (destruct (ty_block ty); reflexivity).
  assert (HI : zlen (initial ty input) = size).
  { unfold initial, padded. rewrite zlen_app, zlen_repeat, zlen_bits.
    pose proof (Z.mod_pos_bound (- (64 * zlen input)) (block_size (ty_block ty)) HB). unfold size. lia. }
  assert (HW : forall w, words_ok w /\ bits_of_words w = initial ty input -> w = input ++ repeat 0 (Z.to_nat (size / 64 - zlen input))).
  { intros w [W1 W2]. apply words_inj; auto.
    - unfold words_ok. apply Forall_app. split; [apply Hu|]. apply Forall_forall. intros y Hy. apply repeat_spec in Hy. subst. lia.
    - rewrite W2. unfold initial, padded. rewrite bits_of_words_app, bits_of_zeros. f_equal. f_equal.
      unfold size. rewrite zlen_bits, pad_amount by apply zlen_nonneg. lia. }
  split.
  - cbn [app contents_after] in E2. rewrite E2. unfold current in *. cbn [contents_after_all contents_after] in *.
    rewrite HI. do 4 f_equal. f_equal. apply HW. auto.
  - unfold size. pose proof (Z.mod_pos_bound (- (64 * zlen input)) (block_size (ty_block ty)) HB). split; [|lia].
    rewrite Z.add_mod_idemp_r by lia. rewrite Z.add_opp_diag_r. apply Z.mod_0_l. lia.
Qed.

Lemma rank_select c ty addr s input ops k : history c ty addr s input ops -> 0 <= k < count_true (current ty input ops) ->
  select_safe c ty (current ty input ops) k ->
  exists outs p, program c ty addr s input ops = Ok outs /\
    program c ty addr s input (ops ++ [Select k; Rank p]) = Ok (outs ++ [ONum p; ONum (k + 1)]).
Proof.
  intros H Hk Hs. destruct (is_select_exists _ _ Hk) as (p & Hp).
  destruct (extend c ty addr s input ops [Select k; Rank p] H) as (o1 & o2 & E1 & E2 & A); [vok; apply Hp|vok|].
  one_answer A. open_answers. cbn [contents_after] in *.
  assert (z = p) by (eapply is_select_unique; eauto). subst z. exists o1, p. split; auto. rewrite E2.
  unfold rank_spec. destruct Hp as (P1 & P2 & P3). rewrite ones_before_succ by auto. rewrite P2, P3. reflexivity.
Qed.

Lemma select_rank c ty addr s input ops p : history c ty addr s input ops -> 0 <= p < zlen (current ty input ops) ->
  bit (current ty input ops) p = true -> select_safe c ty (current ty input ops) (ones_before (current ty input ops) p) ->
  exists outs r, program c ty addr s input ops = Ok outs /\
    program c ty addr s input (ops ++ [Rank p; Select (r - 1)]) = Ok (outs ++ [ONum r; ONum p]).
Proof.
  intros H Hp Hb Hs. set (B := current ty input ops) in *.
  pose proof (ones_before_bound B p ltac:(lia)) as L.
  assert (E : rank_spec B p = ones_before B p + 1) by (unfold rank_spec; rewrite ones_before_succ by auto; rewrite Hb; reflexivity).
  assert (HT : rank_spec B p <= count_true B) by (rewrite count_true_all; apply ones_before_mono; lia).
  destruct (extend c ty addr s input ops [Rank p; Select (rank_spec B p - 1)] H) as (o1 & o2 & E1 & E2 & A).
  { fold B. cbn [valid_ops valid_op contents_after]. intuition lia. }
  { fold B. vok. replace (rank_spec B p - 1) with (ones_before B p) by lia. auto. }
  fold B in A. one_answer A. open_answers. cbn [contents_after] in *. exists o1, (rank_spec B p). split; auto. rewrite E2.
  do 4 f_equal. f_equal. eapply is_select_unique; eauto. split; auto. split; auto. lia.
Qed.

Lemma never_fails c ty addr s input ops : history c ty addr s input ops ->
  exists outs, program c ty addr s input ops = Ok outs /\ length outs = length ops.
Proof.
  intros (Hu & Hr & Hv & Hs). destruct (program_run c ty addr s input ops Hu Hr Hv Hs) as (o & E & A). exists o. split; auto.
  clear - A. revert A. generalize (initial ty input) as B. revert o.
  induction ops; intros [|x o] B A; cbn [answers_ok] in A; try contradiction; auto. cbn [length]. f_equal. eapply IHops. apply A.
Qed.

Lemma flip_twice c ty addr s input ops i more : history c ty addr s input ops -> 0 <= i < zlen (current ty input ops) ->
  valid_ops (current ty input ops) more -> selects_safe c ty (current ty input ops) more ->
  exists outs outs2, program c ty addr s input (ops ++ more) = Ok (outs ++ outs2) /\
    program c ty addr s input (ops ++ [Flip i; Flip i] ++ more) = Ok (outs ++ [ONone; ONone] ++ outs2) /\
    length outs = length ops.
Proof.
  intros H Hi Hv Hs.
  destruct (extend c ty addr s input ops more H Hv Hs) as (o1 & o2 & E1 & E2 & A).
  destruct (extend c ty addr s input ops ([Flip i; Flip i] ++ more) H) as (o1' & o3 & E1' & E3 & A3).
  { cbn [app valid_ops valid_op contents_after]. rewrite zlen_flip, flip_flip by auto. auto. }
  { cbn [app selects_safe contents_after]. rewrite flip_flip by auto. auto. }
  exists o1, o2. split; auto. split; [|destruct (never_fails _ _ _ _ _ _ H) as (q & Eq & Lq); congruence].
  rewrite E3. rewrite E1 in E1'. injection E1' as <-. do 2 f_equal.
  destruct (answers_app _ _ _ _ A3) as (r1 & r2 & -> & B1 & B2). one_answer B1. open_answers.
  cbn [contents_after_all contents_after] in B2. rewrite flip_flip in B2 by auto.
  rewrite (answers_det _ _ _ _ B2 A). reflexivity.
Qed.

Lemma same_answers c1 c2 ty1 ty2 a1 a2 s1 s2 in1 in2 ops1 ops2 more :
  history c1 ty1 a1 s1 in1 ops1 -> history c2 ty2 a2 s2 in2 ops2 ->
  current ty1 in1 ops1 = current ty2 in2 ops2 ->
  valid_ops (current ty1 in1 ops1) more ->
  selects_safe c1 ty1 (current ty1 in1 ops1) more -> selects_safe c2 ty2 (current ty1 in1 ops1) more ->
  exists o1 o2 outs, program c1 ty1 a1 s1 in1 ops1 = Ok o1 /\ program c2 ty2 a2 s2 in2 ops2 = Ok o2 /\
    program c1 ty1 a1 s1 in1 (ops1 ++ more) = Ok (o1 ++ outs) /\
    program c2 ty2 a2 s2 in2 (ops2 ++ more) = Ok (o2 ++ outs).
Proof.
  intros H1 H2 E Hv S1 S2.
  destruct (extend c1 ty1 a1 s1 in1 ops1 more H1 Hv S1) as (o1 & r1 & E1 & E1' & A1).
  rewrite E in Hv, S2. destruct (extend c2 ty2 a2 s2 in2 ops2 more H2 Hv S2) as (o2 & r2 & E2 & E2' & A2).
  rewrite E in A1. rewrite (answers_det _ _ _ _ A1 A2) in *. exists o1, o2, r2. auto.
Qed.

Lemma same_program c1 c2 ty1 ty2 a1 a2 s1 s2 input ops :
  history c1 ty1 a1 s1 input ops -> history c2 ty2 a2 s2 input ops -> initial ty1 input = initial ty2 input ->
  exists outs, program c1 ty1 a1 s1 input ops = Ok outs /\ program c2 ty2 a2 s2 input ops = Ok outs.
Proof.
  intros (U1 & R1 & V1 & S1) (U2 & R2 & V2 & S2) E.
  destruct (program_run _ _ _ _ _ _ U1 R1 V1 S1) as (o1 & E1 & A1).
  destruct (program_run _ _ _ _ _ _ U2 R2 V2 S2) as (o2 & E2 & A2).
  rewrite E in A1. rewrite (answers_det _ _ _ _ A1 A2) in *. eauto.
Qed.

Lemma rank_counts c ty addr s input ops : history c ty addr s input ops ->
  exists outs (r : Z -> Z), program c ty addr s input ops = Ok outs /\
    let B := current ty input ops in
    (forall i, 0 <= i < zlen B -> program c ty addr s input (ops ++ [Rank i]) = Ok (outs ++ [ONum (r i)])) /\
    (forall i, 0 <= i < zlen B -> r i <= i + 1) /\
    r 0 = b2z (bit B 0) /\
    (forall i, 0 < i < zlen B -> r i = r (i - 1) + b2z (bit B i)) /\
    (forall i j, 0 <= i <= j -> j < zlen B -> r i <= r j <= r i + (j - i)) /\
    r (zlen B - 1) = count_true B /\
    (forall i, 0 <= i < zlen B ->
       program c ty addr s input (ops ++ [Access i; Flip i; Rank (zlen B - 1)]) =
       Ok (outs ++ [OBool (bit B i); ONone; ONum (if bit B i then count_true B - 1 else count_true B + 1)])).
Proof.
  intros H. destruct (never_fails _ _ _ _ _ _ H) as (outs & E & _).
  exists outs, (rank_spec (current ty input ops)). split; auto. intros B.
  assert (HL : 0 < zlen B).
  { unfold B. rewrite current_len. destruct H as ((Hb & _) & _). destruct Hb as (_ & _ & Hl & _).
    unfold initial, padded. rewrite zlen_app, zlen_bits. pose proof (zlen_nonneg (repeat false (Z.to_nat ((- (64 * zlen input)) mod block_size (ty_block ty))))). lia. }
  split; [|split; [|split; [|split; [|split; [|split]]]]].
  - intros i Hi. destruct (rank_after _ _ _ _ _ _ i H Hi) as (o & E1 & E2). congruence.
  - intros i Hi. unfold rank_spec. fold B. pose proof (ones_before_bound B (i + 1) ltac:(lia)). lia.
  - unfold rank_spec. fold B. rewrite ones_before_succ by lia. unfold ones_before at 1. cbn. destruct (bit B 0); reflexivity.
  - intros i Hi. unfold rank_spec. fold B. rewrite ones_before_succ by lia. replace (i - 1 + 1) with i by lia. reflexivity.
  - intros i j Hi Hj. unfold rank_spec. fold B. rewrite !ones_before_sum by lia.
    rewrite (sumf_split (fun t => b2z (bit B t)) 0 (i + 1) (j + 1)) by lia.
    pose proof (sumf_bound (fun t => b2z (bit B t)) 1 (i + 1) (j + 1) ltac:(lia) ltac:(intros; apply b2z_01)). lia.
  - unfold rank_spec. fold B. rewrite count_true_all. f_equal. lia.
  - intros i Hi. destruct (extend c ty addr s input ops [Access i; Flip i; Rank (zlen B - 1)] H) as (o1 & o2 & E1 & E2 & A).
    { fold B. cbn [valid_ops valid_op contents_after]. rewrite zlen_flip. intuition lia. }
    { vok. }
    fold B in A. one_answer A. cbn [contents_after] in *. open_answers. rewrite E in E1. injection E1 as <-. rewrite E2.
    repeat f_equal. unfold rank_spec. rewrite ones_flip by lia. replace (i <? zlen B - 1 + 1) with true by lia.
    replace (zlen B - 1 + 1) with (zlen B) by lia. rewrite <- count_true_all. destruct (bit B i); lia.
Qed.

Lemma select_enumerates c ty addr s input ops : history c ty addr s input ops ->
  (forall k, 0 <= k < count_true (current ty input ops) -> select_safe c ty (current ty input ops) k) ->
  exists outs (p : Z -> Z), program c ty addr s input ops = Ok outs /\
    let B := current ty input ops in
    (forall k, 0 <= k < count_true B -> program c ty addr s input (ops ++ [Select k]) = Ok (outs ++ [ONum (p k)])) /\
    (forall k, 0 <= k < count_true B -> 0 <= p k < zlen B /\ bit B (p k) = true) /\
    (forall k l, 0 <= k < l -> l < count_true B -> p k < p l) /\
    (forall i, 0 <= i < zlen B -> bit B i = true -> exists k, 0 <= k < count_true B /\ p k = i).
Proof.
  intros H Hs. destruct (never_fails _ _ _ _ _ _ H) as (outs & E & _). set (B := current ty input ops) in *.
  set (p := fun k => match program c ty addr s input (ops ++ [Select k]) with Ok o => match last o ONone with ONum z => z | _ => 0 end | _ => 0 end).
  exists outs, p.
  split; auto. intros B'. subst B'.
  assert (G : forall k, 0 <= k < count_true B -> program c ty addr s input (ops ++ [Select k]) = Ok (outs ++ [ONum (p k)]) /\ is_select B k (p k)).
  { intros k Hk. destruct (select_after c ty addr s input ops k H Hk (Hs k Hk)) as (o & q & E1 & E2 & Hq & _).
    assert (Ep : p k = q) by (unfold p; rewrite E2, last_last; reflexivity).
    rewrite Ep. split; auto. congruence. }
  split; [|split; [|split]].
  - intros k Hk. apply G; auto.
  - intros k Hk. destruct (G k Hk) as [_ (P1 & P2 & _)]. auto.
  - intros k l Hk Hl. destruct (G k ltac:(lia)) as [_ (P1 & P2 & P3)]. destruct (G l ltac:(lia)) as [_ (Q1 & Q2 & Q3)].
    destruct (Z.lt_ge_cases (p k) (p l)); auto. pose proof (ones_before_mono B (p l) (p k) ltac:(lia) ltac:(lia)). lia.
  - intros i Hi Hb. exists (ones_before B i).
    assert (R : 0 <= ones_before B i < count_true B).
    { pose proof (ones_before_bound B i ltac:(lia)). pose proof (ones_before_mono B (i + 1) (zlen B) ltac:(lia) ltac:(lia)).
      rewrite ones_before_succ in H1 by lia. rewrite Hb in H1. cbn [b2z] in H1. rewrite count_true_all. lia. }
    split; auto. destruct (G _ R) as [_ P]. eapply is_select_unique; [exact P|]. repeat split; auto; lia.
Qed.

Lemma flips_commute c ty addr s input ops i j more : history c ty addr s input ops ->
  0 <= i < zlen (current ty input ops) -> 0 <= j < zlen (current ty input ops) ->
  let B' := flip_bit (flip_bit (current ty input ops) i) j in
  valid_ops B' more -> selects_safe c ty B' more ->
  exists outs, program c ty addr s input (ops ++ [Flip i; Flip j] ++ more) = Ok outs /\
    program c ty addr s input (ops ++ [Flip j; Flip i] ++ more) = Ok outs.
Proof.
  intros H Hi Hj B' Hv Hs.
  assert (E : flip_bit (flip_bit (current ty input ops) j) i = B') by (unfold B'; apply flip_comm; auto).
  destruct (extend c ty addr s input ops ([Flip i; Flip j] ++ more) H) as (o1 & o2 & E1 & E2 & A).
  { cbn [app valid_ops valid_op contents_after]. rewrite zlen_flip. auto. }
  { cbn [app selects_safe contents_after]. auto. }
  destruct (extend c ty addr s input ops ([Flip j; Flip i] ++ more) H) as (o1' & o2' & E1' & E2' & A').
  { cbn [app valid_ops valid_op contents_after]. rewrite zlen_flip, E. auto. }
  { cbn [app selects_safe contents_after]. rewrite E. auto. }
  rewrite E1 in E1'. injection E1' as <-. exists (o1 ++ o2). split; auto. rewrite E2'. do 2 f_equal.
  destruct (answers_app _ _ _ _ A) as (r1 & r2 & -> & B1 & B2). destruct (answers_app _ _ _ _ A') as (r1' & r2' & -> & B1' & B2').
  one_answer B1. one_answer B1'. open_answers. f_equal. cbn [contents_after_all contents_after] in *. rewrite E in B2'. fold B' in B2.
  eapply answers_det; eauto.
Qed.

Lemma statics_irrelevant c ty addr s1 s2 input ops : history c ty addr s1 input ops -> reachable_statics c (ty_block ty) s2 ->
  program c ty addr s1 input ops = program c ty addr s2 input ops.
Proof.
  intros H R. destruct (same_program c c ty ty addr addr s1 s2 input ops) as (o & E1 & E2); auto; [|congruence].
  destruct H as (U & _ & V & S). repeat split; auto; apply U.
Qed.

Lemma no_ub c ty addr s input ops : history c ty addr s input ops -> forall k, program c ty addr s input ops <> Ub k.
Proof. intros H k. destruct (never_fails _ _ _ _ _ _ H) as (q & Eq & Lq). congruence. Qed.

Lemma no_assert c ty addr s input ops : history c ty addr s input ops ->
  program c ty addr s input ops <> AssertFail /\
  exists outs, program c ty addr s input ops = Ok outs /\ length outs = length ops.
Proof. intros H. destruct (never_fails _ _ _ _ _ _ H) as (q & Eq & Lq). split; [congruence|eauto]. Qed.

Lemma configurations_agree c1 c2 ty addr1 addr2 s1 s2 input ops :
  history c1 ty addr1 s1 input ops -> history c2 ty addr2 s2 input ops ->
  exists outs, program c1 ty addr1 s1 input ops = Ok outs /\ program c2 ty addr2 s2 input ops = Ok outs.
Proof. intros H1 H2. apply same_program; auto. Qed.

Lemma types_agree c1 c2 ty1 ty2 addr1 addr2 s1 s2 input ops :
  history c1 ty1 addr1 s1 input ops -> history c2 ty2 addr2 s2 input ops ->
  (zlen input * 64) mod block_size (ty_block ty1) = 0 /\ (zlen input * 64) mod block_size (ty_block ty2) = 0 \/
  block_size (ty_block ty1) = block_size (ty_block ty2) ->
  exists outs, program c1 ty1 addr1 s1 input ops = Ok outs /\ program c2 ty2 addr2 s2 input ops = Ok outs.
Proof.
  intros H1 H2 E. apply same_program; auto. unfold initial, padded. destruct E as [[E1 E2]|E]; [|rewrite E; reflexivity].
  rewrite !zlen_bits. replace (64 * zlen input) with (zlen input * 64) by lia.
  assert (forall b, b <> 0 -> (zlen input * 64) mod b = 0 -> (- (zlen input * 64)) mod b = 0) as Z0 by (intros; apply Z.mod_opp_l_z; auto).
  rewrite !Z0; auto; [destruct (ty_block ty2)|destruct (ty_block ty1)]; cbn; lia.
Qed.
