(** Whole programs: build followed by any sequence of calls. *)
From Coq Require Import ZifyBool.
From Verif Require Import Base BaseFacts Mem MemFacts Nodes NodeFacts Trees LevelFacts TreeFacts TreeBuild
  Words WordFacts Blocks BlockFacts Spec Bitmap Usage BitmapFacts.
Ltac Zify.zify_post_hook ::= Z.div_mod_to_equations.

(** ** Contents after build *)
Lemma bits_of_words_app a b : bits_of_words (a ++ b) = bits_of_words a ++ bits_of_words b.
Proof. unfold bits_of_words. apply flat_map_app. Qed.

Lemma bits_of_zeros m : bits_of_words (repeat 0 m) = repeat false (64 * m).
Proof.
  unfold bits_of_words. induction m; [reflexivity|]. cbn [repeat flat_map]. rewrite IHm.
  replace (bits_of_word 0) with (repeat false 64) by reflexivity. rewrite <- repeat_app. f_equal. lia.
Qed.

Lemma skipn_repeat {A} (x : A) k : forall m, skipn k (repeat x m) = repeat x (m - k).
Proof. induction k; intros [|m]; cbn [skipn repeat Nat.sub]; auto. Qed.

Lemma pad_amount bt L : 0 <= L -> (- (64 * L)) mod block_size bt = 64 * (words_in_block bt * cdiv L (words_in_block bt) - L).
Proof. intros HL. unfold cdiv. destruct bt; cbv [words_in_block block_size]; change (64 / 64) with 1; change (256 / 64) with 4; change (512 / 64) with 8; lia. Qed.

Lemma built_words_fresh bt input : bits_of_words (built_words bt input []) = padded (block_size bt) (bits_of_words input).
Proof.
  unfold built_words, padded, resize. rewrite firstn_nil. cbn [app length]. rewrite Nat.sub_0_r, skipn_repeat.
  rewrite bits_of_words_app, bits_of_zeros, zlen_bits, pad_amount by apply zlen_nonneg.
  f_equal. f_equal. unfold zlen. assert (0 < words_in_block bt) by (destruct bt; reflexivity). lia.
Qed.

Lemma blocks_bound ty input : buildable ty input -> 1 <= cdiv (zlen input) (words_in_block (ty_block ty)) <= 2 ^ 24.
Proof.
  intros (_ & _ & H1 & H2 & _). unfold cdiv. destruct (ty_block ty); cbv [words_in_block block_size] in *;
    change (64 / 64) with 1; change (256 / 64) with 4; change (512 / 64) with 8; lia.
Qed.

Lemma new_bitmap_any c ty addr input : buildable ty input -> debug_counts_ok c ty (initial ty input) ->
  exists b, new_bitmap c ty addr input = Ok b /\ b_addr b = addr /\
    binv ty (cdiv (zlen input) (words_in_block (ty_block ty))) b (initial ty input).
Proof.
  intros Hb Hd. pose proof (blocks_bound ty input Hb) as Hn. pose proof Hb as (Hsup & Hin & H1 & H2 & HH).
  destruct (bm_build_ok c ty input [] [] addr) as (m & E & Hw & Hz); auto.
  - constructor.
  - rewrite built_words_fresh. intros D. specialize (Hd D). unfold max_count. exact Hd.
  - unfold new_bitmap. rewrite E. cbn [bind]. eexists. split; [reflexivity|]. split; [reflexivity|].
    split; [|split].
    + exact Hw.
    + cbn [b_words]. apply built_words_fresh.
    + exact Hz.
Qed.

Lemma new_bitmap_ok c ty addr input : usable c ty addr input ->
  exists b, new_bitmap c ty addr input = Ok b /\ b_addr b = addr /\
    binv ty (cdiv (zlen input) (words_in_block (ty_block ty))) b (initial ty input).
Proof. intros (Hb & _ & Hd). apply new_bitmap_any; auto. Qed.

Lemma program_run c ty addr s input ops : usable c ty addr input -> reachable_statics c (ty_block ty) s ->
  valid_ops (initial ty input) ops -> selects_safe c ty (initial ty input) ops ->
  exists outs, program c ty addr s input ops = Ok outs /\ answers_ok (initial ty input) ops outs.
Proof.
  intros Hu Hs Hv Hsel. destruct (new_bitmap_ok c ty addr input Hu) as (b & E & Ea & Hb).
  apply reachable_statics_ok in Hs. pose proof Hu as (_ & Ha & _).
  destruct (run_ok c ty _ ops b s _ Hb Hs ltac:(rewrite Ea; exact Ha) Hv Hsel) as (outs & b' & s' & Er & Hans & _).
  exists outs. split; auto. unfold program. rewrite E. cbn [bind]. rewrite Er. reflexivity.
Qed.

(** ** Sequences of calls *)
Lemma contents_app B o1 o2 : contents_after_all B (o1 ++ o2) = contents_after_all (contents_after_all B o1) o2.
Proof. revert B. induction o1; intros B; cbn [app contents_after_all]; auto. Qed.

Lemma valid_app B o1 o2 : valid_ops B (o1 ++ o2) <-> valid_ops B o1 /\ valid_ops (contents_after_all B o1) o2.
Proof. revert B. induction o1; intros B; cbn [app contents_after_all valid_ops]; [tauto|]. rewrite IHo1. tauto. Qed.

Lemma safe_app c ty B o1 o2 : selects_safe c ty B (o1 ++ o2) <-> selects_safe c ty B o1 /\ selects_safe c ty (contents_after_all B o1) o2.
Proof. revert B. induction o1; intros B; cbn [app contents_after_all selects_safe]; [tauto|]. rewrite IHo1. tauto. Qed.

Lemma answers_app B o1 : forall o2 outs, answers_ok B (o1 ++ o2) outs ->
  exists r1 r2, outs = r1 ++ r2 /\ answers_ok B o1 r1 /\ answers_ok (contents_after_all B o1) o2 r2.
Proof.
  revert B. induction o1 as [|o o1 IH]; intros B o2 outs H.
  - exists [], outs. cbn. auto.
  - destruct outs as [|a outs]; [contradiction|]. cbn [app answers_ok contents_after_all] in *. destruct H as [H1 H2].
    destruct (IH _ _ _ H2) as (r1 & r2 & -> & A1 & A2). exists (a :: r1), r2. cbn [app answers_ok]. auto.
Qed.

Lemma zlen_flip B i : zlen (flip_bit B i) = zlen B.
Proof. apply zlen_upd. Qed.

Lemma zlen_contents ops : forall B, zlen (contents_after_all B ops) = zlen B.
Proof. induction ops as [|o ops IH]; intros B; cbn [contents_after_all]; auto. rewrite IH. destruct o; auto. apply zlen_flip. Qed.

(** ** Facts about the specification *)
Lemma ones_before_succ B i : 0 <= i < zlen B -> ones_before B (i + 1) = ones_before B i + b2z (bit B i).
Proof. intros Hi. rewrite !ones_before_sum by lia. rewrite sumf_succ by lia. reflexivity. Qed.

Lemma is_select_unique B k p q : is_select B k p -> is_select B k q -> p = q.
Proof.
  intros (P1 & P2 & P3) (Q1 & Q2 & Q3).
  assert (G : forall a b, 0 <= a -> a < b <= zlen B -> bit B a = true -> ones_before B a < ones_before B b).
  { intros a b Ha Hb Hbit. pose proof (ones_before_mono B (a + 1) b ltac:(lia) ltac:(lia)).
    rewrite ones_before_succ in H by lia. rewrite Hbit in H. cbn [b2z] in H. lia. }
  destruct (Z.lt_trichotomy p q) as [L|[E|L]]; auto; [pose proof (G p q ltac:(lia) ltac:(lia) P2)|pose proof (G q p ltac:(lia) ltac:(lia) Q2)]; lia.
Qed.

Lemma is_select_exists B k : 0 <= k < count_true B -> exists p, is_select B k p.
Proof.
  rewrite count_true_all. intros Hk.
  assert (G : forall m, (m <= length B)%nat -> k < ones_before B (Z.of_nat m) -> exists p, is_select B k p).
  { induction m; intros Hm H.
    - unfold ones_before in H. cbn in H. lia.
    - destruct (Z.lt_ge_cases k (ones_before B (Z.of_nat m))); [apply IHm; lia|].
      exists (Z.of_nat m). rewrite Nat2Z.inj_succ in H. unfold Z.succ in H.
      rewrite ones_before_succ in H by (unfold zlen; lia).
      split; [unfold zlen; lia|]. destruct (bit B (Z.of_nat m)) eqn:E; cbn [b2z] in H; split; auto; lia. }
  apply (G (length B)); auto. fold (zlen B). lia.
Qed.

Lemma words_inj a : forall b, words_ok a -> words_ok b -> bits_of_words a = bits_of_words b -> a = b.
Proof.
  intros b Ha Hb E. assert (L : zlen a = zlen b) by (pose proof (zlen_bits a); pose proof (zlen_bits b); rewrite E in *; lia).
  apply (list_ext 0); auto. intros i Hi.
  pose proof (words_zn a i Ha). pose proof (words_zn b i Hb).
  apply Z.bits_inj'. intros t Ht. destruct (Z.lt_ge_cases t 64).
  - pose proof (bit_words a (64 * i + t) ltac:(lia)) as Ba. pose proof (bit_words b (64 * i + t) ltac:(lia)) as Bb.
    rewrite E in Ba. replace ((64 * i + t) / 64) with i in * by lia. replace ((64 * i + t) mod 64) with t in * by lia. congruence.
  - rewrite !word_high by auto. reflexivity.
Qed.

Lemma answer_det B o a b : answer_ok B o a -> answer_ok B o b -> a = b.
Proof.
  destruct o, a, b; cbn [answer_ok]; intros Ha Hb; try contradiction; try congruence.
  - f_equal. eapply is_select_unique; eauto.
  - f_equal. apply words_inj; try tauto. destruct Ha as [_ ->]. symmetry. tauto.
Qed.

Lemma answers_det B ops : forall a b, answers_ok B ops a -> answers_ok B ops b -> a = b.
Proof.
  revert B. induction ops as [|o ops IH]; intros B [|x a] [|y b]; cbn [answers_ok]; intros Ha Hb; try contradiction; auto.
  destruct Ha, Hb. f_equal; [eapply answer_det|eapply IH]; eauto.
Qed.

Lemma flip_flip B i : 0 <= i < zlen B -> flip_bit (flip_bit B i) i = B.
Proof.
  intros Hi. apply (list_ext false).
  - rewrite !zlen_flip. reflexivity.
  - intros t Ht. rewrite !zlen_flip in Ht. unfold flip_bit at 1. rewrite zn_upd by (rewrite ?zlen_flip; lia).
    unfold bit, flip_bit. rewrite !zn_upd by lia. rewrite Z.eqb_refl. destruct (Z.eqb_spec t i); auto.
    subst. unfold bit. apply negb_involutive.
Qed.

Lemma bit_flip B i t : 0 <= i < zlen B -> 0 <= t -> bit (flip_bit B i) t = if t =? i then negb (bit B i) else bit B t.
Proof. intros Hi Ht. unfold bit, flip_bit. rewrite zn_upd by lia. reflexivity. Qed.

Lemma flip_comm B i j : 0 <= i < zlen B -> 0 <= j < zlen B -> flip_bit (flip_bit B i) j = flip_bit (flip_bit B j) i.
Proof.
  intros Hi Hj. apply (list_ext false).
  - rewrite !zlen_flip. reflexivity.
  - intros t Ht. rewrite !zlen_flip in Ht. fold (bit (flip_bit (flip_bit B i) j) t). fold (bit (flip_bit (flip_bit B j) i) t).
    rewrite !bit_flip by (rewrite ?zlen_flip; lia).
    destruct (Z.eqb_spec t j), (Z.eqb_spec t i), (Z.eqb_spec j i), (Z.eqb_spec i j); try lia; congruence.
Qed.

Lemma ones_flip B i t : 0 <= i < zlen B -> 0 <= t <= zlen B ->
  ones_before (flip_bit B i) t = ones_before B t + (if i <? t then (if bit B i then -1 else 1) else 0).
Proof.
  intros Hi Ht. rewrite !ones_before_sum by (rewrite ?zlen_flip; lia).
  rewrite (sumf_ext _ (fadd (fun t => b2z (bit B t)) i (if bit B i then -1 else 1))).
  - rewrite sumf_fadd by lia. replace (0 <=? i) with true by lia. reflexivity.
  - intros j Hj. rewrite bit_flip by lia. unfold fadd. destruct (Z.eqb_spec j i); auto. subst. destruct (bit B i); reflexivity.
Qed.

Lemma bit_contents ops : forall B i, 0 <= i < zlen B -> valid_ops B ops ->
  bit (contents_after_all B ops) i = xorb (bit B i) (Nat.odd (count_occ Z.eq_dec (flat_map (fun o => match o with Flip j => [j] | _ => [] end) ops) i)).
Proof.
  induction ops as [|o ops IH]; intros B i Hi Hv; cbn [contents_after_all flat_map]; [rewrite xorb_false_r; reflexivity|].
  destruct Hv as [Hv1 Hv2]. rewrite IH; auto.
  2:{ destruct o; auto. cbn [contents_after]. rewrite zlen_flip. auto. }
  destruct o as [j| | | | |]; auto. cbn [contents_after app count_occ valid_op] in *.
  rewrite bit_flip by lia. destruct (Z.eq_dec j i).
  - subst. rewrite Z.eqb_refl. rewrite Nat.odd_succ, <- Nat.negb_odd. destruct (bit B i), (Nat.odd _); reflexivity.
  - replace (i =? j) with false by lia. reflexivity.
Qed.
