(** Facts about MrFile: a saved structure read back. *)
From Verif Require Import Base BaseFacts Mem MemFacts WordFacts TreeBuild KernelFacts Spec SpecText SpecFile MrRank MrRankFacts MrRankFacts2 MrSelect MrSelectFacts4 MrFile MrFileFacts.
From Coq Require Import ZifyBool.
Ltac Zify.zify_post_hook ::= Z.div_mod_to_equations.

(** ** Values of 64 bits *)
Lemma put64_mod v : put64 v = put64 (v mod 2 ^ 64).
Proof.
  unfold put64. cbn [zrange map]. cbn [Z.add Z.mul Z.pow Z.pow_pos Pos.iter Pos.mul Pos.add Pos.succ].
  repeat (f_equal; [lia|]). f_equal. lia.
Qed.
Lemma field_put_any v f : field (put64 v ++ f) 0 = v mod 2 ^ 64.
Proof. rewrite put64_mod. apply field_put. apply Z.mod_pos_bound. lia. Qed.
Lemma field_words_any ws f : forall k, 0 <= k < zlen ws -> field (flat_map put64 ws ++ f) (8 * k) = zn 0 ws k mod 2 ^ 64.
Proof.
  induction ws as [|w ws IH]; intros k Hk; [change (zlen (@nil Z)) with 0 in Hk; lia|]. cbn [flat_map]. rewrite <- app_assoc. rewrite zlen_cons in Hk.
  destruct (Z.eq_dec k 0) as [->|NE].
  - change (8 * 0) with 0. rewrite field_put_any. reflexivity.
  - replace (8 * k) with (zlen (put64 w) + 8 * (k - 1)) by (rewrite zlen_put64; lia). rewrite field_skip by lia. rewrite IH by lia.
    f_equal. unfold zn. replace (Z.to_nat k) with (S (Z.to_nat (k - 1))) by lia. reflexivity.
Qed.

(** ** Truncated files *)
Definition cut (f : list Z) (k : Z) : list Z := firstn (Z.to_nat k) f.
Lemma zlen_cut f k : 0 <= k <= zlen f -> zlen (cut f k) = k.
Proof. intros H. unfold cut, zlen in *. rewrite firstn_length. lia. Qed.
Lemma cut_ok f k : text_ok f -> text_ok (cut f k).
Proof. intros H. unfold cut, text_ok in *. rewrite <- (firstn_skipn (Z.to_nat k) f) in H. apply Forall_app in H. tauto. Qed.
Lemma zn_cut f k j : 0 <= k -> 0 <= j -> zn 0 (cut f k) j = if j <? k then zn 0 f j else 0.
Proof.
  intros Hk Hj. unfold zn, cut. replace (j <? 0) with false by lia. destruct (j <? k) eqn:E; [apply nth_first; lia|]. apply nth_overflow. rewrite firstn_length. lia.
Qed.
Lemma field_cut_le f k j : text_ok f -> 0 <= k -> 0 <= j -> field (cut f k) j <= field f j.
Proof.
  intros F Hk Hj. unfold field. cbn [zrange map]. unfold number. cbn [fold_right].
  assert (G : forall i, 0 <= i -> zn 0 (cut f k) i <= zn 0 f i).
  { intros i Hi. rewrite zn_cut by lia. pose proof (tbyte f i F). destruct (i <? k); lia. }
  pose proof (G j Hj). pose proof (G (j + 1) ltac:(lia)). pose proof (G (j + 1 + 1) ltac:(lia)). pose proof (G (j + 1 + 1 + 1) ltac:(lia)).
  pose proof (G (j + 1 + 1 + 1 + 1) ltac:(lia)). pose proof (G (j + 1 + 1 + 1 + 1 + 1) ltac:(lia)). pose proof (G (j + 1 + 1 + 1 + 1 + 1 + 1) ltac:(lia)).
  pose proof (G (j + 1 + 1 + 1 + 1 + 1 + 1 + 1) ltac:(lia)). lia.
Qed.
Lemma field_cut_in f k j : 0 <= j -> j + 8 <= k -> field (cut f k) j = field f j.
Proof.
  intros Hj Hk. unfold field. f_equal. apply map_ext_in. intros i Hi. apply in_zrange in Hi. rewrite zn_cut by lia. replace (i <? k) with true by lia. reflexivity.
Qed.
Lemma field_cut_out f k j : 0 <= k <= j -> field (cut f k) j = 0.
Proof.
  intros Hk. unfold field. assert (G : forall n j, k <= j -> map (zn 0 (cut f k)) (zrange j n) = repeat 0 n).
  { induction n; intros i Hi; [reflexivity|]. cbn [zrange map repeat]. rewrite zn_cut by lia. replace (i <? k) with false by lia. f_equal. apply IHn. lia. }
  rewrite G by lia. reflexivity.
Qed.

(** A file cut short makes load() exit. *)
Lemma cut_basic m f k : addresses_ok m -> text_ok f -> let a := field f 8 in let b := field f (16 + 8 * a) in a < 2 ^ 64 - 16 -> b < 2 ^ 64 - 16 ->
  zlen f = 24 + 8 * a + 8 * b -> 0 <= k < zlen f -> load_basic m (cut f k) = Ok Exits.
Proof.
  intros A F a b Ha Hb Hl Hk. pose proof (field_bound f 8 F) as Ba. fold a in Ba. pose proof (field_bound f (16 + 8 * a) F) as Bb. fold b in Bb.
  pose proof (cut_ok f k F) as F'. pose proof (field_bound _ 8 F') as Ba'. pose proof (field_cut_le f k 8 F ltac:(lia) ltac:(lia)) as La. fold a in La.
  assert (Lb : field (cut f k) (16 + 8 * field (cut f k) 8) <= b).
  { destruct (Z_le_gt_dec 16 k); [|rewrite field_cut_out by lia; lia]. replace (field (cut f k) 8) with a by (symmetry; apply field_cut_in; lia). apply field_cut_le; auto; lia. }
  pose proof (load_basic_any m (cut f k) A F' ltac:(lia) ltac:(lia)) as R. rewrite zlen_cut in R by lia.
  assert (C : k < 24 + 8 * field (cut f k) 8 + 8 * field (cut f k) (16 + 8 * field (cut f k) 8)).
  { pose proof (field_bound _ (16 + 8 * field (cut f k) 8) F') as Bb'. destruct (Z_le_gt_dec 16 k); [|lia].
    replace (field (cut f k) 8) with a in * by (symmetry; apply field_cut_in; lia). destruct (Z_le_gt_dec (24 + 8 * a) k); [|lia]. rewrite field_cut_in by lia. fold b. lia. }
  replace (k <? 24 + _ + _) with true in R by lia. exact R.
Qed.
Lemma cut_cf m f k : addresses_ok m -> text_ok f -> let b := field f 24 in b < 2 ^ 64 - 16 ->
  zlen f = 32 + 8 * b -> 0 <= k < zlen f -> load_cf m (cut f k) = Ok Exits.
Proof.
  intros A F b Hb Hl Hk. pose proof (field_bound f 24 F) as Bb. fold b in Bb. pose proof (cut_ok f k F) as F'.
  pose proof (field_bound _ 24 F') as Bb'. pose proof (field_cut_le f k 24 F ltac:(lia) ltac:(lia)) as Lb. fold b in Lb.
  pose proof (load_cf_any m (cut f k) A F' ltac:(lia)) as R. rewrite zlen_cut in R by lia.
  assert (C : k < 32 + 8 * field (cut f k) 24). { destruct (Z_le_gt_dec 32 k); [|lia]. rewrite field_cut_in by lia. fold b. lia. }
  replace (k <? 32 + _) with true in R by lia. exact R.
Qed.
Lemma cut_sel m f k : addresses_ok m -> text_ok f -> let a := field f 8 in let b := field f (16 + 8 * a) in a < 2 ^ 64 - 16 -> b < 2 ^ 64 - 128 ->
  zlen f = 24 + 8 * a + b -> 0 <= k < zlen f -> load_sel m (cut f k) = Ok Exits.
Proof.
  intros A F a b Ha Hb Hl Hk. pose proof (field_bound f 8 F) as Ba. fold a in Ba. pose proof (field_bound f (16 + 8 * a) F) as Bb. fold b in Bb.
  pose proof (cut_ok f k F) as F'. pose proof (field_bound _ 8 F') as Ba'. pose proof (field_cut_le f k 8 F ltac:(lia) ltac:(lia)) as La. fold a in La.
  assert (Lb : field (cut f k) (16 + 8 * field (cut f k) 8) <= b).
  { destruct (Z_le_gt_dec 16 k); [|rewrite field_cut_out by lia; lia]. replace (field (cut f k) 8) with a by (symmetry; apply field_cut_in; lia). apply field_cut_le; auto; lia. }
  pose proof (load_sel_any m (cut f k) A F' ltac:(lia) ltac:(lia)) as R. rewrite zlen_cut in R by lia.
  assert (C : k < 24 + 8 * field (cut f k) 8 + field (cut f k) (16 + 8 * field (cut f k) 8)).
  { pose proof (field_bound _ (16 + 8 * field (cut f k) 8) F') as Bb'. destruct (Z_le_gt_dec 16 k); [|lia].
    replace (field (cut f k) 8) with a in * by (symmetry; apply field_cut_in; lia). destruct (Z_le_gt_dec (24 + 8 * a) k); [|lia]. rewrite field_cut_in by lia. fold b. lia. }
  replace (k <? 24 + _ + _) with true in R by lia. exact R.
Qed.

(** ** What a saved structure is read back as *)
Lemma wordsP_ext junk addr len s s' a : (forall k, 0 <= k < len -> s k = s' k) -> wordsP junk addr len s a -> wordsP junk addr len s' a.
Proof. intros E (W1 & W2 & W3). split; [auto|]. split; [|auto]. intros k Hk. rewrite <- E by auto. auto. Qed.
Lemma bytesP_ext junk addr len s s' a : (forall k, 0 <= k < len -> s k = s' k) -> bytesP junk addr len s a -> bytesP junk addr len s' a.
Proof. intros E (W1 & W2 & W3). split; [auto|]. split; [|auto]. intros k Hk. rewrite <- E by auto. auto. Qed.
Lemma drop_app f g : drop (zlen f) (f ++ g) = g.
Proof. unfold drop, zlen. rewrite Nat2Z.id. rewrite skipn_app, skipn_all, Nat.sub_diag. reflexivity. Qed.
Lemma cut_app f g : cut (f ++ g) (zlen f) = f.
Proof. unfold cut, zlen. rewrite Nat2Z.id. rewrite firstn_app, Nat.sub_diag, firstn_all. cbn [firstn]. apply app_nil_r. Qed.
Lemma field_app_l f g j : 0 <= j -> j + 8 <= zlen f -> field (f ++ g) j = field f j.
Proof. intros Hj Hl. pose proof (field_cut_in (f ++ g) (zlen f) j Hj Hl) as E. rewrite cut_app in E. auto. Qed.

Definition sameW (m : memory) (r r' : rank_basic) : Prop :=
  rb_text_len r' = rb_text_len r /\ rb_ranks_len r' = rb_ranks_len r /\ rb_bits_len r' = rb_bits_len r /\
  wordsP (m_junk_r m) (m_addr_r m) (rb_ranks_len r) (fun j => zn 0 (rb_ranks r) j mod 2 ^ 64) (rb_ranks r') /\
  wordsP (m_junk_b m) (m_addr_b m) (rb_bits_len r) (fun j => zn 0 (rb_bits r) j mod 2 ^ 64) (rb_bits r').

Lemma basic_round m r : addresses_ok m -> 0 <= rb_text_len r < 2 ^ 63 ->
  0 <= rb_ranks_len r < 2 ^ 63 -> rb_ranks_len r <= zlen (rb_ranks r) -> 0 <= rb_bits_len r < 2 ^ 63 -> rb_bits_len r <= zlen (rb_bits r) ->
  exists f, save_basic r = Ok f /\ zlen f = 24 + 8 * rb_ranks_len r + 8 * rb_bits_len r /\ text_ok f /\
    (forall rest, text_ok rest -> exists r', load_basic m (f ++ rest) = Ok (Loaded r' rest) /\ sameW m r r') /\
    (forall k, 0 <= k < zlen f -> load_basic m (cut f k) = Ok Exits).
Proof.
  intros A HT HR HR2 HB HB2. rewrite save_basic_ok by lia. set (f := put64 (rb_text_len r) ++ _). exists f. split; [reflexivity|].
  pose proof (zlen_words (prefix (rb_ranks r) (rb_ranks_len r))) as ZR. rewrite zlen_prefix in ZR by lia.
  pose proof (zlen_words (prefix (rb_bits r) (rb_bits_len r))) as ZB. rewrite zlen_prefix in ZB by lia.
  assert (L : zlen f = 24 + 8 * rb_ranks_len r + 8 * rb_bits_len r). { unfold f. rewrite !zlen_app, !zlen_put64. lia. }
  assert (F : text_ok f). { unfold f. repeat (apply Forall_app; split); try apply put64_ok; apply words_file_ok. }
  assert (E0 : forall g, field (f ++ g) 0 = rb_text_len r).
  { intros g. unfold f. rewrite <- app_assoc. rewrite field_put_any. apply Z.mod_small. lia. }
  assert (E8 : forall g, field (f ++ g) 8 = rb_ranks_len r).
  { intros g. unfold f. rewrite <- !app_assoc. change 8 with (zlen (put64 (rb_text_len r)) + 0) at 1. rewrite field_skip by lia. rewrite field_put_any. apply Z.mod_small. lia. }
  assert (EW : forall g k, 0 <= k < rb_ranks_len r -> field (f ++ g) (16 + 8 * k) = zn 0 (rb_ranks r) k mod 2 ^ 64).
  { intros g k Hk. unfold f. rewrite <- !app_assoc. replace (16 + 8 * k) with (zlen (put64 (rb_text_len r)) + (zlen (put64 (rb_ranks_len r)) + 8 * k)) by (rewrite !zlen_put64; lia).
    rewrite !field_skip by (rewrite ?zlen_put64; lia). rewrite field_words_any by (rewrite zlen_prefix; lia). rewrite zn_prefix by lia. reflexivity. }
  assert (EB : forall g, field (f ++ g) (16 + 8 * rb_ranks_len r) = rb_bits_len r).
  { intros g. unfold f. rewrite <- !app_assoc.
    replace (16 + 8 * rb_ranks_len r) with (zlen (put64 (rb_text_len r)) + (zlen (put64 (rb_ranks_len r)) + (zlen (flat_map put64 (prefix (rb_ranks r) (rb_ranks_len r))) + 0))) by (rewrite !zlen_put64, ZR; lia).
    rewrite !field_skip by (rewrite ?zlen_put64, ?ZR; lia). rewrite field_put_any. apply Z.mod_small. lia. }
  assert (EV : forall g k, 0 <= k < rb_bits_len r -> field (f ++ g) (24 + 8 * rb_ranks_len r + 8 * k) = zn 0 (rb_bits r) k mod 2 ^ 64).
  { intros g k Hk. unfold f. rewrite <- !app_assoc.
    replace (24 + 8 * rb_ranks_len r + 8 * k) with (zlen (put64 (rb_text_len r)) + (zlen (put64 (rb_ranks_len r)) + (zlen (flat_map put64 (prefix (rb_ranks r) (rb_ranks_len r))) + (zlen (put64 (rb_bits_len r)) + 8 * k)))) by (rewrite !zlen_put64, ZR; lia).
    rewrite !field_skip by (rewrite ?zlen_put64, ?ZR; lia). rewrite field_words_any by (rewrite zlen_prefix; lia). rewrite zn_prefix by lia. reflexivity. }
  clearbody f. split; [exact L|]. split; [exact F|]. split.
  - intros rest FR. assert (FF : text_ok (f ++ rest)) by (apply Forall_app; auto). pose proof (load_basic_any m (f ++ rest) A FF) as R. cbv zeta in R. rewrite E8, EB in R.
    specialize (R ltac:(lia) ltac:(lia)). rewrite zlen_app in R. pose proof (zlen_nonneg rest). replace (_ <? _) with false in R by lia. destruct R as (r' & R & B).
    exists r'. rewrite <- L, drop_app in R. split; [exact R|]. unfold basicL in B. rewrite E0, E8, EB in B. destruct B as (B1 & B2 & B3 & B4 & B5).
    split; [exact B1|]. split; [exact B2|]. split; [exact B3|]. split; [eapply wordsP_ext; [|exact B4]; cbv beta; auto|eapply wordsP_ext; [|exact B5]; cbv beta; auto].
  - intros k Hk. pose proof (E8 []) as E8'. pose proof (EB []) as EB'. rewrite app_nil_r in E8', EB'.
    apply cut_basic; auto; rewrite ?E8', ?EB'; lia.
Qed.

Definition sameC (m : memory) (r r' : rank_cf) : Prop :=
  cf_text_len r' = cf_text_len r /\ cf_border r' = cf_border r /\ cf_block_border r' = cf_block_border r /\ cf_bits_len r' = cf_bits_len r /\
  wordsP (m_junk_b m) (m_addr_b m) (cf_bits_len r) (fun j => zn 0 (cf_bits r) j mod 2 ^ 64) (cf_bits r').

Lemma cf_round m r : addresses_ok m -> 0 <= cf_text_len r < 2 ^ 63 -> 0 <= cf_border r < 2 ^ 63 -> 0 <= cf_block_border r < 2 ^ 63 ->
  0 <= cf_bits_len r < 2 ^ 63 -> cf_bits_len r <= zlen (cf_bits r) ->
  exists f, save_cf r = Ok f /\ zlen f = 32 + 8 * cf_bits_len r /\ text_ok f /\
    (forall rest, text_ok rest -> exists r', load_cf m (f ++ rest) = Ok (Loaded r' rest) /\ sameC m r r') /\
    (forall k, 0 <= k < zlen f -> load_cf m (cut f k) = Ok Exits).
Proof.
  intros A HT HR HR2 HB HB2. rewrite save_cf_ok by lia. set (f := put64 (cf_text_len r) ++ _). exists f. split; [reflexivity|].
  pose proof (zlen_words (prefix (cf_bits r) (cf_bits_len r))) as ZB. rewrite zlen_prefix in ZB by lia.
  assert (L : zlen f = 32 + 8 * cf_bits_len r). { unfold f. rewrite !zlen_app, !zlen_put64. lia. }
  assert (F : text_ok f). { unfold f. repeat (apply Forall_app; split); try apply put64_ok; apply words_file_ok. }
  assert (E0 : forall g, field (f ++ g) 0 = cf_text_len r).
  { intros g. unfold f. rewrite <- app_assoc. rewrite field_put_any. apply Z.mod_small. lia. }
  assert (E8 : forall g, field (f ++ g) 8 = cf_border r).
  { intros g. unfold f. rewrite <- !app_assoc. change 8 with (zlen (put64 (cf_text_len r)) + 0) at 1. rewrite field_skip by lia. rewrite field_put_any. apply Z.mod_small. lia. }
  assert (E16 : forall g, field (f ++ g) 16 = cf_block_border r).
  { intros g. unfold f. rewrite <- !app_assoc. change 16 with (zlen (put64 (cf_text_len r)) + (zlen (put64 (cf_border r)) + 0)). rewrite !field_skip by (rewrite ?zlen_put64; lia). rewrite field_put_any. apply Z.mod_small. lia. }
  assert (E24 : forall g, field (f ++ g) 24 = cf_bits_len r).
  { intros g. unfold f. rewrite <- !app_assoc. change 24 with (zlen (put64 (cf_text_len r)) + (zlen (put64 (cf_border r)) + (zlen (put64 (cf_block_border r)) + 0))). rewrite !field_skip by (rewrite ?zlen_put64; lia). rewrite field_put_any. apply Z.mod_small. lia. }
  assert (EV : forall g k, 0 <= k < cf_bits_len r -> field (f ++ g) (32 + 8 * k) = zn 0 (cf_bits r) k mod 2 ^ 64).
  { intros g k Hk. unfold f. rewrite <- !app_assoc.
    replace (32 + 8 * k) with (zlen (put64 (cf_text_len r)) + (zlen (put64 (cf_border r)) + (zlen (put64 (cf_block_border r)) + (zlen (put64 (cf_bits_len r)) + 8 * k)))) by (rewrite !zlen_put64; lia).
    rewrite !field_skip by (rewrite ?zlen_put64; lia). rewrite field_words_any by (rewrite zlen_prefix; lia). rewrite zn_prefix by lia. reflexivity. }
  clearbody f. split; [exact L|]. split; [exact F|]. split.
  - intros rest FR. assert (FF : text_ok (f ++ rest)) by (apply Forall_app; auto). pose proof (load_cf_any m (f ++ rest) A FF) as R. cbv zeta in R. rewrite E24 in R.
    specialize (R ltac:(lia)). rewrite zlen_app in R. pose proof (zlen_nonneg rest). replace (_ <? _) with false in R by lia. destruct R as (r' & R & B).
    exists r'. rewrite <- L, drop_app in R. split; [exact R|]. unfold cfL in B. rewrite E0, E8, E16, E24 in B. destruct B as (B1 & B2 & B3 & B4 & B5).
    split; [exact B1|]. split; [exact B2|]. split; [exact B3|]. split; [exact B4|]. eapply wordsP_ext; [|exact B5]; cbv beta; auto.
  - intros k Hk. pose proof (E24 []) as E24'. rewrite app_nil_r in E24'. apply cut_cf; auto; rewrite ?E24'; lia.
Qed.

Definition sameS (m : memory) (r r' : select_basic) : Prop :=
  sb_text_len r' = sb_text_len r /\ sb_selects_len r' = sb_selects_len r /\ sb_bits_len r' = sb_bits_len r /\
  wordsP (m_junk_r m) (m_addr_r m) (sb_selects_len r) (fun j => zn 0 (sb_selects r) j mod 2 ^ 64) (sb_selects r') /\
  bytesP (m_junk_b m) (m_addr_b m) (sb_bits_len r) (fun j => zn 0 (sb_bits r) j) (sb_bits r').

Lemma zn_skip l f k : 0 <= k -> zn 0 (l ++ f) (zlen l + k) = zn 0 f k.
Proof. intros. pose proof (zlen_nonneg l). rewrite zn_app_r by lia. f_equal. lia. Qed.
Lemma sel_round m r : addresses_ok m -> 0 <= sb_text_len r < 2 ^ 63 ->
  0 <= sb_selects_len r < 2 ^ 63 -> sb_selects_len r <= zlen (sb_selects r) -> 0 <= sb_bits_len r < 2 ^ 63 -> sb_bits_len r <= zlen (sb_bits r) -> text_ok (sb_bits r) ->
  exists f, save_sel r = Ok f /\ zlen f = 24 + 8 * sb_selects_len r + sb_bits_len r /\ text_ok f /\
    (forall rest, text_ok rest -> exists r', load_sel m (f ++ rest) = Ok (Loaded r' rest) /\ sameS m r r') /\
    (forall k, 0 <= k < zlen f -> load_sel m (cut f k) = Ok Exits).
Proof.
  intros A HT HR HR2 HB HB2 HO. rewrite save_sel_ok by lia. set (f := put64 (sb_text_len r) ++ _). exists f. split; [reflexivity|].
  pose proof (zlen_words (prefix (sb_selects r) (sb_selects_len r))) as ZR. rewrite zlen_prefix in ZR by lia.
  assert (L : zlen f = 24 + 8 * sb_selects_len r + sb_bits_len r). { unfold f. rewrite !zlen_app, !zlen_put64, zlen_prefix by lia. lia. }
  assert (F : text_ok f).
  { unfold f. repeat (apply Forall_app; split); try apply put64_ok; try apply words_file_ok. apply Forall_forall. intros x Hx. apply in_map_iff in Hx. destruct Hx as (j & <- & _). apply tbyte. exact HO. }
  assert (E0 : forall g, field (f ++ g) 0 = sb_text_len r).
  { intros g. unfold f. rewrite <- app_assoc. rewrite field_put_any. apply Z.mod_small. lia. }
  assert (E8 : forall g, field (f ++ g) 8 = sb_selects_len r).
  { intros g. unfold f. rewrite <- !app_assoc. change 8 with (zlen (put64 (sb_text_len r)) + 0) at 1. rewrite field_skip by lia. rewrite field_put_any. apply Z.mod_small. lia. }
  assert (EW : forall g k, 0 <= k < sb_selects_len r -> field (f ++ g) (16 + 8 * k) = zn 0 (sb_selects r) k mod 2 ^ 64).
  { intros g k Hk. unfold f. rewrite <- !app_assoc. replace (16 + 8 * k) with (zlen (put64 (sb_text_len r)) + (zlen (put64 (sb_selects_len r)) + 8 * k)) by (rewrite !zlen_put64; lia).
    rewrite !field_skip by (rewrite ?zlen_put64; lia). rewrite field_words_any by (rewrite zlen_prefix; lia). rewrite zn_prefix by lia. reflexivity. }
  assert (EB : forall g, field (f ++ g) (16 + 8 * sb_selects_len r) = sb_bits_len r).
  { intros g. unfold f. rewrite <- !app_assoc.
    replace (16 + 8 * sb_selects_len r) with (zlen (put64 (sb_text_len r)) + (zlen (put64 (sb_selects_len r)) + (zlen (flat_map put64 (prefix (sb_selects r) (sb_selects_len r))) + 0))) by (rewrite !zlen_put64, ZR; lia).
    rewrite !field_skip by (rewrite ?zlen_put64, ?ZR; lia). rewrite field_put_any. apply Z.mod_small. lia. }
  assert (EV : forall g k, 0 <= k < sb_bits_len r -> zn 0 (f ++ g) (24 + 8 * sb_selects_len r + k) = zn 0 (sb_bits r) k).
  { intros g k Hk. unfold f. rewrite <- !app_assoc.
    replace (24 + 8 * sb_selects_len r + k) with (zlen (put64 (sb_text_len r)) + (zlen (put64 (sb_selects_len r)) + (zlen (flat_map put64 (prefix (sb_selects r) (sb_selects_len r))) + (zlen (put64 (sb_bits_len r)) + k)))) by (rewrite !zlen_put64, ZR; lia).
    rewrite !zn_skip by (rewrite ?zlen_put64, ?ZR; lia). rewrite zn_app_l by (rewrite zlen_prefix; lia). apply zn_prefix. lia. }
  clearbody f. split; [exact L|]. split; [exact F|]. split.
  - intros rest FR. assert (FF : text_ok (f ++ rest)) by (apply Forall_app; auto). pose proof (load_sel_any m (f ++ rest) A FF) as R. cbv zeta in R. rewrite E8, EB in R.
    specialize (R ltac:(lia) ltac:(lia)). rewrite zlen_app in R. pose proof (zlen_nonneg rest). replace (_ <? _) with false in R by lia. destruct R as (r' & R & B).
    exists r'. rewrite <- L, drop_app in R. split; [exact R|]. unfold selL in B. rewrite E0, E8, EB in B. destruct B as (B1 & B2 & B3 & B4 & B5).
    split; [exact B1|]. split; [exact B2|]. split; [exact B3|]. split; [eapply wordsP_ext; [|exact B4]; cbv beta; auto|eapply bytesP_ext; [|exact B5]; cbv beta; auto].
  - intros k Hk. pose proof (E8 []) as E8'. pose proof (EB []) as EB'. rewrite app_nil_r in E8', EB'.
    apply cut_sel; auto; rewrite ?E8', ?EB'; lia.
Qed.
