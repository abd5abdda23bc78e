(** Files of RankBasic32 and RankCF32: what is written and what is read back. *)
From Coq Require Import ZifyBool.
From Verif Require Import Base BaseFacts Mem MemFacts Words WordFacts NodeFacts Trees TreeBuild Spec KernelFacts SpecText SpecFile SpecFile32 MrRank MrRankFacts MrRankFacts2 MrSelect MrSelectFacts4 MrFile MrFileFacts MrFileFacts2 MrRank32 MrRank32Facts2.
Ltac Zify.zify_post_hook ::= Z.div_mod_to_equations.

Lemma rd_int f k : rd 4 f k = int_field f k.
Proof. rewrite rd_val. unfold int_field. symmetry. apply number_val. Qed.
Lemma int_bound f k : text_ok f -> 0 <= int_field f k < 2 ^ 32.
Proof.
  intros H. unfold int_field. rewrite number_val. pose proof (val_bound (map (zn 0 f) (zrange k 4))) as B.
  assert (BB : bytes (map (zn 0 f) (zrange k 4))).
  { apply Forall_forall. intros x Hx. apply in_map_iff in Hx. destruct Hx as (j & <- & _). apply tbyte. exact H. }
  specialize (B BB). unfold zlen in B. rewrite map_length, length_zrange in B. lia.
Qed.

Lemma get32_at f k : 0 <= k -> get32 (drop k f) = if k + 4 <=? zlen f then Loaded (int_field f k) (drop (k + 4) f) else Exits.
Proof.
  intros Hk. unfold get32. rewrite zlen_drop_any by lia. replace (4 <=? Z.max 0 (zlen f - k)) with (k + 4 <=? zlen f) by lia.
  destruct (k + 4 <=? zlen f); [|reflexivity]. rewrite rd_drop, rd_int, Z.add_0_r by lia. f_equal. change (skipn 4 (drop k f)) with (drop 4 (drop k f)). apply drop_drop; lia.
Qed.

Definition intsP (junk : Z -> Z) (addr len : Z) (src : Z -> Z) (a : list Z) : Prop :=
  zlen a = (if len =? 0 then 0 else len + slack32 addr) /\ (forall k, 0 <= k < len -> zn 0 a k = src k) /\
  (1 <= len -> forall k, len <= k < len + slack32 addr -> zn 0 a k = u32 (junk k)).

Lemma get_ints_at junk addr len f k : 0 <= k <= zlen f -> 0 <= len < 2 ^ 32 - 32 -> addr mod 16 = 0 ->
  if k + 4 * len <=? zlen f
  then exists a, get_ints junk addr len (drop k f) = Ok (Loaded a (drop (k + 4 * len) f)) /\ intsP junk addr len (fun j => int_field f (k + 4 * j)) a
  else get_ints junk addr len (drop k f) = Ok Exits.
Proof.
  intros Hk Hl Ha. pose proof (slack32_ok addr Ha) as SL. unfold get_ints. rewrite zlen_drop by lia. destruct (len >? 0) eqn:E.
  - unfold fresh_aligned32. rewrite (wrap_small 32 (len + 32)) by lia. replace (len + 32 - - addr mod 128 / 4) with (len + slack32 addr) by (unfold slack32; lia).
    replace (Z.min (4 * len) (zlen f - k) >? Z.max 0 (4 * (len + slack32 addr))) with false by lia. replace (zlen f - k <? 4 * len) with (negb (k + 4 * len <=? zlen f)) by lia.
    destruct (k + 4 * len <=? zlen f) eqn:E2; cbn [negb]; [|reflexivity].
    eexists. split; [f_equal; f_equal; fold (drop (4 * len) (drop k f)); apply drop_drop; lia|].
    assert (LM : zlen (map (fun j => rd 4 (drop k f) (4 * j)) (zrange 0 (Z.to_nat len))) = len) by (rewrite zlen_map; unfold zlen; rewrite length_zrange; lia).
    fold (drop len (fresh32 junk (len + slack32 addr))).
    assert (LD : zlen (drop len (fresh32 junk (len + slack32 addr))) = slack32 addr) by (rewrite zlen_drop; rewrite zlen_fresh32; lia).
    split; [rewrite zlen_app, LM, LD; replace (len =? 0) with false by lia; reflexivity|]. split.
    + intros j Hj. rewrite zn_app_l by lia. rewrite zn_map_zrange by lia. rewrite rd_drop by lia. apply rd_int.
    + intros _ j Hj. rewrite zn_app_r by lia. rewrite LM, zn_drop by lia. unfold fresh32. rewrite zn_fresh by lia. do 2 f_equal. lia.
  - assert (len = 0) by lia. subst len. replace (k + 4 * 0) with k by lia. replace (k <=? zlen f) with true by lia. exists []. split; [reflexivity|].
    split; [reflexivity|]. split; intros; lia.
Qed.
Lemma get_words32_eq junk addr len f : 0 <= len < 2 ^ 32 - 16 -> get_words32 junk addr len f = get_words junk addr len f.
Proof. intros H. unfold get_words32, get_words. rewrite (wrap_small 32 (len + 16)), (wrap_small 64 (len + 16)) by lia. reflexivity. Qed.

(** ** Loading any file *)
Definition basicL32 (m : memory) (f : list Z) (r : rank_basic) : Prop :=
  let a := int_field f 4 in let b := int_field f (8 + 4 * a) in
  rb_text_len r = int_field f 0 /\ rb_ranks_len r = a /\ rb_bits_len r = b /\
  intsP (m_junk_r m) (m_addr_r m) a (fun j => int_field f (8 + 4 * j)) (rb_ranks r) /\
  wordsP (m_junk_b m) (m_addr_b m) b (fun j => field f (12 + 4 * a + 8 * j)) (rb_bits r).

Lemma load_basic32_any m f : addresses_ok m -> text_ok f -> let a := int_field f 4 in let b := int_field f (8 + 4 * a) in a < 2 ^ 32 - 32 -> b < 2 ^ 32 - 16 ->
  if zlen f <? 12 + 4 * a + 8 * b then load_basic32 m f = Ok Exits
  else exists r, load_basic32 m f = Ok (Loaded r (drop (12 + 4 * a + 8 * b) f)) /\ basicL32 m f r.
Proof.
  intros (A1 & A2 & A3 & A4) F a b Ha Hb. pose proof (int_bound f 4 F) as Ba. pose proof (int_bound f (8 + 4 * a) F) as Bb. fold a in Ba. fold b in Bb.
  unfold load_basic32. pose proof (get32_at f 0 ltac:(lia)) as G0. change (drop 0 f) with f in G0. rewrite G0. clear G0. change (0 + 4) with 4.
  destruct (4 <=? zlen f) eqn:E1; cbn [andthen]; [|replace (zlen f <? 12 + 4 * a + 8 * b) with true by lia; reflexivity].
  rewrite get32_at by lia. change (4 + 4) with 8. fold a.
  destruct (8 <=? zlen f) eqn:E2; cbn [andthen]; [|replace (zlen f <? 12 + 4 * a + 8 * b) with true by lia; reflexivity].
  pose proof (get_ints_at (m_junk_r m) (m_addr_r m) a f 8 ltac:(lia) ltac:(lia) A2) as G1.
  destruct (8 + 4 * a <=? zlen f) eqn:E3; [|rewrite G1; cbn [bind andthen]; replace (zlen f <? 12 + 4 * a + 8 * b) with true by lia; reflexivity].
  destruct G1 as (x & -> & W1). cbn [bind andthen]. rewrite get32_at by lia. fold b.
  destruct (8 + 4 * a + 4 <=? zlen f) eqn:E4; cbn [andthen]; [|replace (zlen f <? 12 + 4 * a + 8 * b) with true by lia; reflexivity].
  rewrite get_words32_eq by lia. pose proof (get_words_at (m_junk_b m) (m_addr_b m) b f (8 + 4 * a + 4) ltac:(lia) ltac:(lia) A4) as G2.
  destruct (8 + 4 * a + 4 + 8 * b <=? zlen f) eqn:E5; [|rewrite G2; cbn [bind andthen]; replace (zlen f <? 12 + 4 * a + 8 * b) with true by lia; reflexivity].
  destruct G2 as (y & -> & W2). cbn [bind andthen]. replace (zlen f <? 12 + 4 * a + 8 * b) with false by lia.
  replace (12 + 4 * a + 8 * b) with (8 + 4 * a + 4 + 8 * b) by lia. eexists. split; [reflexivity|]. unfold basicL32. fold a. fold b. cbn [rb_ranks rb_bits rb_ranks_len rb_bits_len rb_text_len].
  split; [reflexivity|]. split; [reflexivity|]. split; [reflexivity|]. split; [exact W1|]. replace (12 + 4 * a) with (8 + 4 * a + 4) by lia. exact W2.
Qed.

Definition cfL32 (m : memory) (f : list Z) (r : rank_cf) : Prop :=
  let b := int_field f 12 in
  cf_text_len r = int_field f 0 /\ cf_border r = int_field f 4 /\ cf_block_border r = int_field f 8 /\ cf_bits_len r = b /\
  intsP (m_junk_b m) (m_addr_b m) b (fun j => int_field f (16 + 4 * j)) (cf_bits r).

Lemma load_cf32_any m f : addresses_ok m -> text_ok f -> let b := int_field f 12 in b < 2 ^ 32 - 32 ->
  if zlen f <? 16 + 4 * b then load_cf32 m f = Ok Exits
  else exists r, load_cf32 m f = Ok (Loaded r (drop (16 + 4 * b) f)) /\ cfL32 m f r.
Proof.
  intros (A1 & A2 & A3 & A4) F b Hb. pose proof (int_bound f 12 F) as Bb. fold b in Bb.
  unfold load_cf32. pose proof (get32_at f 0 ltac:(lia)) as G0. change (drop 0 f) with f in G0. rewrite G0. clear G0. change (0 + 4) with 4.
  destruct (4 <=? zlen f) eqn:E1; cbn [andthen]; [|replace (zlen f <? 16 + 4 * b) with true by lia; reflexivity].
  rewrite get32_at by lia. change (4 + 4) with 8.
  destruct (8 <=? zlen f) eqn:E2; cbn [andthen]; [|replace (zlen f <? 16 + 4 * b) with true by lia; reflexivity].
  rewrite get32_at by lia. change (8 + 4) with 12.
  destruct (12 <=? zlen f) eqn:E3; cbn [andthen]; [|replace (zlen f <? 16 + 4 * b) with true by lia; reflexivity].
  rewrite get32_at by lia. change (12 + 4) with 16. fold b.
  destruct (16 <=? zlen f) eqn:E4; cbn [andthen]; [|replace (zlen f <? 16 + 4 * b) with true by lia; reflexivity].
  pose proof (get_ints_at (m_junk_b m) (m_addr_b m) b f 16 ltac:(lia) ltac:(lia) A4) as G2.
  destruct (16 + 4 * b <=? zlen f) eqn:E5; [|rewrite G2; cbn [bind andthen]; replace (zlen f <? 16 + 4 * b) with true by lia; reflexivity].
  destruct G2 as (y & -> & W2). cbn [bind andthen]. replace (zlen f <? 16 + 4 * b) with false by lia.
  eexists. split; [reflexivity|]. unfold cfL32. fold b. cbn [cf_bits cf_bits_len cf_text_len cf_border cf_block_border]. auto.
Qed.

(** ** Saved files *)
Lemma zlen_put32 v : zlen (put32 v) = 4.
Proof. reflexivity. Qed.
Lemma put32_le v : 0 <= v -> put32 v = le_bytes 4 v.
Proof. intros Hv. unfold put32. cbn [zrange map le_bytes Z.mul Z.pow]. rewrite !Zdiv.Zdiv_Zdiv by lia. rewrite Z.div_1_r. reflexivity. Qed.
Lemma put32_ok v : text_ok (put32 v).
Proof. unfold put32. apply Forall_forall. intros x Hx. apply in_map_iff in Hx. destruct Hx as (j & <- & _). lia. Qed.
Lemma int_skip l f k : 0 <= k -> int_field (l ++ f) (zlen l + k) = int_field f k.
Proof.
  intros Hk. unfold int_field. f_equal. replace (zlen l + k) with (k + zlen l) by lia. pose proof (zlen_nonneg l).
  assert (G : forall n k, 0 <= k -> map (zn 0 (l ++ f)) (zrange (k + zlen l) n) = map (zn 0 f) (zrange k n)).
  { induction n; intros j Hj; [reflexivity|]. cbn [zrange map]. rewrite zn_app_r by lia. f_equal; [f_equal; lia|]. replace (j + zlen l + 1) with (j + 1 + zlen l) by lia. apply IHn. lia. }
  apply G. lia.
Qed.
Lemma int_put v f : 0 <= v < 2 ^ 32 -> int_field (put32 v ++ f) 0 = v.
Proof.
  intros Hv. rewrite put32_le by lia. unfold int_field. rewrite number_val.
  assert (G : forall l n, length l = n -> forall k pre, zlen pre = k -> map (zn 0 (pre ++ l ++ f)) (zrange k n) = l).
  { induction l as [|a l IH]; intros n Hn k pre Hp; subst n; [reflexivity|]. cbn [length zrange map]. pose proof (zlen_nonneg pre). f_equal.
    - rewrite zn_app_r by lia. replace (k - zlen pre) with 0 by lia. reflexivity.
    - replace (pre ++ (a :: l) ++ f) with ((pre ++ [a]) ++ l ++ f) by (rewrite <- app_assoc; reflexivity). apply IH; [reflexivity|]. rewrite zlen_app. change (zlen [a]) with 1. lia. }
  rewrite (G (le_bytes 4 v) 4%nat) with (pre := []) by reflexivity. apply val_le_bytes. exact Hv.
Qed.
Lemma put32_mod v : put32 v = put32 (v mod 2 ^ 32).
Proof.
  unfold put32. cbn [zrange map]. cbn [Z.add Z.mul Z.pow Z.pow_pos Pos.iter Pos.mul Pos.add Pos.succ].
  repeat (f_equal; [lia|]). f_equal. lia.
Qed.
Lemma int_put_any v f : int_field (put32 v ++ f) 0 = v mod 2 ^ 32.
Proof. rewrite put32_mod. apply int_put. apply Z.mod_pos_bound. lia. Qed.
Lemma zlen_ints ws : zlen (flat_map put32 ws) = 4 * zlen ws.
Proof. induction ws; [reflexivity|]. cbn [flat_map]. rewrite zlen_app, zlen_put32, IHws, zlen_cons. lia. Qed.
Lemma int_words_any ws f : forall k, 0 <= k < zlen ws -> int_field (flat_map put32 ws ++ f) (4 * k) = zn 0 ws k mod 2 ^ 32.
Proof.
  induction ws as [|w ws IH]; intros k Hk; [change (zlen (@nil Z)) with 0 in Hk; lia|]. cbn [flat_map]. rewrite <- app_assoc. rewrite zlen_cons in Hk.
  destruct (Z.eq_dec k 0) as [->|NE].
  - change (4 * 0) with 0. rewrite int_put_any. reflexivity.
  - replace (4 * k) with (zlen (put32 w) + 4 * (k - 1)) by (rewrite zlen_put32; lia). rewrite int_skip by lia. rewrite IH by lia.
    f_equal. unfold zn. replace (Z.to_nat k) with (S (Z.to_nat (k - 1))) by lia. reflexivity.
Qed.
Lemma ints_file_ok ws : text_ok (flat_map put32 ws).
Proof. induction ws; [constructor|]. cbn [flat_map]. apply Forall_app. split; [apply put32_ok|exact IHws]. Qed.
Lemma out_ints_ok a n : 0 <= n <= zlen a -> out_ints a n = Ok (flat_map put32 (prefix a n)).
Proof. intros H. unfold out_ints. rewrite (mapM_ok _ (zn 0 a)) by (intros k Hk; apply in_zrange in Hk; apply geti_ok; lia). reflexivity. Qed.

Lemma save_basic32_ok r : 0 <= rb_ranks_len r -> rb_ranks_len r <= zlen (rb_ranks r) -> 0 <= rb_bits_len r -> rb_bits_len r <= zlen (rb_bits r) ->
  save_basic32 r = Ok (put32 (rb_text_len r) ++ put32 (rb_ranks_len r) ++ flat_map put32 (prefix (rb_ranks r) (rb_ranks_len r)) ++
                     put32 (rb_bits_len r) ++ flat_map put64 (prefix (rb_bits r) (rb_bits_len r))).
Proof.
  intros. unfold save_basic32. destruct (rb_ranks_len r >? 0) eqn:E1.
  - rewrite out_ints_ok by lia. cbn [bind]. destruct (rb_bits_len r >? 0) eqn:E2; [rewrite out_words_ok by lia; reflexivity|]. replace (rb_bits_len r) with 0 by lia. reflexivity.
  - replace (rb_ranks_len r) with 0 by lia. cbn [bind]. destruct (rb_bits_len r >? 0) eqn:E2; [rewrite out_words_ok by lia; reflexivity|]. replace (rb_bits_len r) with 0 by lia. reflexivity.
Qed.
Lemma save_cf32_ok r : 0 <= cf_bits_len r -> cf_bits_len r <= zlen (cf_bits r) ->
  save_cf32 r = Ok (put32 (cf_text_len r) ++ put32 (cf_border r) ++ put32 (cf_block_border r) ++ put32 (cf_bits_len r) ++ flat_map put32 (prefix (cf_bits r) (cf_bits_len r))).
Proof.
  intros. unfold save_cf32. destruct (cf_bits_len r >? 0) eqn:E2; [rewrite out_ints_ok by lia; reflexivity|]. replace (cf_bits_len r) with 0 by lia. reflexivity.
Qed.

(** ** Truncated files *)
Lemma int_cut_le f k j : text_ok f -> 0 <= k -> 0 <= j -> int_field (cut f k) j <= int_field f j.
Proof.
  intros F Hk Hj. unfold int_field. cbn [zrange map]. unfold number. cbn [fold_right].
  assert (G : forall i, 0 <= i -> zn 0 (cut f k) i <= zn 0 f i).
  { intros i Hi. rewrite zn_cut by lia. pose proof (tbyte f i F). destruct (i <? k); lia. }
  pose proof (G j Hj). pose proof (G (j + 1) ltac:(lia)). pose proof (G (j + 1 + 1) ltac:(lia)). pose proof (G (j + 1 + 1 + 1) ltac:(lia)). lia.
Qed.
Lemma int_cut_in f k j : 0 <= j -> j + 4 <= k -> int_field (cut f k) j = int_field f j.
Proof.
  intros Hj Hk. unfold int_field. f_equal. apply map_ext_in. intros i Hi. apply in_zrange in Hi. rewrite zn_cut by lia. replace (i <? k) with true by lia. reflexivity.
Qed.
Lemma int_cut_out f k j : 0 <= k <= j -> int_field (cut f k) j = 0.
Proof.
  intros Hk. unfold int_field. assert (G : forall n j, k <= j -> map (zn 0 (cut f k)) (zrange j n) = repeat 0 n).
  { induction n; intros i Hi; [reflexivity|]. cbn [zrange map repeat]. rewrite zn_cut by lia. replace (i <? k) with false by lia. f_equal. apply IHn. lia. }
  rewrite G by lia. reflexivity.
Qed.
Lemma cut_basic32 m f k : addresses_ok m -> text_ok f -> let a := int_field f 4 in let b := int_field f (8 + 4 * a) in a < 2 ^ 32 - 32 -> b < 2 ^ 32 - 16 ->
  zlen f = 12 + 4 * a + 8 * b -> 0 <= k < zlen f -> load_basic32 m (cut f k) = Ok Exits.
Proof.
  intros A F a b Ha Hb Hl Hk. pose proof (int_bound f 4 F) as Ba. fold a in Ba. pose proof (int_bound f (8 + 4 * a) F) as Bb. fold b in Bb.
  pose proof (cut_ok f k F) as F'. pose proof (int_bound _ 4 F') as Ba'. pose proof (int_cut_le f k 4 F ltac:(lia) ltac:(lia)) as La. fold a in La.
  assert (Lb : int_field (cut f k) (8 + 4 * int_field (cut f k) 4) <= b).
  { destruct (Z_le_gt_dec 8 k); [|rewrite int_cut_out by lia; lia]. replace (int_field (cut f k) 4) with a by (symmetry; apply int_cut_in; lia). apply int_cut_le; auto; lia. }
  pose proof (load_basic32_any m (cut f k) A F' ltac:(lia) ltac:(lia)) as R. rewrite zlen_cut in R by lia.
  assert (C : k < 12 + 4 * int_field (cut f k) 4 + 8 * int_field (cut f k) (8 + 4 * int_field (cut f k) 4)).
  { pose proof (int_bound _ (8 + 4 * int_field (cut f k) 4) F') as Bb'. destruct (Z_le_gt_dec 8 k); [|lia].
    replace (int_field (cut f k) 4) with a in * by (symmetry; apply int_cut_in; lia). destruct (Z_le_gt_dec (12 + 4 * a) k); [|lia]. rewrite int_cut_in by lia. fold b. lia. }
  replace (k <? 12 + _ + _) with true in R by lia. exact R.
Qed.
Lemma cut_cf32 m f k : addresses_ok m -> text_ok f -> let b := int_field f 12 in b < 2 ^ 32 - 32 ->
  zlen f = 16 + 4 * b -> 0 <= k < zlen f -> load_cf32 m (cut f k) = Ok Exits.
Proof.
  intros A F b Hb Hl Hk. pose proof (int_bound f 12 F) as Bb. fold b in Bb. pose proof (cut_ok f k F) as F'.
  pose proof (int_bound _ 12 F') as Bb'. pose proof (int_cut_le f k 12 F ltac:(lia) ltac:(lia)) as Lb. fold b in Lb.
  pose proof (load_cf32_any m (cut f k) A F' ltac:(lia)) as R. rewrite zlen_cut in R by lia.
  assert (C : k < 16 + 4 * int_field (cut f k) 12). { destruct (Z_le_gt_dec 16 k); [|lia]. rewrite int_cut_in by lia. fold b. lia. }
  replace (k <? 16 + _) with true in R by lia. exact R.
Qed.

(** ** What a saved structure is read back as *)
Lemma intsP_ext junk addr len s s' a : (forall k, 0 <= k < len -> s k = s' k) -> intsP junk addr len s a -> intsP junk addr len s' a.
Proof. intros E (W1 & W2 & W3). split; [auto|]. split; [|auto]. intros k Hk. rewrite <- E by auto. auto. Qed.

Definition sameW32 (m : memory) (r r' : rank_basic) : Prop :=
  rb_text_len r' = rb_text_len r /\ rb_ranks_len r' = rb_ranks_len r /\ rb_bits_len r' = rb_bits_len r /\
  intsP (m_junk_r m) (m_addr_r m) (rb_ranks_len r) (fun j => zn 0 (rb_ranks r) j mod 2 ^ 32) (rb_ranks r') /\
  wordsP (m_junk_b m) (m_addr_b m) (rb_bits_len r) (fun j => zn 0 (rb_bits r) j mod 2 ^ 64) (rb_bits r').

Lemma basic_round32 m r : addresses_ok m -> 0 <= rb_text_len r < 2 ^ 32 ->
  0 <= rb_ranks_len r < 2 ^ 32 - 32 -> rb_ranks_len r <= zlen (rb_ranks r) -> 0 <= rb_bits_len r < 2 ^ 32 - 16 -> rb_bits_len r <= zlen (rb_bits r) ->
  exists f, save_basic32 r = Ok f /\ zlen f = 12 + 4 * rb_ranks_len r + 8 * rb_bits_len r /\ text_ok f /\
    (forall rest, text_ok rest -> exists r', load_basic32 m (f ++ rest) = Ok (Loaded r' rest) /\ sameW32 m r r') /\
    (forall k, 0 <= k < zlen f -> load_basic32 m (cut f k) = Ok Exits).
Proof.
  intros A HT HR HR2 HB HB2. rewrite save_basic32_ok by lia. set (f := put32 (rb_text_len r) ++ _). exists f. split; [reflexivity|].
  pose proof (zlen_ints (prefix (rb_ranks r) (rb_ranks_len r))) as ZR. rewrite zlen_prefix in ZR by lia.
  pose proof (zlen_words (prefix (rb_bits r) (rb_bits_len r))) as ZB. rewrite zlen_prefix in ZB by lia.
  assert (L : zlen f = 12 + 4 * rb_ranks_len r + 8 * rb_bits_len r). { unfold f. rewrite !zlen_app, !zlen_put32. lia. }
  assert (F : text_ok f). { unfold f. repeat (apply Forall_app; split); try apply put32_ok; try apply ints_file_ok; apply words_file_ok. }
  assert (E0 : forall g, int_field (f ++ g) 0 = rb_text_len r).
  { intros g. unfold f. rewrite <- app_assoc. rewrite int_put_any. apply Z.mod_small. lia. }
  assert (E4 : forall g, int_field (f ++ g) 4 = rb_ranks_len r).
  { intros g. unfold f. rewrite <- !app_assoc. change 4 with (zlen (put32 (rb_text_len r)) + 0) at 1. rewrite int_skip by lia. rewrite int_put_any. apply Z.mod_small. lia. }
  assert (EW : forall g k, 0 <= k < rb_ranks_len r -> int_field (f ++ g) (8 + 4 * k) = zn 0 (rb_ranks r) k mod 2 ^ 32).
  { intros g k Hk. unfold f. rewrite <- !app_assoc. replace (8 + 4 * k) with (zlen (put32 (rb_text_len r)) + (zlen (put32 (rb_ranks_len r)) + 4 * k)) by (rewrite !zlen_put32; lia).
    rewrite !int_skip by (rewrite ?zlen_put32; lia). rewrite int_words_any by (rewrite zlen_prefix; lia). rewrite zn_prefix by lia. reflexivity. }
  assert (EB : forall g, int_field (f ++ g) (8 + 4 * rb_ranks_len r) = rb_bits_len r).
  { intros g. unfold f. rewrite <- !app_assoc.
    replace (8 + 4 * rb_ranks_len r) with (zlen (put32 (rb_text_len r)) + (zlen (put32 (rb_ranks_len r)) + (zlen (flat_map put32 (prefix (rb_ranks r) (rb_ranks_len r))) + 0))) by (rewrite !zlen_put32, ZR; lia).
    rewrite !int_skip by (rewrite ?zlen_put32, ?ZR; lia). rewrite int_put_any. apply Z.mod_small. lia. }
  assert (EV : forall g k, 0 <= k < rb_bits_len r -> field (f ++ g) (12 + 4 * rb_ranks_len r + 8 * k) = zn 0 (rb_bits r) k mod 2 ^ 64).
  { intros g k Hk. unfold f. rewrite <- !app_assoc.
    replace (12 + 4 * rb_ranks_len r + 8 * k) with (zlen (put32 (rb_text_len r)) + (zlen (put32 (rb_ranks_len r)) + (zlen (flat_map put32 (prefix (rb_ranks r) (rb_ranks_len r))) + (zlen (put32 (rb_bits_len r)) + 8 * k)))) by (rewrite !zlen_put32, ZR; lia).
    rewrite !field_skip by (rewrite ?zlen_put32, ?ZR; lia). rewrite field_words_any by (rewrite zlen_prefix; lia). rewrite zn_prefix by lia. reflexivity. }
  clearbody f. split; [exact L|]. split; [exact F|]. split.
  - intros rest FR. assert (FF : text_ok (f ++ rest)) by (apply Forall_app; auto). pose proof (load_basic32_any m (f ++ rest) A FF) as R. cbv zeta in R. rewrite E4, EB in R.
    specialize (R ltac:(lia) ltac:(lia)). rewrite zlen_app in R. pose proof (zlen_nonneg rest). replace (_ <? _) with false in R by lia. destruct R as (r' & R & B).
    exists r'. rewrite <- L, drop_app in R. split; [exact R|]. unfold basicL32 in B. rewrite E0, E4, EB in B. destruct B as (B1 & B2 & B3 & B4 & B5).
    split; [exact B1|]. split; [exact B2|]. split; [exact B3|]. split; [eapply intsP_ext; [|exact B4]; cbv beta; auto|eapply wordsP_ext; [|exact B5]; cbv beta; auto].
  - intros k Hk. pose proof (E4 []) as E8'. pose proof (EB []) as EB'. rewrite app_nil_r in E8', EB'.
    apply cut_basic32; auto; rewrite ?E8', ?EB'; lia.
Qed.

Definition sameC32 (m : memory) (r r' : rank_cf) : Prop :=
  cf_text_len r' = cf_text_len r /\ cf_border r' = cf_border r /\ cf_block_border r' = cf_block_border r /\ cf_bits_len r' = cf_bits_len r /\
  intsP (m_junk_b m) (m_addr_b m) (cf_bits_len r) (fun j => zn 0 (cf_bits r) j mod 2 ^ 32) (cf_bits r').

Lemma cf_round32 m r : addresses_ok m -> 0 <= cf_text_len r < 2 ^ 32 -> 0 <= cf_border r < 2 ^ 32 -> 0 <= cf_block_border r < 2 ^ 32 ->
  0 <= cf_bits_len r < 2 ^ 32 - 32 -> cf_bits_len r <= zlen (cf_bits r) ->
  exists f, save_cf32 r = Ok f /\ zlen f = 16 + 4 * cf_bits_len r /\ text_ok f /\
    (forall rest, text_ok rest -> exists r', load_cf32 m (f ++ rest) = Ok (Loaded r' rest) /\ sameC32 m r r') /\
    (forall k, 0 <= k < zlen f -> load_cf32 m (cut f k) = Ok Exits).
Proof.
  intros A HT HR HR2 HB HB2. rewrite save_cf32_ok by lia. set (f := put32 (cf_text_len r) ++ _). exists f. split; [reflexivity|].
  pose proof (zlen_ints (prefix (cf_bits r) (cf_bits_len r))) as ZB. rewrite zlen_prefix in ZB by lia.
  assert (L : zlen f = 16 + 4 * cf_bits_len r). { unfold f. rewrite !zlen_app, !zlen_put32. lia. }
  assert (F : text_ok f). { unfold f. repeat (apply Forall_app; split); try apply put32_ok; apply ints_file_ok. }
  assert (E0 : forall g, int_field (f ++ g) 0 = cf_text_len r).
  { intros g. unfold f. rewrite <- app_assoc. rewrite int_put_any. apply Z.mod_small. lia. }
  assert (E4 : forall g, int_field (f ++ g) 4 = cf_border r).
  { intros g. unfold f. rewrite <- !app_assoc. change 4 with (zlen (put32 (cf_text_len r)) + 0) at 1. rewrite int_skip by lia. rewrite int_put_any. apply Z.mod_small. lia. }
  assert (E8 : forall g, int_field (f ++ g) 8 = cf_block_border r).
  { intros g. unfold f. rewrite <- !app_assoc. change 8 with (zlen (put32 (cf_text_len r)) + (zlen (put32 (cf_border r)) + 0)). rewrite !int_skip by (rewrite ?zlen_put32; lia). rewrite int_put_any. apply Z.mod_small. lia. }
  assert (E12 : forall g, int_field (f ++ g) 12 = cf_bits_len r).
  { intros g. unfold f. rewrite <- !app_assoc. change 12 with (zlen (put32 (cf_text_len r)) + (zlen (put32 (cf_border r)) + (zlen (put32 (cf_block_border r)) + 0))). rewrite !int_skip by (rewrite ?zlen_put32; lia). rewrite int_put_any. apply Z.mod_small. lia. }
  assert (EV : forall g k, 0 <= k < cf_bits_len r -> int_field (f ++ g) (16 + 4 * k) = zn 0 (cf_bits r) k mod 2 ^ 32).
  { intros g k Hk. unfold f. rewrite <- !app_assoc.
    replace (16 + 4 * k) with (zlen (put32 (cf_text_len r)) + (zlen (put32 (cf_border r)) + (zlen (put32 (cf_block_border r)) + (zlen (put32 (cf_bits_len r)) + 4 * k)))) by (rewrite !zlen_put32; lia).
    rewrite !int_skip by (rewrite ?zlen_put32; lia). rewrite int_words_any by (rewrite zlen_prefix; lia). rewrite zn_prefix by lia. reflexivity. }
  clearbody f. split; [exact L|]. split; [exact F|]. split.
  - intros rest FR. assert (FF : text_ok (f ++ rest)) by (apply Forall_app; auto). pose proof (load_cf32_any m (f ++ rest) A FF) as R. cbv zeta in R. rewrite E12 in R.
    specialize (R ltac:(lia)). rewrite zlen_app in R. pose proof (zlen_nonneg rest). replace (_ <? _) with false in R by lia. destruct R as (r' & R & B).
    exists r'. rewrite <- L, drop_app in R. split; [exact R|]. unfold cfL32 in B. rewrite E0, E4, E8, E12 in B. destruct B as (B1 & B2 & B3 & B4 & B5).
    split; [exact B1|]. split; [exact B2|]. split; [exact B3|]. split; [exact B4|]. eapply intsP_ext; [|exact B5]; cbv beta; auto.
  - intros k Hk. pose proof (E12 []) as E24'. rewrite app_nil_r in E24'. apply cut_cf32; auto; rewrite ?E24'; lia.
Qed.
