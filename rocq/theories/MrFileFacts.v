(** Files of the mranisz structures: what is written and what is read back. *)
From Coq Require Import ZifyBool.
From Verif Require Import Base BaseFacts Mem MemFacts Words WordFacts NodeFacts Trees TreeBuild Spec KernelFacts SpecText SpecFile MrRank MrRankFacts MrRankFacts2 MrSelect MrSelectFacts4 MrSelectFacts5 MrFile.
Ltac Zify.zify_post_hook ::= Z.div_mod_to_equations.

Definition drop (k : Z) (f : list Z) : list Z := skipn (Z.to_nat k) f.
Lemma zlen_drop k f : 0 <= k <= zlen f -> zlen (drop k f) = zlen f - k.
Proof. intros H. unfold drop, zlen in *. rewrite skipn_length. lia. Qed.
Lemma zlen_drop_any k f : 0 <= k -> zlen (drop k f) = Z.max 0 (zlen f - k).
Proof. intros H. unfold drop, zlen in *. rewrite skipn_length. lia. Qed.
Lemma nth_first (d : Z) k : forall l j, (j < k)%nat -> nth j (firstn k l) d = nth j l d.
Proof. induction k; intros l j H; [lia|]. destruct l; [reflexivity|]. destruct j; [reflexivity|]. cbn. apply IHk. lia. Qed.
Lemma nth_skip {A} (d : A) k : forall l j, nth j (skipn k l) d = nth (k + j) l d.
Proof. induction k; intros l j; [reflexivity|]. destruct l; cbn; [destruct j; reflexivity|]. apply IHk. Qed.
Lemma zn_drop k f j : 0 <= k -> 0 <= j -> zn 0 (drop k f) j = zn 0 f (k + j).
Proof.
  intros Hk Hj. unfold zn, drop. replace (j <? 0) with false by lia. replace (k + j <? 0) with false by lia. rewrite nth_skip. f_equal. lia.
Qed.
Lemma drop_drop a b f : 0 <= a -> 0 <= b -> drop b (drop a f) = drop (a + b) f.
Proof. intros. unfold drop. rewrite Z2Nat.inj_add by lia. generalize (Z.to_nat a) as x, (Z.to_nat b) as y. clear. intros x. revert f. induction x; intros f y; [reflexivity|]. destruct f; cbn; [destruct y; reflexivity|]. apply IHx. Qed.

Lemma number_val l : number l = val l.
Proof. unfold number. induction l; cbn [fold_right val]; [reflexivity|]. rewrite IHl. reflexivity. Qed.
Lemma rd_field f k : rd 8 f k = field f k.
Proof. rewrite rd_val. unfold field. symmetry. apply number_val. Qed.
Lemma rd_drop n : forall k f j, 0 <= k -> 0 <= j -> rd n (drop k f) j = rd n f (k + j).
Proof. induction n; intros k f j Hk Hj; [reflexivity|]. cbn [rd]. rewrite zn_drop, IHn by lia. do 3 f_equal. lia. Qed.
Lemma field_bound f k : text_ok f -> 0 <= field f k < 2 ^ 64.
Proof.
  intros H. unfold field. rewrite number_val. pose proof (val_bound (map (zn 0 f) (zrange k 8))) as B.
  assert (BB : bytes (map (zn 0 f) (zrange k 8))).
  { apply Forall_forall. intros x Hx. apply in_map_iff in Hx. destruct Hx as (j & <- & _). apply tbyte. exact H. }
  specialize (B BB). unfold zlen in B. rewrite map_length, length_zrange in B. lia.
Qed.

Lemma get64_at f k : 0 <= k -> get64 (drop k f) = if k + 8 <=? zlen f then Loaded (field f k) (drop (k + 8) f) else Exits.
Proof.
  intros Hk. unfold get64. rewrite zlen_drop_any by lia. replace (8 <=? Z.max 0 (zlen f - k)) with (k + 8 <=? zlen f) by lia.
  destruct (k + 8 <=? zlen f); [|reflexivity]. rewrite rd_drop, rd_field, Z.add_0_r by lia. f_equal. change (skipn 8 (drop k f)) with (drop 8 (drop k f)). apply drop_drop; lia.
Qed.

(** Words as read into an array: [len] from the file, then old memory. *)
Definition wordsP (junk : Z -> Z) (addr len : Z) (src : Z -> Z) (a : list Z) : Prop :=
  zlen a = (if len =? 0 then 0 else len + slack addr) /\ (forall k, 0 <= k < len -> zn 0 a k = src k) /\
  (1 <= len -> forall k, len <= k < len + slack addr -> zn 0 a k = junk k).

Lemma get_words_at junk addr len f k : 0 <= k <= zlen f -> 0 <= len < 2 ^ 64 - 16 -> addr mod 16 = 0 ->
  if k + 8 * len <=? zlen f
  then exists a, get_words junk addr len (drop k f) = Ok (Loaded a (drop (k + 8 * len) f)) /\ wordsP junk addr len (fun j => field f (k + 8 * j)) a
  else get_words junk addr len (drop k f) = Ok Exits.
Proof.
  intros Hk Hl Ha. pose proof (slack_ok addr Ha) as SL. unfold get_words. rewrite zlen_drop by lia. destruct (len >? 0) eqn:E.
  - rewrite (wrap_small 64 (len + 16)) by lia. replace (len + 16 - - addr mod 128 / 8) with (len + slack addr) by (unfold slack; lia).
    replace (Z.min (8 * len) (zlen f - k) >? Z.max 0 (8 * (len + slack addr))) with false by lia. replace (zlen f - k <? 8 * len) with (negb (k + 8 * len <=? zlen f)) by lia.
    destruct (k + 8 * len <=? zlen f) eqn:E2; cbn [negb]; [|reflexivity].
    eexists. split; [f_equal; f_equal; fold (drop (8 * len) (drop k f)); apply drop_drop; lia|].
    assert (LM : zlen (map (fun j => rd 8 (drop k f) (8 * j)) (zrange 0 (Z.to_nat len))) = len) by (rewrite zlen_map; unfold zlen; rewrite length_zrange; lia).
    fold (drop len (fresh junk (len + slack addr))).
    assert (LD : zlen (drop len (fresh junk (len + slack addr))) = slack addr) by (rewrite zlen_drop; rewrite zlen_fresh; lia).
    split; [rewrite zlen_app, LM, LD; replace (len =? 0) with false by lia; reflexivity|]. split.
    + intros j Hj. rewrite zn_app_l by lia. rewrite zn_map_zrange by lia. rewrite rd_drop by lia. apply rd_field.
    + intros _ j Hj. rewrite zn_app_r by lia. rewrite LM, zn_drop by lia. rewrite zn_fresh by lia. f_equal. lia.
  - assert (len = 0) by lia. subst len. replace (k + 8 * 0) with k by lia. replace (k <=? zlen f) with true by lia. exists []. split; [reflexivity|].
    split; [reflexivity|]. split; intros; lia.
Qed.

Definition bytesP (junk : Z -> Z) (addr len : Z) (src : Z -> Z) (a : list Z) : Prop :=
  zlen a = (if len =? 0 then 0 else len + room_of addr) /\ (forall k, 0 <= k < len -> zn 0 a k = src k) /\
  (1 <= len -> forall k, len <= k < len + room_of addr -> zn 0 a k = junk k).

Lemma get_bytes_at junk addr len f k : 0 <= k <= zlen f -> 0 <= len < 2 ^ 64 - 128 ->
  if k + len <=? zlen f
  then exists a, get_bytes junk addr len (drop k f) = Ok (Loaded a (drop (k + len) f)) /\ bytesP junk addr len (fun j => zn 0 f (k + j)) a
  else get_bytes junk addr len (drop k f) = Ok Exits.
Proof.
  intros Hk Hl. pose proof (room_bound addr) as SL. unfold get_bytes. rewrite zlen_drop by lia. destruct (len >? 0) eqn:E.
  - rewrite (wrap_small 64 (len + 128)) by lia. replace (len + 128 - - addr mod 128) with (len + room_of addr) by (unfold room_of; lia).
    replace (Z.min len (zlen f - k) >? Z.max 0 (len + room_of addr)) with false by lia. replace (zlen f - k <? len) with (negb (k + len <=? zlen f)) by lia.
    destruct (k + len <=? zlen f) eqn:E2; cbn [negb]; [|reflexivity].
    eexists. split; [f_equal; f_equal; fold (drop len (drop k f)); apply drop_drop; lia|].
    assert (LM : zlen (firstn (Z.to_nat len) (drop k f)) = len). { pose proof (zlen_drop k f Hk) as ZD. unfold zlen in ZD |- *. rewrite firstn_length. unfold zlen in *. lia. }
    fold (drop len (fresh junk (len + room_of addr))).
    assert (LD : zlen (drop len (fresh junk (len + room_of addr))) = room_of addr) by (rewrite zlen_drop; rewrite zlen_fresh; lia).
    split; [rewrite zlen_app, LM, LD; replace (len =? 0) with false by lia; reflexivity|]. split.
    + intros j Hj. rewrite zn_app_l by lia. transitivity (zn 0 (drop k f) j); [|apply zn_drop; lia]. unfold zn. rewrite nth_first by lia. reflexivity.
    + intros _ j Hj. rewrite zn_app_r by lia. rewrite LM, zn_drop by lia. rewrite zn_fresh by lia. f_equal. lia.
  - assert (len = 0) by lia. subst len. replace (k + 0) with k by lia. replace (k <=? zlen f) with true by lia. exists []. split; [reflexivity|].
    split; [reflexivity|]. split; intros; lia.
Qed.

(** ** Loading any file *)
Definition basicL (m : memory) (f : list Z) (r : rank_basic) : Prop :=
  let a := field f 8 in let b := field f (16 + 8 * a) in
  rb_text_len r = field f 0 /\ rb_ranks_len r = a /\ rb_bits_len r = b /\
  wordsP (m_junk_r m) (m_addr_r m) a (fun j => field f (16 + 8 * j)) (rb_ranks r) /\
  wordsP (m_junk_b m) (m_addr_b m) b (fun j => field f (24 + 8 * a + 8 * j)) (rb_bits r).

Lemma load_basic_any m f : addresses_ok m -> text_ok f -> let a := field f 8 in let b := field f (16 + 8 * a) in a < 2 ^ 64 - 16 -> b < 2 ^ 64 - 16 ->
  if zlen f <? 24 + 8 * a + 8 * b then load_basic m f = Ok Exits
  else exists r, load_basic m f = Ok (Loaded r (drop (24 + 8 * a + 8 * b) f)) /\ basicL m f r.
Proof.
  intros (A1 & A2 & A3 & A4) F a b Ha Hb. pose proof (field_bound f 8 F) as Ba. pose proof (field_bound f (16 + 8 * a) F) as Bb. fold a in Ba. fold b in Bb.
  unfold load_basic. pose proof (get64_at f 0 ltac:(lia)) as G0. change (drop 0 f) with f in G0. rewrite G0. clear G0. change (0 + 8) with 8.
  destruct (8 <=? zlen f) eqn:E1; cbn [andthen]; [|replace (zlen f <? 24 + 8 * a + 8 * b) with true by lia; reflexivity].
  rewrite get64_at by lia. change (8 + 8) with 16. fold a.
  destruct (16 <=? zlen f) eqn:E2; cbn [andthen]; [|replace (zlen f <? 24 + 8 * a + 8 * b) with true by lia; reflexivity].
  pose proof (get_words_at (m_junk_r m) (m_addr_r m) a f 16 ltac:(lia) ltac:(lia) A2) as G1.
  destruct (16 + 8 * a <=? zlen f) eqn:E3; [|rewrite G1; cbn [bind andthen]; replace (zlen f <? 24 + 8 * a + 8 * b) with true by lia; reflexivity].
  destruct G1 as (x & -> & W1). cbn [bind andthen]. rewrite get64_at by lia. fold b.
  destruct (16 + 8 * a + 8 <=? zlen f) eqn:E4; cbn [andthen]; [|replace (zlen f <? 24 + 8 * a + 8 * b) with true by lia; reflexivity].
  pose proof (get_words_at (m_junk_b m) (m_addr_b m) b f (16 + 8 * a + 8) ltac:(lia) ltac:(lia) A4) as G2.
  destruct (16 + 8 * a + 8 + 8 * b <=? zlen f) eqn:E5; [|rewrite G2; cbn [bind andthen]; replace (zlen f <? 24 + 8 * a + 8 * b) with true by lia; reflexivity].
  destruct G2 as (y & -> & W2). cbn [bind andthen]. replace (zlen f <? 24 + 8 * a + 8 * b) with false by lia.
  replace (24 + 8 * a + 8 * b) with (16 + 8 * a + 8 + 8 * b) by lia. eexists. split; [reflexivity|]. unfold basicL. fold a. fold b. cbn [rb_ranks rb_bits rb_ranks_len rb_bits_len rb_text_len].
  split; [reflexivity|]. split; [reflexivity|]. split; [reflexivity|]. split; [exact W1|]. replace (24 + 8 * a) with (16 + 8 * a + 8) by lia. exact W2.
Qed.

Definition cfL (m : memory) (f : list Z) (r : rank_cf) : Prop :=
  let b := field f 24 in
  cf_text_len r = field f 0 /\ cf_border r = field f 8 /\ cf_block_border r = field f 16 /\ cf_bits_len r = b /\
  wordsP (m_junk_b m) (m_addr_b m) b (fun j => field f (32 + 8 * j)) (cf_bits r).

Lemma load_cf_any m f : addresses_ok m -> text_ok f -> let b := field f 24 in b < 2 ^ 64 - 16 ->
  if zlen f <? 32 + 8 * b then load_cf m f = Ok Exits
  else exists r, load_cf m f = Ok (Loaded r (drop (32 + 8 * b) f)) /\ cfL m f r.
Proof.
  intros (A1 & A2 & A3 & A4) F b Hb. pose proof (field_bound f 24 F) as Bb. fold b in Bb.
  unfold load_cf. pose proof (get64_at f 0 ltac:(lia)) as G0. change (drop 0 f) with f in G0. rewrite G0. clear G0. change (0 + 8) with 8.
  destruct (8 <=? zlen f) eqn:E1; cbn [andthen]; [|replace (zlen f <? 32 + 8 * b) with true by lia; reflexivity].
  rewrite get64_at by lia. change (8 + 8) with 16.
  destruct (16 <=? zlen f) eqn:E2; cbn [andthen]; [|replace (zlen f <? 32 + 8 * b) with true by lia; reflexivity].
  rewrite get64_at by lia. change (16 + 8) with 24.
  destruct (24 <=? zlen f) eqn:E3; cbn [andthen]; [|replace (zlen f <? 32 + 8 * b) with true by lia; reflexivity].
  rewrite get64_at by lia. change (24 + 8) with 32. fold b.
  destruct (32 <=? zlen f) eqn:E4; cbn [andthen]; [|replace (zlen f <? 32 + 8 * b) with true by lia; reflexivity].
  pose proof (get_words_at (m_junk_b m) (m_addr_b m) b f 32 ltac:(lia) ltac:(lia) A4) as G2.
  destruct (32 + 8 * b <=? zlen f) eqn:E5; [|rewrite G2; cbn [bind andthen]; replace (zlen f <? 32 + 8 * b) with true by lia; reflexivity].
  destruct G2 as (y & -> & W2). cbn [bind andthen]. replace (zlen f <? 32 + 8 * b) with false by lia.
  eexists. split; [reflexivity|]. unfold cfL. fold b. cbn [cf_bits cf_bits_len cf_text_len cf_border cf_block_border]. auto.
Qed.

Definition selL (m : memory) (f : list Z) (r : select_basic) : Prop :=
  let a := field f 8 in let b := field f (16 + 8 * a) in
  sb_text_len r = field f 0 /\ sb_selects_len r = a /\ sb_bits_len r = b /\
  wordsP (m_junk_r m) (m_addr_r m) a (fun j => field f (16 + 8 * j)) (sb_selects r) /\
  bytesP (m_junk_b m) (m_addr_b m) b (fun j => zn 0 f (24 + 8 * a + j)) (sb_bits r).

Lemma load_sel_any m f : addresses_ok m -> text_ok f -> let a := field f 8 in let b := field f (16 + 8 * a) in a < 2 ^ 64 - 16 -> b < 2 ^ 64 - 128 ->
  if zlen f <? 24 + 8 * a + b then load_sel m f = Ok Exits
  else exists r, load_sel m f = Ok (Loaded r (drop (24 + 8 * a + b) f)) /\ selL m f r.
Proof.
  intros (A1 & A2 & A3 & A4) F a b Ha Hb. pose proof (field_bound f 8 F) as Ba. pose proof (field_bound f (16 + 8 * a) F) as Bb. fold a in Ba. fold b in Bb.
  unfold load_sel. pose proof (get64_at f 0 ltac:(lia)) as G0. change (drop 0 f) with f in G0. rewrite G0. clear G0. change (0 + 8) with 8.
  destruct (8 <=? zlen f) eqn:E1; cbn [andthen]; [|replace (zlen f <? 24 + 8 * a + b) with true by lia; reflexivity].
  rewrite get64_at by lia. change (8 + 8) with 16. fold a.
  destruct (16 <=? zlen f) eqn:E2; cbn [andthen]; [|replace (zlen f <? 24 + 8 * a + b) with true by lia; reflexivity].
  pose proof (get_words_at (m_junk_r m) (m_addr_r m) a f 16 ltac:(lia) ltac:(lia) A2) as G1.
  destruct (16 + 8 * a <=? zlen f) eqn:E3; [|rewrite G1; cbn [bind andthen]; replace (zlen f <? 24 + 8 * a + b) with true by lia; reflexivity].
  destruct G1 as (x & -> & W1). cbn [bind andthen]. rewrite get64_at by lia. fold b.
  destruct (16 + 8 * a + 8 <=? zlen f) eqn:E4; cbn [andthen]; [|replace (zlen f <? 24 + 8 * a + b) with true by lia; reflexivity].
  pose proof (get_bytes_at (m_junk_b m) (m_addr_b m) b f (16 + 8 * a + 8) ltac:(lia) ltac:(lia)) as G2.
  destruct (16 + 8 * a + 8 + b <=? zlen f) eqn:E5; [|rewrite G2; cbn [bind andthen]; replace (zlen f <? 24 + 8 * a + b) with true by lia; reflexivity].
  destruct G2 as (y & -> & W2). cbn [bind andthen]. replace (zlen f <? 24 + 8 * a + b) with false by lia.
  replace (24 + 8 * a + b) with (16 + 8 * a + 8 + b) by lia. eexists. split; [reflexivity|]. unfold selL. fold a. fold b. cbn [sb_selects sb_bits sb_selects_len sb_bits_len sb_text_len].
  split; [reflexivity|]. split; [reflexivity|]. split; [reflexivity|]. split; [exact W1|]. replace (24 + 8 * a) with (16 + 8 * a + 8) by lia. exact W2.
Qed.

(** ** Saved files *)
Lemma zlen_put64 v : zlen (put64 v) = 8.
Proof. reflexivity. Qed.
Lemma put64_le v : 0 <= v -> put64 v = le_bytes 8 v.
Proof. intros Hv. unfold put64. cbn [zrange map le_bytes Z.mul Z.pow]. rewrite !Zdiv.Zdiv_Zdiv by lia. rewrite Z.div_1_r. reflexivity. Qed.
Lemma put64_ok v : text_ok (put64 v).
Proof. unfold put64. apply Forall_forall. intros x Hx. apply in_map_iff in Hx. destruct Hx as (j & <- & _). lia. Qed.

Lemma field_skip l f k : 0 <= k -> field (l ++ f) (zlen l + k) = field f k.
Proof.
  intros Hk. unfold field. f_equal. replace (zlen l + k) with (k + zlen l) by lia. pose proof (zlen_nonneg l).
  assert (G : forall n k, 0 <= k -> map (zn 0 (l ++ f)) (zrange (k + zlen l) n) = map (zn 0 f) (zrange k n)).
  { induction n; intros j Hj; [reflexivity|]. cbn [zrange map]. rewrite zn_app_r by lia. f_equal; [f_equal; lia|]. replace (j + zlen l + 1) with (j + 1 + zlen l) by lia. apply IHn. lia. }
  apply G. lia.
Qed.
Lemma field_put v f : 0 <= v < 2 ^ 64 -> field (put64 v ++ f) 0 = v.
Proof.
  intros Hv. rewrite put64_le by lia. unfold field. rewrite number_val.
  assert (G : forall l n, length l = n -> forall k pre, zlen pre = k -> map (zn 0 (pre ++ l ++ f)) (zrange k n) = l).
  { induction l as [|a l IH]; intros n Hn k pre Hp; subst n; [reflexivity|]. cbn [length zrange map]. pose proof (zlen_nonneg pre). f_equal.
    - rewrite zn_app_r by lia. replace (k - zlen pre) with 0 by lia. reflexivity.
    - replace (pre ++ (a :: l) ++ f) with ((pre ++ [a]) ++ l ++ f) by (rewrite <- app_assoc; reflexivity). apply IH; [reflexivity|]. rewrite zlen_app. change (zlen [a]) with 1. lia. }
  rewrite (G (le_bytes 8 v) 8%nat) with (pre := []) by reflexivity. apply val_le_bytes. exact Hv.
Qed.
Definition in64 (ws : list Z) : Prop := Forall (fun w => 0 <= w < 2 ^ 64) ws.
Lemma zlen_words ws : zlen (flat_map put64 ws) = 8 * zlen ws.
Proof. induction ws; [reflexivity|]. cbn [flat_map]. rewrite zlen_app, zlen_put64, IHws, zlen_cons. lia. Qed.
Lemma field_words ws f : in64 ws -> forall k, 0 <= k < zlen ws -> field (flat_map put64 ws ++ f) (8 * k) = zn 0 ws k.
Proof.
  induction 1 as [|w ws Hw Hws IH]; intros k Hk; [change (zlen (@nil Z)) with 0 in Hk; lia|]. cbn [flat_map]. rewrite <- app_assoc. rewrite zlen_cons in Hk.
  destruct (Z.eq_dec k 0) as [->|NE].
  - rewrite field_put by exact Hw. reflexivity.
  - replace (8 * k) with (zlen (put64 w) + 8 * (k - 1)) by (rewrite zlen_put64; lia). rewrite field_skip by lia. rewrite IH by lia. unfold zn. replace (k <? 0) with false by lia. replace (k - 1 <? 0) with false by lia.
    replace (Z.to_nat k) with (S (Z.to_nat (k - 1))) by lia. reflexivity.
Qed.
Lemma words_file_ok ws : text_ok (flat_map put64 ws).
Proof. induction ws; [constructor|]. cbn [flat_map]. apply Forall_app. split; [apply put64_ok|exact IHws]. Qed.

Definition prefix (a : list Z) (n : Z) : list Z := map (zn 0 a) (zrange 0 (Z.to_nat n)).
Lemma zlen_prefix a n : 0 <= n -> zlen (prefix a n) = n.
Proof. intros. unfold prefix. rewrite zlen_map. unfold zlen. rewrite length_zrange. lia. Qed.
Lemma zn_prefix a n k : 0 <= k < n -> zn 0 (prefix a n) k = zn 0 a k.
Proof. intros. unfold prefix. rewrite zn_map_zrange by lia. reflexivity. Qed.
Lemma out_bytes_ok a n : 0 <= n <= zlen a -> out_bytes a n = Ok (prefix a n).
Proof. intros H. unfold out_bytes. apply mapM_ok. intros k Hk. apply in_zrange in Hk. apply geti_ok. lia. Qed.
Lemma out_words_ok a n : 0 <= n <= zlen a -> out_words a n = Ok (flat_map put64 (prefix a n)).
Proof. intros H. unfold out_words. rewrite (mapM_ok _ (zn 0 a)) by (intros k Hk; apply in_zrange in Hk; apply geti_ok; lia). reflexivity. Qed.

Lemma save_basic_ok r : 0 <= rb_ranks_len r -> rb_ranks_len r <= zlen (rb_ranks r) -> 0 <= rb_bits_len r -> rb_bits_len r <= zlen (rb_bits r) ->
  save_basic r = Ok (put64 (rb_text_len r) ++ put64 (rb_ranks_len r) ++ flat_map put64 (prefix (rb_ranks r) (rb_ranks_len r)) ++
                     put64 (rb_bits_len r) ++ flat_map put64 (prefix (rb_bits r) (rb_bits_len r))).
Proof.
  intros. unfold save_basic. destruct (rb_ranks_len r >? 0) eqn:E1.
  - rewrite out_words_ok by lia. cbn [bind]. destruct (rb_bits_len r >? 0) eqn:E2; [rewrite out_words_ok by lia; reflexivity|]. replace (rb_bits_len r) with 0 by lia. reflexivity.
  - replace (rb_ranks_len r) with 0 by lia. cbn [bind]. destruct (rb_bits_len r >? 0) eqn:E2; [rewrite out_words_ok by lia; reflexivity|]. replace (rb_bits_len r) with 0 by lia. reflexivity.
Qed.
Lemma save_cf_ok r : 0 <= cf_bits_len r -> cf_bits_len r <= zlen (cf_bits r) ->
  save_cf r = Ok (put64 (cf_text_len r) ++ put64 (cf_border r) ++ put64 (cf_block_border r) ++ put64 (cf_bits_len r) ++ flat_map put64 (prefix (cf_bits r) (cf_bits_len r))).
Proof.
  intros. unfold save_cf. destruct (cf_bits_len r >? 0) eqn:E2; [rewrite out_words_ok by lia; reflexivity|]. replace (cf_bits_len r) with 0 by lia. reflexivity.
Qed.
Lemma save_sel_ok r : 0 <= sb_selects_len r -> sb_selects_len r <= zlen (sb_selects r) -> 0 <= sb_bits_len r -> sb_bits_len r <= zlen (sb_bits r) ->
  save_sel r = Ok (put64 (sb_text_len r) ++ put64 (sb_selects_len r) ++ flat_map put64 (prefix (sb_selects r) (sb_selects_len r)) ++
                   put64 (sb_bits_len r) ++ prefix (sb_bits r) (sb_bits_len r)).
Proof.
  intros. unfold save_sel. destruct (sb_selects_len r >? 0) eqn:E1.
  - rewrite out_words_ok by lia. cbn [bind]. destruct (sb_bits_len r >? 0) eqn:E2; [rewrite out_bytes_ok by lia; reflexivity|]. replace (sb_bits_len r) with 0 by lia. reflexivity.
  - replace (sb_selects_len r) with 0 by lia. cbn [bind]. destruct (sb_bits_len r >? 0) eqn:E2; [rewrite out_bytes_ok by lia; reflexivity|]. replace (sb_bits_len r) with 0 by lia. reflexivity.
Qed.
