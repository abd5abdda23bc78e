(** Proofs of the properties of blocks, nodes and trees. *)
From Coq Require Import ZifyBool.
From Verif Require Import Base BaseFacts Mem MemFacts Nodes NodeFacts SearchFacts Trees LevelFacts TreeFacts TreeBuild
  Words WordFacts Blocks BlockFacts Spec SpecIndex Drivers Bitmap Usage BitmapFacts ProgramFacts IndexFacts.
Ltac Zify.zify_post_hook ::= Z.div_mod_to_equations.

(** ** Blocks *)
Lemma nth_firstn_lt (l : list Z) : forall k j, (j < k)%nat -> nth j (firstn k l) 0 = nth j l 0.
Proof.
  induction l as [|a l IH]; intros k j H; [rewrite firstn_nil; reflexivity|].
  destruct k; [lia|]. destruct j; cbn; auto. apply IH. lia.
Qed.
Lemma nth_skipn_add (l : list Z) : forall a j, nth j (skipn a l) 0 = nth (a + j) l 0.
Proof. induction l as [|b l IH]; intros a j; [rewrite skipn_nil; destruct (a + j)%nat, j; reflexivity|]. destruct a; cbn; auto. Qed.

Lemma zn_firstn_skipn (l : list Z) a k j : 0 <= j < k -> 0 <= a -> zn 0 (firstn (Z.to_nat k) (skipn (Z.to_nat a) l)) j = zn 0 l (a + j).
Proof.
  intros Hj Ha. unfold zn. rewrite nth_firstn_lt by lia. rewrite nth_skipn_add. f_equal. lia.
Qed.

Lemma block_words_len b x : block_ok b x ->
  zlen (firstn (Z.to_nat (words_in_block b)) (skipn (Z.to_nat (w_off x)) (w_arr x))) = words_in_block b.
Proof.
  intros (H1 & H2 & H3). assert (0 < words_in_block b) by (destruct b; reflexivity).
  unfold zlen in *. rewrite firstn_length, skipn_length. lia.
Qed.

Lemma block_ok_blk b x : block_ok b x -> blk x (words_in_block b).
Proof. auto. Qed.

Lemma zlen_block_bits b x : block_ok b x -> zlen (block_bits b x) = block_size b.
Proof. intros H. unfold block_bits. rewrite zlen_bits, block_words_len by auto. destruct (block_size_words b) as [-> _]. reflexivity. Qed.

Lemma bbit_block b x t : block_ok b x -> 0 <= t < block_size b -> bbit x t = b2z (bit (block_bits b x) t).
Proof.
  intros H Ht. pose proof (zlen_block_bits b x H) as L. unfold block_bits in *. rewrite zlen_bits in L.
  rewrite bit_words by lia. unfold bbit, wbit, W. destruct (block_size_words b) as [E _].
  rewrite zn_firstn_skipn by (try apply H; lia). reflexivity.
Qed.

Lemma bones_block b x t : block_ok b x -> 0 <= t <= block_size b -> bones x t = ones_before (block_bits b x) t.
Proof.
  intros H Ht. rewrite ones_before_sum by (rewrite zlen_block_bits by auto; auto). apply sumf_ext. intros i Hi. apply bbit_block; auto. lia.
Qed.

Lemma block_rank_spec c rm sm n s x i b :
  (b = B256 rm sm /\ rank256_supported rm = true \/ b = B512 rm sm /\ rank512_supported rm = true \/ b = B64) ->
  n = block_size b -> reachable_statics c b s -> block_ok b x -> 0 <= i < n ->
  exists s', block_rank c b s x i = Ok (rank_spec (block_bits b x) i, s').
Proof.
  intros Hb -> Hr Hx Hi. apply reachable_statics_ok in Hr as [S1 S2]. unfold rank_spec. rewrite <- bones_block by (auto; lia).
  destruct Hb as [[-> Hm]|[[-> Hm]| ->]]; cbn [block_rank].
  - destruct (rank_u256_ok c rm (s_rank s) x i Hm (block_ok_blk _ _ Hx) Hi S1) as (st & E & _). rewrite E. cbn [bind]. eauto.
  - destruct (rank_u512_ok c rm (s_rank s) x i Hm (block_ok_blk _ _ Hx) Hi S1) as (st & E & _). rewrite E. cbn [bind]. eauto.
  - rewrite rank_b64_ok by (auto; apply (block_ok_blk _ _ Hx)). cbn [bind]. eauto.
Qed.

Lemma bsel_block b x k r : block_ok b x -> bsel x (words_in_block b) k r -> is_select (block_bits b x) k r.
Proof.
  intros H (R1 & R2 & R3). destruct (block_size_words b) as [E _].
  split; [rewrite zlen_block_bits by auto; lia|]. rewrite (bbit_block b) in R2 by (auto; lia).
  split; [destruct (bit _ _); [auto|discriminate]|]. rewrite <- bones_block by (auto; lia). auto.
Qed.

Lemma block_select_spec c rm sm s x k b :
  (b = B256 rm sm /\ select256_supported sm = true \/ b = B512 rm sm /\ select512_supported sm = true \/ b = B64) ->
  reachable_statics c b s -> block_ok b x -> 0 <= k < count_true (block_bits b x) ->
  exists p s', block_select c b s x k = Ok (p, s') /\ is_select (block_bits b x) k p /\
    forall q, is_select (block_bits b x) k q -> q = p.
Proof.
  intros Hb Hr Hx Hk. pose proof Hr as Hr'. apply reachable_statics_ok in Hr' as [S1 S2].
  rewrite count_true_all, zlen_block_bits in Hk by auto. rewrite <- bones_block in Hk by (destruct b; auto; cbn; lia).
  cut (exists p s', block_select c b s x k = Ok (p, s') /\ bsel x (words_in_block b) k p).
  { intros (p & s' & E & B). apply bsel_block in B; auto. exists p, s'. split; auto. split; auto. intros q Hq. eapply is_select_unique; eauto. }
  destruct Hb as [[-> Hm]|[[-> Hm]| ->]]; cbn [block_select].
  - destruct (select_u256_ok c sm (s_select s) x k Hm (block_ok_blk _ _ Hx) Hk S2) as (p & st & E & B & _). rewrite E. cbn [bind]. eauto.
  - destruct (select_u512_ok c sm (s_select s) x k Hm (block_ok_blk _ _ Hx) Hk S2) as (p & st & E & B & _). rewrite E. cbn [bind]. eauto.
  - destruct (block_select_ok c B64 s x k eq_refl (reachable_statics_ok _ _ _ Hr) (block_ok_blk _ _ Hx) Hk) as (p & s' & E & B & _). eauto.
Qed.

(** ** Words *)
Lemma wones_word w t : 0 <= t <= 64 -> wones w 0 t = ones_before (bits_of_word w) t.
Proof.
  intros Ht. rewrite ones_before_sum by (rewrite zlen_bits_of_word; lia). apply sumf_ext. intros i Hi. rewrite bit_word by lia. reflexivity.
Qed.

Lemma popcount_word w : popcount w = count_true (bits_of_word w).
Proof. rewrite count_true_all, zlen_bits_of_word, <- wones_word by lia. apply popcount_wones. Qed.

Lemma select_u64_spec c m x k : 0 <= x < 2 ^ 64 -> 0 <= k < count_true (bits_of_word x) ->
  exists p, select_u64 c m x k = Ok p /\ is_select (bits_of_word x) k p /\ forall q, is_select (bits_of_word x) k q -> q = p.
Proof.
  intros Hx Hk. rewrite <- popcount_word in Hk. destruct (select_u64_ok c m x k Hx Hk) as (r & E & (R1 & R2 & R3)).
  assert (S : is_select (bits_of_word x) k r).
  { split; [rewrite zlen_bits_of_word; auto|]. rewrite bit_word by auto. split; auto. rewrite <- wones_word by lia. auto. }
  exists r. split; auto. split; auto. intros q Hq. eapply is_select_unique; eauto.
Qed.

Lemma popcounts_agree c x v : 0 <= x < 2 ^ 64 -> words_ok v ->
  popcount_u64 c PC_broadword x = Ok (count_true (bits_of_word x)) /\
  popcount_u64 c PC_builtin x = Ok (count_true (bits_of_word x)) /\
  popcount_vec v = map (fun w => count_true (bits_of_word w)) v.
Proof.
  intros Hx Hv. rewrite <- popcount_word. split; [apply popcount_u64_broadword; auto|]. split; [reflexivity|].
  rewrite popcount_vec_ok by auto. apply map_ext. intros. apply popcount_word.
Qed.

(** ** Heights *)
Lemma height_exact f n : 1 <= n <= 2 ^ 24 -> let h := tree_height f n in
  1 <= h <= max_height f /\ capacity f (h - 1) < n <= capacity f h.
Proof.
  intros Hn. unfold tree_height. destruct f; cbv zeta; cbn [max_height].
  - destruct (Z.leb_spec n (2 ^ 7)); [cbn; lia|]. destruct (Z.leb_spec n (2 ^ 13)); [cbn; lia|].
    destruct (Z.leb_spec n (2 ^ 19)); [cbn; lia|]. destruct (Z.leb_spec n (2 ^ 24)); cbn; lia.
  - destruct (Z.leb_spec n (2 ^ 9)); [cbn; lia|]. destruct (Z.leb_spec n (2 ^ 17)); [cbn; lia|].
    destruct (Z.leb_spec n (2 ^ 24)); cbn; lia.
Qed.

Lemma height_outside f n : tree_height f 0 = 1 /\ (2 ^ 24 < n -> tree_height f n = 0).
Proof. split; [destruct f; reflexivity|]. intros Hn. unfold tree_height. destruct f; repeat (match goal with |- context [n <=? ?k] => destruct (Z.leb_spec n k) end); lia. Qed.

Lemma build_levels c f H input old mx : 1 <= zlen input <= 2 ^ 24 -> Z.of_nat H = tree_height f (zlen input) ->
  0 <= mx <= 512 -> counters_in mx input -> (c_debug c = true -> counters_in (max_leaf f) input) ->
  exists m, tree_build c f H input old = Ok m /\ load 4 m 0 = Ok 1 /\
    forall k, 0 <= k < Z.of_nat H -> exists q, load 4 m (4 * k) = Ok q /\
      (q - 1) * capacity f (Z.of_nat H - k) < zlen input <= q * capacity f (Z.of_nat H - k).
Proof.
  intros Hn HH Hm Hin HD. set (mx' := if c_debug c then Z.min mx (max_leaf f) else mx).
  assert (ML : 256 <= max_leaf f <= 512) by (destruct f; cbn; lia).
  destruct (tree_build_ok c f H input old mx' 0) as (m & E & T & L & HL); auto.
  - unfold mx'. destruct (c_debug c); lia.
  - intros i Hi. pose proof (counters_zn mx _ ltac:(lia) Hin i). unfold mx'. destruct (c_debug c) eqn:ED; [|lia].
    pose proof (counters_zn (max_leaf f) _ ltac:(lia) (HD eq_refl) i). lia.
  - intros ED. unfold mx'. rewrite ED. change (max_count f) with (max_leaf f). lia.
  - exists m. split; auto. clear T E HD Hin mx'. set (n := zlen input) in *. pose proof (height_cases f H n Hn HH) as C.
    assert (G : forall k, 0 <= k < Z.of_nat H -> let q := zn 0 (nn_of f H n) k in
        (q - 1) * capacity f (Z.of_nat H - k) < n <= q * capacity f (Z.of_nat H - k)).
    { clear HL. intros k Hk. destruct f, H as [|[|[|[|[|H]]]]]; try contradiction;
      assert (D : k = 0 \/ k = 1 \/ k = 2 \/ k = 3) by lia; destruct D as [-> | [-> | [-> | ->]]]; try lia;
      cbn; unfold cdiv; change (Pos.to_nat 1) with 1%nat; change (Pos.to_nat 2) with 2%nat; change (Pos.to_nat 3) with 3%nat; cbn iota; lia. }
    split.
    + rewrite <- (Z.mul_0_r 4). rewrite HL by (destruct f, H; try contradiction; lia). f_equal.
      assert (D : zn 0 (nn_of f H n) 0 = 1).
      { destruct f, H as [|[|[|[|[|H]]]]]; try contradiction; try reflexivity; cbn; unfold cdiv; lia. }
      exact D.
    + intros k Hk. exists (zn 0 (nn_of f H n) k). split; [apply HL; auto|apply G; auto].
Qed.

(** A smaller Height writes before the start of num_nodes_per_level. *)
Lemma step_shape nd m t h nn : 1 <= h <= zlen nn ->
  exists t' nn', lvl_step nd (m, t, h, nn) = Ok (cdiv m (nd_fanout (desc nd)), t', h - 1, nn') /\ zlen nn' = zlen nn.
Proof.
  intros Hh. unfold lvl_step. rewrite seti_ok by lia. cbn [bind]. eexists _, _. split; [reflexivity|]. apply zlen_upd.
Qed.

Lemma step_under nd m t nn : lvl_step nd (m, t, 0, nn) = Ub UB_bounds.
Proof. reflexivity. Qed.

Lemma small_height c f H input old : 1 <= zlen input <= 2 ^ 24 -> 1 <= Z.of_nat H < tree_height f (zlen input) ->
  tree_build c f H input old = Ub UB_bounds.
Proof.
  intros Hn HH. unfold tree_build. rewrite massert_true by lia. cbn [bind]. set (n := zlen input) in *.
  assert (L : levels c f H n = Ub UB_bounds); [|rewrite L; reflexivity].
  clearbody n. clear input old. unfold levels, lvl_step_if.
  assert (HL : Z.of_nat H = zlen (repeat 0 H)) by (unfold zlen; rewrite repeat_length; auto).
  set (h := Z.of_nat H) in *. set (nn := repeat 0 H) in *. clearbody h nn. clear H.
  assert (CC : forall a b, 0 < a -> 0 < b -> cdiv (cdiv n a) b = cdiv n (a * b)) by (intros; apply cdiv_cdiv; lia).
  pose proof (height_exact f n Hn) as HE. cbv zeta in HE. set (th := tree_height f n) in *. clearbody th.
  assert (D : h = 1 \/ h = 2 \/ h = 3) by (destruct f; cbn in HE; lia).
  assert (C1 : capacity f h < n).
  { destruct f; cbn [max_height] in HE; destruct D as [->|[->| ->]]; cbn; destruct HE as [HE1 HE2];
      assert (T : th = 2 \/ th = 3 \/ th = 4) by lia; destruct T as [->|[->| ->]]; cbn in HE2; lia. }
  destruct f.
  - destruct (step_shape A2_128 n 0 h nn ltac:(lia)) as (t1 & n1 & -> & L1). cbn [bind]. change (nd_fanout (desc A2_128)) with 128.
    assert (1 <? cdiv n 128 = true) as -> by (unfold capacity in C1; unfold cdiv; destruct D as [->|[->| ->]]; cbn in C1; lia).
    destruct D as [->|D]; [rewrite step_under; reflexivity|].
    destruct (step_shape A2_64 (cdiv n 128) t1 (h - 1) n1 ltac:(lia)) as (t2 & n2 & -> & L2). cbn [bind]. change (nd_fanout (desc A2_64)) with 64.
    rewrite CC by lia. change (128 * 64) with 8192.
    assert (1 <? cdiv n 8192 = true) as -> by (unfold cdiv; destruct D as [->| ->]; cbn in C1; lia).
    destruct D as [->|D]; [rewrite step_under; reflexivity|].
    destruct (step_shape A2_64 (cdiv n 8192) t2 (h - 1 - 1) n2 ltac:(lia)) as (t3 & n3 & -> & L3). cbn [bind]. change (nd_fanout (desc A2_64)) with 64.
    rewrite CC by lia. change (8192 * 64) with 524288.
    assert (1 <? cdiv n 524288 = true) as -> by (unfold cdiv; rewrite D in C1; cbn in C1; lia).
    rewrite D. rewrite step_under. reflexivity.
  - destruct (step_shape A5_512 n 0 h nn ltac:(lia)) as (t1 & n1 & -> & L1). cbn [bind]. change (nd_fanout (desc A5_512)) with 512.
    assert (1 <? cdiv n 512 = true) as -> by (unfold cdiv; destruct D as [->|[->| ->]]; cbn in C1; lia).
    destruct D as [->|D]; [rewrite step_under; reflexivity|].
    destruct (step_shape A5_256 (cdiv n 512) t1 (h - 1) n1 ltac:(lia)) as (t2 & n2 & -> & L2). cbn [bind]. change (nd_fanout (desc A5_256)) with 256.
    rewrite CC by lia. change (512 * 256) with 131072.
    assert (1 <? cdiv n 131072 = true) as -> by (unfold cdiv; destruct D as [->| ->]; cbn in C1; lia).
    destruct D as [->|D]; [rewrite step_under; reflexivity|]. cbn [max_height] in HE. lia.
Qed.

(** ** Space *)
Lemma total_index_bytes f H n : 1 <= n <= 2 ^ 24 -> Z.of_nat H = tree_height f n -> total_of f H n = index_bytes f n.
Proof.
  intros Hn HH. pose proof (height_cases f H n Hn HH) as C. unfold index_bytes. rewrite <- HH.
  rewrite Nat2Z.id. clear HH.
  assert (NF : forall g k x y z, capacity g k = x -> node_bytes_at g k = y -> nodes_at g n k * node_bytes_at g k + z = (n + x - 1) / x * y + z)
    by (intros g k x y z <- <-; reflexivity).
  destruct f, H as [|[|[|[|[|H]]]]]; try contradiction; cbn [total_of zrange map fold_right]; unfold cdiv;
    rewrite ?(NF F2 1 128 288), ?(NF F2 (1 + 1) 8192 288), ?(NF F2 (1 + 1 + 1) 524288 288), ?(NF F2 (1 + 1 + 1 + 1) 16777216 160),
      ?(NF F5 1 512 1088), ?(NF F5 (1 + 1) 131072 1088), ?(NF F5 (1 + 1 + 1) 16777216 576) by reflexivity; lia.
Qed.

Lemma index_bytes_bound f n : 1 <= n <= 2 ^ 24 -> 0 < index_bytes f n /\ 1000 * index_bytes f n <= 2286 * n + 2764000.
Proof.
  intros Hn. set (H := Z.to_nat (tree_height f n)).
  assert (HH : Z.of_nat H = tree_height f n) by (pose proof (height_exact f n Hn) as E; cbv zeta in E; lia).
  rewrite <- (total_index_bytes f H n) by auto. pose proof (height_cases f H n Hn HH) as C. clear HH. clearbody H.
  destruct f, H as [|[|[|[|[|H]]]]]; try contradiction; cbn [total_of]; unfold cdiv; lia.
Qed.

Lemma bitmap_space c ty addr s input ops : history c ty addr s input ops ->
  exists b outs b' s', new_bitmap c ty addr input = Ok b /\ run c ty (b, s) ops = Ok (outs, (b', s')) /\
    let n := blocks_of (ty_block ty) (zlen input) in
    zlen (b_data b) = index_bytes (ty_fam ty) n /\ zlen (b_data b') = index_bytes (ty_fam ty) n /\
    zlen (b_words b) = words_in_block (ty_block ty) * n /\ zlen (b_words b') = words_in_block (ty_block ty) * n /\
    b_addr b' = addr.
Proof.
  intros (Hu & Hs & Hv & Hsel). destruct (new_bitmap_ok c ty addr input Hu) as (b & E & Ea & Hb).
  apply reachable_statics_ok in Hs. pose proof Hu as (HB & Ha & _).
  destruct (run_ok c ty _ ops b s _ Hb Hs ltac:(rewrite Ea; exact Ha) Hv Hsel) as (outs & b' & s' & Er & Hans & Ea' & Hb' & _).
  exists b, outs, b', s'. split; auto. split; auto. intros n. pose proof (blocks_bound ty input HB) as Hn.
  destruct Hb as (W1 & B1 & Z1). destruct Hb' as (W2 & B2 & Z2). pose proof HB as (_ & _ & _ & _ & HH).
  rewrite Z1, Z2, total_index_bytes by auto. split; auto. split; auto.
  destruct W1 as (_ & _ & W1 & _), W2 as (_ & _ & W2 & _). split; [exact W1|]. split; [exact W2|]. congruence.
Qed.

(** ** Counters beyond the ones in use *)
Lemma psum_agree A1 A2 k i : firstn (Z.to_nat k) A1 = firstn (Z.to_nat k) A2 -> i <= k -> psum A1 i = psum A2 i.
Proof.
  intros E Hi. unfold psum. replace (Z.to_nat i) with (Nat.min (Z.to_nat i) (Z.to_nat k)) by lia.
  rewrite <- !firstn_firstn, E. reflexivity.
Qed.

Lemma prefix_zn A1 A2 k i : firstn (Z.to_nat k) A1 = firstn (Z.to_nat k) A2 -> 0 <= i < k -> zn 0 A1 i = zn 0 A2 i.
Proof.
  intros E Hi. unfold zn. rewrite <- (nth_firstn_lt A1 (Z.to_nat k)) by lia. rewrite E. apply nth_firstn_lt. lia.
Qed.

Lemma firstn_upd (A : list Z) k i v : 0 <= i < k -> firstn (Z.to_nat k) (upd A i v) = upd (firstn (Z.to_nat k) A) i v.
Proof.
  intros Hi. unfold upd. set (a := Z.to_nat i). assert (a < Z.to_nat k)%nat by lia. clearbody a. set (b := Z.to_nat k) in *. clearbody b. clear Hi i k.
  revert a b H. induction A as [|x A IH]; intros a b H.
  - rewrite firstn_nil. destruct a; rewrite ?firstn_nil; reflexivity.
  - destruct b; [lia|]. destruct a; [reflexivity|]. cbn. f_equal. apply IH. lia.
Qed.

Lemma prefix_after A1 A2 k o : firstn (Z.to_nat k) A1 = firstn (Z.to_nat k) A2 ->
  (match o with IUpdate i _ => 0 <= i < k | _ => True end) ->
  firstn (Z.to_nat k) (counters_after A1 o) = firstn (Z.to_nat k) (counters_after A2 o).
Proof.
  intros E Hi. destruct o; auto. cbn [counters_after]. rewrite !firstn_upd by auto. rewrite E, (prefix_zn A1 A2 k) by auto. reflexivity.
Qed.

Lemma psum_mono A i j : Forall (fun v => 0 <= v) A -> i <= j -> psum A i <= psum A j.
Proof.
  intros HA Hij. unfold psum. assert (Z.to_nat i <= Z.to_nat j)%nat by lia. clear Hij. set (a := Z.to_nat i) in *. set (b := Z.to_nat j) in *. clearbody a b.
  revert a b H. induction HA as [|x A Hx HA IH]; intros a b H; [rewrite !firstn_nil; lia|].
  assert (P : forall c, 0 <= fold_right Z.add 0 (firstn c A)).
  { intros c. pose proof (IH 0%nat c ltac:(lia)). cbn in H0. lia. }
  destruct a, b; try lia; cbn [firstn fold_right]; [pose proof (P b); lia|]. pose proof (IH a b ltac:(lia)). lia.
Qed.

Lemma search_unique A x i s j t : Forall (fun v => 0 <= v) A -> is_search A x (i, s) -> is_search A x (j, t) -> i = j /\ s = t.
Proof.
  intros HA (H1 & H2 & H3) (K1 & K2 & K3). assert (i = j); [|subst; auto].
  destruct (Z.lt_trichotomy i j) as [L|[E|L]]; auto; [pose proof (psum_mono A (i + 1) j HA ltac:(lia))|pose proof (psum_mono A (j + 1) i HA ltac:(lia))]; lia.
Qed.

Lemma prefix_answers (P : list Z -> Prop) k : (forall A, P A -> Forall (fun v => 0 <= v) A) -> forall ops A1 A2 o1 o2,
  firstn (Z.to_nat k) A1 = firstn (Z.to_nat k) A2 -> k <= zlen A1 -> k <= zlen A2 -> P A1 -> P A2 ->
  iops_below k A1 ops -> iops_valid P A1 ops -> iops_valid P A2 ops -> ianswers_ok A1 ops o1 -> ianswers_ok A2 ops o2 -> o1 = o2.
Proof.
  intros HP. induction ops as [|o ops IH]; intros A1 A2 o1 o2 E L1 L2 P1 P2 HB V1 V2 R1 R2.
  - destruct o1, o2; try contradiction. reflexivity.
  - destruct o1 as [|a1 o1], o2 as [|a2 o2]; try contradiction. cbn [iops_below iops_valid ianswers_ok] in *.
    destruct HB as [B1 B2], V1 as (V1 & Q1 & V1'), V2 as (V2 & Q2 & V2'), R1 as [R1 R1'], R2 as [R2 R2']. f_equal.
    + destruct o as [i|i sg|x], a1, a2; try contradiction; auto; cbn in R1, R2.
      * rewrite R1, R2. f_equal. apply (psum_agree A1 A2 k); auto. lia.
      * destruct R1 as (S1 & S2 & S3), R2 as (T1 & T2 & T3).
        assert (G : forall A i, P A -> psum A i <= x < psum A k -> i < k).
        { intros A j PA Hj. destruct (Z.lt_ge_cases j k); auto. pose proof (psum_mono A k j (HP _ PA) ltac:(lia)). lia. }
        pose proof (psum_agree A1 A2 k k E ltac:(lia)) as EK.
        assert (i < k) by (apply (G A1); auto; lia). assert (i0 < k) by (apply (G A2); auto; lia).
        rewrite <- (psum_agree A1 A2 k i0 E) in T2 by lia. rewrite <- (psum_agree A1 A2 k (i0 + 1) E) in T3 by lia.
        destruct (search_unique A1 x i s i0 s0) as [-> ->]; auto; (split; [lia|]); auto.
    + assert (ZL : forall A, zlen (counters_after A o) = zlen A) by (intros; destruct o; auto; apply zlen_upd).
      apply (IH (counters_after A1 o) (counters_after A2 o)); auto; rewrite ?ZL; auto.
      apply prefix_after; auto. destruct o; auto.
Qed.

Lemma node_stale c base n p m A1 A2 k ops : node_place_ok c base n p m -> node_fits c n A1 -> node_fits c n A2 ->
  0 <= k <= nd_fanout (desc n) -> firstn (Z.to_nat k) A1 = firstn (Z.to_nat k) A2 ->
  iops_below k A1 ops -> iops_valid (node_fits c n) A1 ops -> iops_valid (node_fits c n) A2 ops ->
  exists outs m1 m2, node_program c base n p m A1 ops = Ok (outs, m1) /\ node_program c base n p m A2 ops = Ok (outs, m2).
Proof.
  intros Hp F1 F2 Hk E HB V1 V2.
  destruct (node_program_ok c base n p m A1 ops Hp F1 V1) as (o1 & m1 & E1 & R1 & _).
  destruct (node_program_ok c base n p m A2 ops Hp F2 V2) as (o2 & m2 & E2 & R2 & _).
  exists o1, m1, m2. split; auto. rewrite E2. do 2 f_equal. symmetry.
  eapply (prefix_answers (node_fits c n) k); eauto.
  - intros A (_ & H & _). auto.
  - rewrite (proj1 F1). lia.
  - rewrite (proj1 F2). lia.
Qed.

(** ** Statements as the property files use them *)
Lemma rank_256 c rm sm s x i : rank256_supported rm = true -> reachable_statics c (B256 rm sm) s -> block_ok (B256 rm sm) x -> 0 <= i < 256 ->
  exists s', block_rank c (B256 rm sm) s x i = Ok (rank_spec (block_bits (B256 rm sm) x) i, s').
Proof. intros. eapply (block_rank_spec c rm sm 256); eauto. Qed.
Lemma rank_512 c rm sm s x i : rank512_supported rm = true -> reachable_statics c (B512 rm sm) s -> block_ok (B512 rm sm) x -> 0 <= i < 512 ->
  exists s', block_rank c (B512 rm sm) s x i = Ok (rank_spec (block_bits (B512 rm sm) x) i, s').
Proof. intros. eapply (block_rank_spec c rm sm 512); eauto. Qed.
Lemma rank_64 c s x i : block_ok B64 x -> 0 <= i < 64 -> exists s', block_rank c B64 s x i = Ok (rank_spec (block_bits B64 x) i, s').
Proof.
  intros Hx Hi. unfold rank_spec. rewrite <- bones_block by (auto; cbn; lia). cbn [block_rank].
  rewrite rank_b64_ok by (auto; apply (block_ok_blk _ _ Hx)). cbn [bind]. eauto.
Qed.
Lemma select_256 c rm sm s x k : select256_supported sm = true -> reachable_statics c (B256 rm sm) s -> block_ok (B256 rm sm) x ->
  0 <= k < count_true (block_bits (B256 rm sm) x) ->
  exists p s', block_select c (B256 rm sm) s x k = Ok (p, s') /\ is_select (block_bits (B256 rm sm) x) k p /\
    forall q, is_select (block_bits (B256 rm sm) x) k q -> q = p.
Proof. intros. eapply (block_select_spec c rm sm); eauto. Qed.
Lemma select_512 c rm sm s x k : select512_supported sm = true -> reachable_statics c (B512 rm sm) s -> block_ok (B512 rm sm) x ->
  0 <= k < count_true (block_bits (B512 rm sm) x) ->
  exists p s', block_select c (B512 rm sm) s x k = Ok (p, s') /\ is_select (block_bits (B512 rm sm) x) k p /\
    forall q, is_select (block_bits (B512 rm sm) x) k q -> q = p.
Proof. intros. eapply (block_select_spec c rm sm); eauto. Qed.
Lemma select_64 c s x k : reachable_statics c B64 s -> block_ok B64 x ->
  0 <= k < count_true (block_bits B64 x) ->
  exists p s', block_select c B64 s x k = Ok (p, s') /\ is_select (block_bits B64 x) k p /\
    forall q, is_select (block_bits B64 x) k q -> q = p.
Proof. intros. eapply (block_select_spec c RM_broadword_loop SM_pdep); eauto. Qed.

(** Where build writes, whatever the counters. *)
Lemma foldM_in {S A} (P : S -> S -> Prop) (f : S -> A -> res S) : (forall s, P s s) -> (forall a b c, P a b -> P b c -> P a c) ->
  forall l, (forall s a s', In a l -> f s a = Ok s' -> P s s') -> forall s s', foldM f l s = Ok s' -> P s s'.
Proof.
  intros HR HT. induction l as [|a l IH]; cbn [foldM]; intros Hf s s' H; [inversion H; subst; auto|].
  apply bind_inv in H. destruct H as (s1 & H1 & H2). apply (HT s s1 s'); [eapply Hf; eauto; left; auto|].
  eapply IH; eauto. intros. eapply Hf; eauto. right; auto.
Qed.

Definition above (lo : Z) (m m' : list Z) : Prop := frame m m' lo (zlen m).
Lemma above_refl lo m : above lo m m.
Proof. apply frame_refl. Qed.
Lemma above_trans lo a b d : above lo a b -> above lo b d -> above lo a d.
Proof. unfold above. intros F G. rewrite (proj1 F) in G. eapply frame_trans; eauto. Qed.

Lemma store_above lo n m off v m' : 0 <= lo <= off -> store n m off v = Ok m' -> above lo m m'.
Proof.
  unfold store. destruct (in_bounds m off (Z.of_nat n)) eqn:E; intros Ho H; inversion H. unfold in_bounds in E.
  eapply frame_weaken; [apply frame_wr; lia|lia|lia].
Qed.
Lemma storeu_above lo w m off v m' : 0 <= lo <= off -> storeu w m off v = Ok m' -> above lo m m'.
Proof.
  unfold storeu. destruct (in_bounds m off (Z.of_nat (w * length v))) eqn:E; intros Ho H; inversion H. unfold in_bounds in E.
  eapply frame_weaken; [apply frame_wrv; unfold zlen in *; lia|lia|unfold zlen in *; lia].
Qed.

Lemma build_node_above d input m out m' : wf_desc d -> 0 <= out -> build_node d input m out = Ok m' -> above out m m'.
Proof.
  intros W Ho. unfold build_node. intros H. apply bind_inv in H as (m1 & H1 & H). apply bind_inv in H as (m2 & H2 & H).
  apply (storeu_above out) in H1; [|lia]. apply (store_above out) in H2; [|unfold sm_addr; lia].
  pose proof (wf_seg _ W) as WS. pose proof (wf_nseg _ W) as WN.
  assert (KY : forall k, 0 <= k -> out <= ky_addr d out k) by (intros; unfold ky_addr; nia).
  assert (SM : forall k, 0 <= k -> out <= sm_addr d out k) by (intros; unfold sm_addr; nia).
  eapply above_trans; [exact H1|]. eapply above_trans; [exact H2|]. clear H1 H2.
  eapply (foldM_in (above out)); [apply above_refl|apply above_trans| |exact H]. clear m m1 m2 m' H.
  intros m i m' Hi H. apply in_zrange in Hi. assert (0 <= i * nd_seg d) as HB by nia.
  apply bind_inv in H as (v & _ & H). apply bind_inv in H as (m1 & H1 & H). apply bind_inv in H as (m2 & H2 & H).
  apply (store_above out) in H1; [|split; auto].
  eapply above_trans; [exact H1|]. apply (above_trans _ _ m2).
  - eapply (foldM_in (above out)); [apply above_refl|apply above_trans| |exact H2].
    intros q j q' Hj HE. apply in_zrange in Hj. apply bind_inv in HE as (? & _ & HE). apply bind_inv in HE as (? & _ & HE).
    apply (store_above out) in HE; auto. split; auto. apply KY. lia.
  - destruct (i + 1 <? nd_nseg d); [|inversion H; apply above_refl].
    apply bind_inv in H as (? & _ & H). apply bind_inv in H as (? & _ & H). apply (store_above out) in H; auto. split; auto. apply SM. lia.
Qed.

Lemma build_leaves_above c n maxv input nodes b m m' : 0 <= b -> build_leaves c n maxv input nodes b m = Ok m' -> above b m m'.
Proof.
  intros Hb. unfold build_leaves. intros H. apply bind_inv in H as ([tmp m1] & H & E). inversion E; subst m1. clear E.
  apply (foldM_in (fun x y : list Z * list Z => above b (snd x) (snd y))) in H; auto.
  - intros. apply above_refl.
  - intros x y z. apply above_trans.
  - clear H. intros [t q] i [t' q'] Hi H. apply in_zrange in Hi. apply bind_inv in H as (? & _ & H). apply bind_inv in H as (q2 & H & E).
    inversion E; subst. cbn [snd]. pose proof (desc_wf n) as W. pose proof (sm_bytes _ W) as SB.
    assert (0 <= i * nd_bytes (desc n)) by nia.
    apply build_node_above in H; auto; [|lia]. eapply frame_weaken; [exact H|lia|lia].
Qed.

Lemma inner_level_none n nn input h b st m : 0 <= h < zlen nn -> zn 0 nn h = 0 ->
  inner_level n nn input (h + 1, b, st, m) = Ok (h, b, st * nd_fanout (desc n), m).
Proof.
  intros Hh E. unfold inner_level. replace (0 <? h + 1) with true by lia. replace (h + 1 - 1) with h by lia.
  rewrite geti_ok by auto. rewrite E. cbn [bind]. change (Z.to_nat 0) with 0%nat. cbn [zrange]. unfold build_inner. cbn [foldM zrange Z.to_nat bind].
  rewrite Z.mul_0_l, Z.sub_0_r. reflexivity.
Qed.

(** One leaf under a tree type with more levels: the leaf is looked for past the
    end of the buffer. *)
Lemma node_sum_out c n m p i v : node_sum c n m p i = Ok v -> ky_addr (desc n) p i + Z.of_nat (nd_kb (desc n)) <= zlen m.
Proof.
  unfold node_sum, load_ky, load. intros H. apply bind_inv in H as (u & _ & H). apply bind_inv in H as (s & _ & H).
  apply bind_inv in H as (k & H & _). destruct (in_bounds _ _ _) eqn:E; [|discriminate]. unfold in_bounds in E. lia.
Qed.

Definition leaf_of (f : fam) : node := match f with F2 => A2_128 | F5 => A5_512 end.

Definition shifted (d : nat) (st : lvl_state) : lvl_state :=
  let '(m, total, h, nn) := st in (m, total, h + Z.of_nat d, repeat 0 d ++ nn).

Lemma upd_shift d : forall (nn : list Z) i v, 0 <= i -> upd (repeat 0 d ++ nn) (i + Z.of_nat d) v = repeat 0 d ++ upd nn i v.
Proof.
  unfold upd. intros nn i v Hi. replace (Z.to_nat (i + Z.of_nat d)) with (d + Z.to_nat i)%nat by lia.
  induction d as [|d IH]; [reflexivity|]. cbn [repeat app Nat.add upd_nat]. f_equal. exact IH.
Qed.

Lemma lvl_step_shift d n st st' : lvl_step n st = Ok st' -> lvl_step n (shifted d st) = Ok (shifted d st').
Proof.
  destruct st as [[[m t] h] nn]. unfold lvl_step, shifted. intros E. apply bind_inv in E as (nn' & E & E'). inversion E'; subst. clear E'.
  unfold seti in *. destruct ((0 <=? h - 1) && (h - 1 <? zlen nn)) eqn:Hb; [|discriminate]. inversion E; subst.
  assert (L : zlen (repeat 0 d ++ nn) = Z.of_nat d + zlen nn) by (rewrite zlen_app; unfold zlen; rewrite repeat_length; lia).
  replace ((0 <=? h + Z.of_nat d - 1) && (h + Z.of_nat d - 1 <? zlen (repeat 0 d ++ nn))) with true by lia. cbn [bind].
  replace (h + Z.of_nat d - 1) with (h - 1 + Z.of_nat d) by lia. rewrite upd_shift by lia. reflexivity.
Qed.
Lemma lvl_step_if_shift d n st st' : lvl_step_if n st = Ok st' -> lvl_step_if n (shifted d st) = Ok (shifted d st').
Proof.
  destruct st as [[[m t] h] nn]. unfold lvl_step_if. intros E. cbn [shifted]. destruct (1 <? m).
  - apply (lvl_step_shift d) in E. exact E.
  - inversion E; subst. reflexivity.
Qed.

Lemma levels_shift c f H d n m t h nn : levels c f H n = Ok (m, t, h, nn) ->
  levels c f (d + H) n = Ok (m, u64 (t + 4 * Z.of_nat d), h + Z.of_nat d, repeat 0 d ++ nn).
Proof.
  unfold levels. intros E. apply bind_inv in E as ([[[m1 t1] h1] nn1] & E & E2). apply bind_inv in E2 as (u & E3 & E2). inversion E2; subst. clear E2.
  assert (I : (n, 0, Z.of_nat (d + H), repeat 0 (d + H)) = shifted d (n, 0, Z.of_nat H, repeat 0 H)).
  { unfold shifted. rewrite repeat_app. f_equal. f_equal. lia. }
  rewrite I. clear I.
  assert (K : match f with
     | F2 => let* st := lvl_step A2_128 (shifted d (n, 0, Z.of_nat H, repeat 0 H)) in let* st := lvl_step_if A2_64 st in let* st := lvl_step_if A2_64 st in lvl_step_if A2_32 st
     | F5 => let* st := lvl_step A5_512 (shifted d (n, 0, Z.of_nat H, repeat 0 H)) in let* st := lvl_step_if A5_256 st in lvl_step_if A5_128 st end
     = Ok (shifted d (m, t1, h, nn))).
  { destruct f.
    - apply bind_inv in E as (s1 & E1 & E). apply bind_inv in E as (s2 & E4 & E). apply bind_inv in E as (s5 & E5 & E).
      rewrite (lvl_step_shift d _ _ _ E1). cbn [bind]. rewrite (lvl_step_if_shift d _ _ _ E4). cbn [bind]. rewrite (lvl_step_if_shift d _ _ _ E5). cbn [bind].
      apply lvl_step_if_shift. exact E.
    - apply bind_inv in E as (s1 & E1 & E). apply bind_inv in E as (s2 & E4 & E).
      rewrite (lvl_step_shift d _ _ _ E1). cbn [bind]. rewrite (lvl_step_if_shift d _ _ _ E4). cbn [bind]. apply lvl_step_if_shift. exact E. }
  rewrite K. cbn [bind shifted]. rewrite E3. cbn [bind]. do 4 f_equal. unfold wrap. rewrite Zplus_mod_idemp_l. f_equal. lia.
Qed.

Lemma build_inner_above n step input nodes b m m' : 0 <= b -> build_inner n step input nodes b m = Ok m' -> above b m m'.
Proof.
  intros Hb H. unfold build_inner in H. apply (foldM_in (above b)) in H; auto.
  - intros. apply above_refl.
  - intros x y z. apply above_trans.
  - clear H. intros q i q' Hi H. apply in_zrange in Hi. apply bind_inv in H as (? & _ & H). pose proof (desc_wf n) as W. pose proof (sm_bytes _ W) as SB.
    assert (0 <= i * nd_bytes (desc n)) by nia. apply build_node_above in H; auto; [|lia]. eapply frame_weaken; [exact H|lia|lia].
Qed.

(** Writing a level: where it starts, and what it leaves alone. *)
Lemma above_weaken lo lo' m m' : lo' <= lo -> above lo m m' -> above lo' m m'.
Proof. unfold above. intros L F. eapply frame_weaken; [exact F|lia|lia]. Qed.

Lemma inner_level_above n nn input h b st m h' b' st' m' :
  inner_level n nn input (h, b, st, m) = Ok (h', b', st', m') ->
  h' = (if 0 <? h then h - 1 else h) /\ b' = (if 0 <? h then b - zn 0 nn (h - 1) * nd_bytes (desc n) else b) /\
  (0 <= b' -> above b' m m').
Proof.
  intros E. unfold inner_level in E. destruct (0 <? h).
  - apply bind_inv in E as (nodes & G & E). apply bind_inv in E as (m1 & E1 & E). inversion E; subst. clear E.
    unfold geti in G. destruct (_ && _); inversion G; subst. split; [reflexivity|]. split; [reflexivity|]. intros Hb. eapply build_inner_above; eauto.
  - inversion E; subst. split; [reflexivity|]. split; [reflexivity|]. intros. apply above_refl.
Qed.

Ltac lvl_nums :=
  cbn [repeat app nn_of total_of Nat.add Z.of_nat Pos.of_succ_nat Pos.succ] in *;
  change (nd_bytes (desc A2_128)) with 288 in *; change (nd_bytes (desc A2_64)) with 288 in *; change (nd_bytes (desc A2_32)) with 160 in *;
  change (nd_bytes (desc A5_512)) with 1088 in *; change (nd_bytes (desc A5_256)) with 1088 in *; change (nd_bytes (desc A5_128)) with 576 in *;
  repeat match goal with H : ?h = (if 0 <? ?x then _ else _) |- _ =>
    let v := eval vm_compute in (0 <? x) in match v with true => idtac | false => idtac end; change (0 <? x) with v in H; cbv iota in H; subst h end;
  repeat match goal with
    | H : context [zn 0 ?l ?k] |- _ => let v := eval cbv [zn nth Z.to_nat Z.sub Z.add Z.opp Z.pos_sub Z.succ_double Z.double Z.pred_double Pos.pred_double Pos.to_nat Pos.iter_op Nat.add] in (zn 0 l k) in
      change (zn 0 l k) with v in * end.

Lemma build_taller c f H d input old m : 1 <= zlen input <= 2 ^ 24 -> Z.of_nat H = tree_height f (zlen input) -> Z.of_nat (d + H) <= max_height f ->
  tree_build c f (d + H) input old = Ok m ->
  zlen m = total_of f H (zlen input) + 4 * Z.of_nat d /\
  forall i, 0 <= i < Z.of_nat (d + H) -> load 4 m (4 * i) = Ok (zn 0 (repeat 0 d ++ nn_of f H (zlen input)) i).
Proof.
  intros Hn HH HM E. unfold tree_build in E. apply bind_inv in E as (u & _ & E).
  rewrite (levels_shift c f H d _ _ _ _ _ (levels_ok c f H _ Hn HH)) in E. cbn [bind] in E.
  pose proof (height_cases f H _ Hn HH) as HC. pose proof (nn_of_ok f H (zlen input) Hn) as NO.
  set (n := zlen input) in *. set (nn := repeat 0 d ++ nn_of f H n) in *.
  assert (W : forall k, 1 < k -> 0 <= cdiv n k < 2 ^ 24) by (intros; unfold cdiv; split; [apply Z.div_pos; lia|]; apply Z.div_lt_upper_bound; nia).
  pose proof (W 128 ltac:(lia)) as W1. pose proof (W 8192 ltac:(lia)) as W2. pose proof (W 524288 ltac:(lia)) as W3.
  pose proof (W 512 ltac:(lia)) as W4. pose proof (W 131072 ltac:(lia)) as W5. clear W.
  assert (LN0 : zlen (nn_of f H n) = Z.of_nat H).
  { destruct f, H as [|[|[|[|[|H]]]]]; try contradiction; reflexivity. }
  assert (LN : Z.of_nat (d + H) = zlen nn) by (unfold nn; rewrite zlen_app, LN0; unfold zlen; rewrite repeat_length; lia).
  assert (TT : 4 * Z.of_nat H <= total_of f H n <= 2 ^ 40).
  { clear - HC W1 W2 W3 W4 W5 Hn. destruct f, H as [|[|[|[|[|H]]]]]; try contradiction; cbn [total_of Z.of_nat Pos.of_succ_nat Pos.succ]; lia. }
  assert (H1 : 1 <= Z.of_nat H) by (clear - HC; destruct f, H as [|[|[|[|[|H]]]]]; try contradiction; lia).
  assert (HD : Z.of_nat d <= 4) by (destruct f; cbn [max_height] in HM; lia).
  rewrite wrap_small in E by lia. set (total := total_of f H n + 4 * Z.of_nat d) in *.
  assert (LR : zlen (resize old total) = total) by (apply zlen_resize; lia).
  assert (NN : forall i, 0 <= i < zlen nn -> 0 <= zn 0 nn i < 2 ^ 32).
  { intros i Hi. unfold nn. destruct (Z_lt_le_dec i (Z.of_nat d)) as [L|G].
    - rewrite zn_app_l by (unfold zlen; rewrite repeat_length; lia). unfold zn. rewrite nth_repeat. lia.
    - rewrite zn_app_r by (unfold zlen; rewrite repeat_length; lia). apply NO. unfold zlen at 1 2. rewrite repeat_length. rewrite LN0. lia. }
  assert (NN0 : forall i, 0 <= zn 0 nn i).
  { intros i. unfold zn. destruct (Nat.lt_ge_cases (Z.to_nat i) (length nn)) as [L|G]; [|rewrite nth_overflow by exact G; lia].
    specialize (NN (Z.of_nat (Z.to_nat i)) ltac:(unfold zlen; lia)). unfold zn in NN. rewrite Nat2Z.id in NN. lia. }
  destruct (store_nn_ok nn (d + H) (resize old total) LN ltac:(lia) NN) as (m0 & E0 & L0 & R0).
  rewrite E0 in E. cbn [bind] in E. rewrite LR in L0. rewrite geti_ok in E by lia. cbn [bind] in E.
  assert (G : above (4 * Z.of_nat (d + H)) m0 m).
  { clear - E HC HM LN NN0 HH W1 W2 W3 W4 W5. unfold total in E. clear total. unfold nn in *. clear nn.
    destruct f; apply bind_inv in E as ([[[h' b'] s'] m'] & E & EM); apply bind_inv in EM as (? & _ & EM); inversion EM; subst m'; clear EM;
      apply bind_inv in E as (m1 & E1 & E).
    - apply bind_inv in E as ([[[h2 b2] s2] m2] & E2 & E). apply bind_inv in E as ([[[h3 b3] s3] m3] & E3 & E4).
      apply inner_level_above in E2 as (Hh2 & Hb2 & A2). apply inner_level_above in E3 as (Hh3 & Hb3 & A3). apply inner_level_above in E4 as (Hh4 & Hb4 & A4).
      cbn [max_height] in HM.
      destruct H as [|[|[|[|[|H]]]]]; try contradiction; destruct d as [|[|[|[|d]]]]; try (exfalso; clear - HM; lia); clear HM HH; lvl_nums;
      (apply above_trans with m1; [apply build_leaves_above in E1; [eapply above_weaken; [|exact E1]; lia|lia]|];
       apply above_trans with m2; [eapply above_weaken; [|apply A2]; lia|];
       apply above_trans with m3; [eapply above_weaken; [|apply A3]; lia|]; eapply above_weaken; [|apply A4]; lia).
    - apply bind_inv in E as ([[[h2 b2] s2] m2] & E2 & E4).
      apply inner_level_above in E2 as (Hh2 & Hb2 & A2). apply inner_level_above in E4 as (Hh4 & Hb4 & A4).
      cbn [max_height] in HM.
      destruct H as [|[|[|[|[|H]]]]]; try contradiction; destruct d as [|[|[|[|d]]]]; try (exfalso; clear - HM; lia); clear HM HH; lvl_nums;
      (apply above_trans with m1; [apply build_leaves_above in E1; [eapply above_weaken; [|exact E1]; lia|lia]|];
       apply above_trans with m2; [eapply above_weaken; [|apply A2]; lia|]; eapply above_weaken; [|apply A4]; lia). }
  pose proof (proj1 G) as GL. split; [lia|]. intros i Hi. rewrite load_ok by lia. f_equal. rewrite <- R0 by lia.
  eapply frame_rd; [exact G|lia|]. left. cbn [Z.of_nat]. lia.
Qed.
Lemma cdiv_succ i k : 0 <= i -> 1 <= k -> cdiv (i + 1) k = i / k + 1.
Proof. intros. unfold cdiv. replace (i + 1 + k - 1) with (i + 1 * k) by lia. apply Z.div_add. lia. Qed.

Ltac fin_out Lm ER :=
  unfold ky_addr in ER; rewrite Lm in ER;
  change (nd_bytes (desc A2_128)) with 288 in ER; change (nd_bytes (desc A2_64)) with 288 in ER; change (nd_bytes (desc A2_32)) with 160 in ER;
  change (nd_bytes (desc A5_512)) with 1088 in ER; change (nd_bytes (desc A5_256)) with 1088 in ER; change (nd_bytes (desc A5_128)) with 576 in ER;
  change (nd_nseg (desc A2_128)) with 8 in ER; change (nd_nseg (desc A5_512)) with 16 in ER;
  change (Z.of_nat (nd_sb (desc A2_128))) with 4 in ER; change (Z.of_nat (nd_sb (desc A5_512))) with 4 in ER;
  change (Z.of_nat (nd_kb (desc A2_128))) with 2 in ER; change (Z.of_nat (nd_kb (desc A5_512))) with 2 in ER;
  rewrite ?cdiv_succ in ER by lia; change (8192) with (128 * 64) in ER;
  repeat match type of ER with context [wrap ?w ?x] => lazymatch x with context [wrap _ _] => fail | _ => rewrite (wrap_small w x) in ER by lia end end; lia.

Lemma taller_height c f H addr old input : 1 <= zlen input <= 2 ^ 24 -> tree_height f (zlen input) < Z.of_nat H <= max_height f ->
  overhang f (Z.of_nat H) <= (zlen input - 1) mod capacity f 1 ->
  forall r, tree_program c f H addr old input [ISum (zlen input - 1)] <> Ok r.
Proof.
  intros Hn HH Hov r E. unfold tree_program in E. apply bind_inv in E as (m & E & ER).
  assert (T1 : 1 <= tree_height f (zlen input)).
  { clear - Hn. unfold tree_height. destruct f; repeat match goal with |- context [?a <=? ?b] => destruct (Z.leb_spec a b) end; lia. }
  assert (exists T, Z.of_nat T = tree_height f (zlen input)) as [T HT] by (exists (Z.to_nat (tree_height f (zlen input))); lia).
  assert (exists d, H = (d + T)%nat) as [d Hd] by (exists (H - T)%nat; clear - HH HT; rewrite <- HT in HH; lia). subst H.
  assert (D0 : (0 < d)%nat) by (clear - HH HT; rewrite <- HT in HH; lia).
  apply build_taller in E as [Lm H0]; auto; try lia.
  cbn [tree_run tree_step] in ER. apply bind_inv in ER as ([o m2] & ER & _). apply bind_inv in ER as (z & ER & _).
  unfold tree_sum in ER. apply bind_inv in ER as (u & _ & ER). clear u.
  pose proof (height_cases f T _ Hn HT) as HC. rewrite <- HT in HH. clear HT T1.
  remember (zlen input - 1) as i eqn:Hi. assert (Hi' : zlen input = i + 1) by lia. rewrite Hi' in *. clear Hi Hi' old.
  destruct f; cbn [max_height overhang] in *; change (capacity F2 1) with 128 in *; change (capacity F5 1) with 512 in *;
    destruct T as [|[|[|[|[|T]]]]]; try contradiction; destruct d as [|[|[|[|d]]]]; try (exfalso; clear - HH D0; lia); clear HH D0;
    cbn [Nat.add v_mem v_ptr tree_view v_size v_nn nn_of total_of repeat app Z.of_nat Pos.of_succ_nat Pos.succ Z.eqb Pos.eqb] in *;
    try rewrite (H0 1) in ER by lia; try rewrite (H0 2) in ER by lia; clear H0;
    repeat match type of ER with context [zn 0 ?l ?k] => let v := eval cbv [zn nth Z.to_nat Pos.to_nat Pos.iter_op Nat.add] in (zn 0 l k) in change (zn 0 l k) with v in ER end;
    cbn [bind] in ER.
  - apply bind_inv in ER as (s1 & _ & ER). apply bind_inv in ER as (s2 & ER & _). apply node_sum_out in ER.
    fin_out Lm ER.
  - apply bind_inv in ER as (s1 & _ & ER). apply bind_inv in ER as (s2 & _ & ER). apply bind_inv in ER as (s3 & ER & _). apply node_sum_out in ER.
    fin_out Lm ER.
  - apply bind_inv in ER as (s1 & _ & ER). apply bind_inv in ER as (s2 & _ & ER). apply bind_inv in ER as (s3 & _ & ER). apply bind_inv in ER as (s4 & ER & _). apply node_sum_out in ER.
    fin_out Lm ER.
  - apply bind_inv in ER as (s1 & _ & ER). apply bind_inv in ER as (s2 & _ & ER). apply bind_inv in ER as (s3 & ER & _). apply node_sum_out in ER.
    fin_out Lm ER.
  - apply bind_inv in ER as (s1 & _ & ER). apply bind_inv in ER as (s2 & _ & ER). apply bind_inv in ER as (s3 & _ & ER). apply bind_inv in ER as (s4 & ER & _). apply node_sum_out in ER.
    fin_out Lm ER.
  - apply bind_inv in ER as (s1 & _ & ER). apply bind_inv in ER as (s2 & _ & ER). apply bind_inv in ER as (s3 & _ & ER). apply bind_inv in ER as (s4 & ER & _). apply node_sum_out in ER.
    fin_out Lm ER.
  - apply bind_inv in ER as (s1 & _ & ER). apply bind_inv in ER as (s2 & ER & _). apply node_sum_out in ER.
    fin_out Lm ER.
  - apply bind_inv in ER as (s1 & _ & ER). apply bind_inv in ER as (s2 & _ & ER). apply bind_inv in ER as (s3 & ER & _). apply node_sum_out in ER.
    fin_out Lm ER.
  - apply bind_inv in ER as (s1 & _ & ER). apply bind_inv in ER as (s2 & _ & ER). apply bind_inv in ER as (s3 & ER & _). apply node_sum_out in ER.
    fin_out Lm ER.
Qed.

Lemma update_past_end c base n p m sign : node_update c base n m p (nd_fanout (desc n)) sign = Ok m.
Proof. apply node_update_fanout. Qed.

Lemma tree_program_bytes c f H addr old input ops mx : 1 <= zlen input <= 2 ^ 24 -> Z.of_nat H = tree_height f (zlen input) ->
  0 <= mx <= 512 -> counters_in mx input -> (c_debug c = true -> counters_in (max_leaf f) input) ->
  (f = F2 -> c_avx2 c = true -> c_trap c = true -> (addr + Z.of_nat H * 4) mod 32 = 0) ->
  iops_valid (counters_in mx) input ops -> isearches_safe c f H input ops ->
  exists outs m, tree_program c f H addr old input ops = Ok (outs, m) /\ ianswers_ok input ops outs /\
    zlen m = index_bytes f (zlen input).
Proof.
  intros. destruct (tree_program_ok c f H addr old input ops mx) as (o & m & E & A & L); auto.
  exists o, m. rewrite <- (total_index_bytes f H) by auto. auto.
Qed.
