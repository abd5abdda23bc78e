(** Correctness of building the two segment trees. *)
From Coq Require Import ZifyBool.
From Verif Require Import Base BaseFacts Mem MemFacts Tables Nodes NodeFacts SearchFacts Trees LevelFacts TreeFacts.
Ltac Zify.zify_post_hook ::= Z.div_mod_to_equations.

Lemma massert_if dbg b : (dbg = true -> b = true) -> massert dbg b = Ok tt.
Proof. destruct dbg; intros H; [rewrite H by auto|]; reflexivity. Qed.

Lemma mul_room k nodes B : 0 <= k -> k < nodes -> 0 < B -> 0 <= k * B /\ (k + 1) * B = k * B + B /\ k * B + B <= nodes * B.
Proof. nia. Qed.

(** ** Leaf level *)
Lemma leaf_fill_ok c maxv input base k : forall lo tmp, 0 <= base -> 0 <= lo -> lo + Z.of_nat k <= zlen tmp ->
  (c_debug c = true -> forall i, 0 <= i < zlen input -> zn 0 input i <= maxv) ->
  exists tmp', leaf_fill c maxv input base (zrange lo k) tmp = Ok tmp' /\ zlen tmp' = zlen tmp /\
    forall t, 0 <= t < zlen tmp -> zn 0 tmp' t =
      if (lo <=? t) && (t <? lo + Z.of_nat k) && (base + t <? zlen input) then zn 0 input (base + t) else zn 0 tmp t.
Proof.
  induction k; intros lo tmp Hb Hlo Hl HD.
  - exists tmp. split; [reflexivity|]. split; [reflexivity|]. intros t Ht.
    replace ((lo <=? t) && (t <? lo + Z.of_nat 0)) with false by lia. reflexivity.
  - cbn [zrange leaf_fill]. destruct (Z.ltb_spec (base + lo) (zlen input)) as [L|L].
    + rewrite geti_ok by lia. cbn [bind].
      rewrite massert_if; [|intros D; pose proof (HD D (base + lo) ltac:(lia)); lia].
      cbn [bind]. rewrite seti_ok by lia. cbn [bind].
      destruct (IHk (lo + 1) (upd tmp lo (zn 0 input (base + lo)))) as (tmp' & E & L' & R); rewrite ?zlen_upd in *; auto; try lia.
      exists tmp'. split; [exact E|]. split; [exact L'|]. intros t Ht. rewrite R by lia.
      rewrite zn_upd by lia. destruct (Z.eqb_spec t lo) as [->|].
      * replace (lo + 1 <=? lo) with false by lia. cbn [andb].
        replace (lo <=? lo) with true by lia. replace (lo <? lo + Z.of_nat (S k)) with true by lia.
        replace (base + lo <? zlen input) with true by lia. reflexivity.
      * replace (lo + 1 <=? t) with (lo <=? t) by lia.
        replace (t <? lo + 1 + Z.of_nat k) with (t <? lo + Z.of_nat (S k)) by lia. reflexivity.
    + exists tmp. split; [reflexivity|]. split; [reflexivity|]. intros t Ht.
      destruct (Z.ltb_spec (base + t) (zlen input)).
      * replace (lo <=? t) with false by lia. reflexivity.
      * rewrite andb_false_r. reflexivity.
Qed.

(** Counters as the leaves store them: behind the last one the previous node's
    values remain. *)
Definition leaf_vals (F : Z) (input : list Z) (i : Z) : Z :=
  if i <? 0 then 0 else
  if i <? zlen input then zn 0 input i else if F <=? i then zn 0 input (i - F) else 0.

Lemma zn_bounds mx input : 0 <= mx -> (forall i, 0 <= i < zlen input -> 0 <= zn 0 input i <= mx) -> forall i, 0 <= zn 0 input i <= mx.
Proof.
  intros M H i. destruct (Z.lt_ge_cases i (zlen input)).
  - destruct (Z.lt_ge_cases i 0); [|apply H; lia].
    replace (zn 0 input i) with (zn 0 input 0) by (unfold zn; f_equal; lia).
    destruct (Z.lt_ge_cases 0 (zlen input)); [apply H; lia|].
    rewrite zn_out by lia. lia.
  - rewrite zn_out by lia. lia.
Qed.

Lemma leaf_vals_bound F mx input : 0 <= mx -> (forall i, 0 <= i < zlen input -> 0 <= zn 0 input i <= mx) ->
  forall i, 0 <= leaf_vals F input i <= mx.
Proof.
  intros M H i. pose proof (zn_bounds mx input M H) as B. unfold leaf_vals.
  destruct (i <? 0); [lia|]. destruct (i <? zlen input); [apply B|]. destruct (F <=? i); [apply B|lia].
Qed.

Lemma build_leaves_ok c N maxv mx input nodes b m : 0 <= b -> b + nodes * bytes_of N <= zlen m ->
  0 <= nodes -> (nodes - 1) * fan N < zlen input -> 0 <= mx ->
  (forall i, 0 <= i < zlen input -> 0 <= zn 0 input i <= mx) ->
  (c_debug c = true -> mx <= maxv) ->
  mx * nd_seg (desc N) < 2 ^ kbits (desc N) -> mx * fan N < 2 ^ sbits (desc N) ->
  exists m', build_leaves c N maxv input nodes b m = Ok m' /\
    level_inv N nodes b m' (V_leaf (fan N) (leaf_vals (fan N) input)) /\
    frame m m' b (b + nodes * bytes_of N).
Proof.
  intros Hb Hl Hn Hc Hmx Hin HD B1 B2. unfold build_leaves. pose proof (fan_pos N) as HF. pose proof (bytes_pos N) as HB.
  set (G := leaf_vals (fan N) input).
  assert (GB : forall i, 0 <= G i <= mx) by (apply leaf_vals_bound; auto).
  edestruct (foldM_inv (fun '(tmp, m) i =>
      let* tmp := leaf_fill c maxv input (i * fan N) (zrange 0 (Z.to_nat (fan N))) tmp in
      let* m := build_node (desc N) tmp m (b + i * bytes_of N) in
      Ok (tmp, m))
    (fun k '(tmp, m') => zlen tmp = fan N /\ (forall t, 0 <= t < fan N -> zn 0 tmp t = G ((k - 1) * fan N + t)) /\
       level_inv N k b m' (V_leaf (fan N) G) /\ frame m m' b (b + k * bytes_of N)) (Z.to_nat nodes) 0
     (repeat 0 (Z.to_nat (fan N)), m)) as ((tmp & m') & E & _ & _ & L & F).
  - split; [rewrite zlen_repeat; lia|]. split.
    { intros t Ht. unfold zn. rewrite nth_repeat. unfold G, leaf_vals.
      replace ((0 - 1) * fan N + t <? 0) with true by lia. reflexivity. }
    split; [|apply frame_refl].
    split; [lia|]. split; [lia|]. intros; lia.
  - intros k (tmp & m') Hk (T1 & T2 & L & F).
    destruct (mul_room k nodes (bytes_of N)) as (MB1 & MB2 & MB3); [lia..|].
    destruct (mul_room k nodes (fan N)) as (MF1 & MF2 & MF3); [lia..|].
    assert (HkF : k * fan N < zlen input) by lia.
    destruct (leaf_fill_ok c maxv input (k * fan N) (Z.to_nat (fan N)) 0 tmp) as (tmp' & E & T1' & T2'); try lia.
    { intros D i Hi. specialize (HD D). specialize (Hin i Hi). lia. }
    rewrite E. cbn [bind].
    assert (VT : forall t, 0 <= t < fan N -> zn 0 tmp' t = G (k * fan N + t)).
    { intros t Ht. rewrite T2' by lia. rewrite T2 by lia.
      replace (0 <=? t) with true by lia. replace (t <? 0 + Z.of_nat (Z.to_nat (fan N))) with true by lia. cbn [andb].
      unfold G, leaf_vals. destruct (Z.ltb_spec (k * fan N + t) (zlen input)).
      - replace (k * fan N + t <? 0) with false by lia. reflexivity.
      - replace (k * fan N + t <? 0) with false by lia.
        destruct (Z.eq_dec k 0) as [->|].
        + replace ((0 - 1) * fan N + t <? 0) with true by lia. replace (fan N <=? 0 * fan N + t) with false by lia. reflexivity.
        + assert (fan N <= k * fan N) by nia.
          replace ((k - 1) * fan N + t) with (k * fan N + t - fan N) by lia.
          replace (k * fan N + t - fan N <? 0) with false by lia.
          replace (k * fan N + t - fan N <? zlen input) with true by lia.
          replace (fan N <=? k * fan N + t) with true by lia. reflexivity. }
    destruct (build_node_ok (desc N) tmp' m' (b + k * bytes_of N)) as (m2 & E2 & R2 & F2).
    { apply desc_wf. }
    { split; [lia|]. destruct F as [-> _]. lia. }
    { lia. }
    { apply range_bounded with (b := mx); auto using desc_wf. intros t Ht. rewrite VT by auto. apply GB. }
    rewrite E2. cbn [bind]. exists (tmp', m2). split; [reflexivity|].
    split; [lia|]. split; [intros t Ht; rewrite VT by auto; f_equal; lia|].
    assert (L2 : level_inv N k b m2 (V_leaf (fan N) G)) by (eapply level_frame; eauto; lia).
    split.
    + destruct L2 as (X1 & X2 & X3). split; [auto|]. split; [destruct F2 as [-> _], F as [-> _]; lia|].
      intros k' Hk'. destruct (Z.eq_dec k' k) as [->|]; [|apply X3; lia].
      eapply repr_ext; [apply desc_wf| |exact R2]. intros t Ht. unfold V_leaf. apply VT. auto.
    + eapply frame_trans; [eapply frame_weaken; [exact F| |]; lia|].
      eapply frame_weaken; [exact F2| |]; lia.
  - rewrite E. cbn [bind]. exists m'. split; [reflexivity|].
    replace (0 + Z.of_nat (Z.to_nat nodes)) with nodes in * by lia. auto.
Qed.

(** ** Inner levels *)
Lemma group_sum_ok input mx fuel : forall base acc, 0 <= base -> 0 <= acc -> 0 <= mx ->
  (forall i, 0 <= i < zlen input -> 0 <= zn 0 input i <= mx) -> acc + mx * Z.of_nat fuel < 2 ^ 32 ->
  group_sum input base fuel acc = Ok (acc + sumf (zn 0 input) base (base + Z.of_nat fuel)).
Proof.
  induction fuel; intros base acc Hb Ha Hm Hin HB; cbn [group_sum].
  - rewrite sumf_empty by lia. f_equal; lia.
  - destruct (Z.ltb_spec base (zlen input)).
    + rewrite geti_ok by lia. cbn [bind]. pose proof (Hin base ltac:(lia)).
      rewrite (wrap_small 32) by nia. rewrite IHfuel; auto; try nia.
      rewrite (sumf_first _ base (base + Z.of_nat (S fuel))) by lia. f_equal.
      replace (base + 1 + Z.of_nat fuel) with (base + Z.of_nat (S fuel)) by lia. lia.
    + rewrite sumf_const0; [f_equal; lia|]. intros; apply zn_out; lia.
Qed.

Lemma mapM_ok {A B} (f : A -> res B) (g : A -> B) l : (forall a, In a l -> f a = Ok (g a)) -> mapM f l = Ok (map g l).
Proof.
  induction l as [|a l IH]; intros H; cbn [mapM map]; [reflexivity|].
  rewrite H by (left; auto). cbn [bind]. rewrite IH by (intros; apply H; right; auto). reflexivity.
Qed.

Lemma zn_removelast {A} (d : A) l i : 0 <= i < zlen l - 1 -> zn d (removelast l) i = zn d l i.
Proof.
  intros H. destruct l as [|a l _] using rev_ind; [cbn in H; lia|].
  rewrite removelast_last. unfold zn, zlen in *. rewrite app_length in H. cbn in H. rewrite app_nth1 by lia. reflexivity.
Qed.

Lemma zlen_removelast {A} (l : list A) : 0 < zlen l -> zlen (removelast l) = zlen l - 1.
Proof.
  destruct l as [|a l _] using rev_ind; [cbn; lia|].
  rewrite removelast_last. unfold zlen. rewrite app_length. cbn. lia.
Qed.

Lemma build_inner_ok N S mx input nodes b m : 0 <= b -> b + nodes * bytes_of N <= zlen m ->
  0 <= nodes -> 0 <= S -> 0 <= mx ->
  (forall i, 0 <= i < zlen input -> 0 <= zn 0 input i <= mx) ->
  mx * S < 2 ^ 32 -> mx * S * nd_seg (desc N) < 2 ^ kbits (desc N) -> mx * S * fan N < 2 ^ sbits (desc N) ->
  exists m', build_inner N S input nodes b m = Ok m' /\
    level_inv N nodes b m' (V_in (fan N) S (zn 0 input)) /\
    frame m m' b (b + nodes * bytes_of N).
Proof.
  intros Hb Hl Hn HS Hmx Hin B0 B1 B2. unfold build_inner. pose proof (fan_pos N) as HF. pose proof (bytes_pos N) as HB.
  pose proof (zn_bounds mx input Hmx Hin) as HA.
  edestruct (foldM_inv (fun m i =>
      let* sums := mapM (fun t => group_sum input ((i * fan N + t) * S) (Z.to_nat S) 0) (zrange 0 (Z.to_nat (fan N))) in
      let tmp := 0 :: removelast sums in
      build_node (desc N) tmp m (b + i * bytes_of N))
    (fun k m' => level_inv N k b m' (V_in (fan N) S (zn 0 input)) /\ frame m m' b (b + k * bytes_of N)) (Z.to_nat nodes) 0 m) as (m' & E & L & F).
  - split; [|apply frame_refl]. split; [lia|]. split; [lia|]. intros; lia.
  - intros k m' Hk (L & F).
    destruct (mul_room k nodes (bytes_of N)) as (MB1 & MB2 & MB3); [lia..|].
    rewrite (mapM_ok _ (fun t => sumf (zn 0 input) ((k * fan N + t) * S) ((k * fan N + t + 1) * S))).
    2:{ intros t Ht. apply in_zrange in Ht. rewrite group_sum_ok with (mx := mx); auto; try nia.
        f_equal. rewrite Z.add_0_l. f_equal. lia. }
    cbn [bind].
    set (sums := map (fun t => sumf (zn 0 input) ((k * fan N + t) * S) ((k * fan N + t + 1) * S)) (zrange 0 (Z.to_nat (fan N)))).
    assert (LS : zlen sums = fan N) by (unfold sums; rewrite zlen_map; unfold zlen; rewrite length_zrange; lia).
    assert (VT : forall t, 0 <= t < fan N -> zn 0 (0 :: removelast sums) t = V_in (fan N) S (zn 0 input) k t).
    { intros t Ht. unfold V_in. destruct (Z.eqb_spec t 0) as [->|]; [reflexivity|].
      rewrite zn_cons_S by lia. rewrite zn_removelast by lia. unfold sums.
      rewrite (zn_map _ 0) by (unfold zlen; rewrite length_zrange; lia).
      rewrite zn_zrange by lia. f_equal; f_equal; lia. }
    destruct (build_node_ok (desc N) (0 :: removelast sums) m' (b + k * bytes_of N)) as (m2 & E2 & R2 & F2).
    { apply desc_wf. }
    { split; [lia|]. destruct F as [-> _]. lia. }
    { rewrite zlen_cons, zlen_removelast; lia. }
    { apply range_bounded with (b := mx * S); auto using desc_wf; [nia|].
      intros t Ht. rewrite VT by auto. apply V_in_bound; auto. }
    rewrite E2. exists m2. split; [reflexivity|].
    assert (L2 : level_inv N k b m2 (V_in (fan N) S (zn 0 input))) by (eapply level_frame; eauto; lia).
    split.
    + destruct L2 as (X1 & X2 & X3). split; [auto|]. split; [destruct F2 as [-> _], F as [-> _]; lia|].
      intros k' Hk'. destruct (Z.eq_dec k' k) as [->|]; [|apply X3; lia].
      eapply repr_ext; [apply desc_wf| |exact R2]. exact VT.
    + eapply frame_trans; [eapply frame_weaken; [exact F| |]; lia|].
      eapply frame_weaken; [exact F2| |]; lia.
  - exists m'. split; [exact E|].
    replace (0 + Z.of_nat (Z.to_nat nodes)) with nodes in * by lia. auto.
Qed.

(** ** The array of level sizes *)
Lemma zlen_resize old total : 0 <= total -> zlen (resize old total) = total.
Proof.
  intros H. unfold resize. unfold zlen. rewrite app_length, firstn_length, repeat_length. lia.
Qed.

Lemma store_nn_ok (nn : list Z) H m : Z.of_nat H = zlen nn -> 4 * Z.of_nat H <= zlen m ->
  (forall i, 0 <= i < zlen nn -> 0 <= zn 0 nn i < 2 ^ 32) ->
  exists m', foldM (fun m i => let* v := geti nn i in store 4 m (4 * i) v) (zrange 0 H) m = Ok m' /\
    zlen m' = zlen m /\ forall i, 0 <= i < zlen nn -> rd 4 m' (4 * i) = zn 0 nn i.
Proof.
  intros HH HL HN.
  edestruct (foldM_inv (fun m i => let* v := geti nn i in store 4 m (4 * i) v)
    (fun k m' => zlen m' = zlen m /\ forall i, 0 <= i < k -> rd 4 m' (4 * i) = zn 0 nn i) H 0 m) as (m' & E & L & R).
  - split; [auto|]. intros; lia.
  - intros k m' Hk (L & R). rewrite geti_ok by lia. cbn [bind].
    rewrite store_ok by lia. eexists. split; [reflexivity|]. split; [rewrite zlen_wr; auto|].
    intros i Hi. destruct (Z.eq_dec i k) as [->|].
    + rewrite rd_wr_same_w by lia. change (8 * Z.of_nat 4) with 32. apply wrap_small. apply HN. lia.
    + rewrite rd_wr_other by lia. apply R. lia.
  - exists m'. split; [exact E|]. split; [auto|]. intros; apply R; lia.
Qed.

Lemma cdiv_cdiv a b c : 0 <= a -> 0 < b -> 0 < c -> cdiv (cdiv a b) c = cdiv a (b * c).
Proof.
  intros. unfold cdiv. rewrite <- Z.div_div by lia.
  replace (a + b * c - 1) with ((a + b - 1) + (c - 1) * b) by lia.
  rewrite Z.div_add by lia. f_equal. lia.
Qed.

Lemma cdiv_bounds a b : 0 < b -> 0 <= a -> a <= cdiv a b * b /\ (cdiv a b - 1) * b < a \/ a = 0.
Proof. intros. unfold cdiv. pose proof (Z.div_mod (a + b - 1) b ltac:(lia)). pose proof (Z.mod_pos_bound (a + b - 1) b ltac:(lia)). lia. Qed.

Definition nn_of (f : fam) (H : nat) (n : Z) : list Z :=
  match f, H with
  | F2, 1%nat => [cdiv n 128]
  | F2, 2%nat => [1; cdiv n 128]
  | F2, 3%nat => [1; cdiv n 8192; cdiv n 128]
  | F2, _ => [1; cdiv n 524288; cdiv n 8192; cdiv n 128]
  | F5, 1%nat => [cdiv n 512]
  | F5, 2%nat => [1; cdiv n 512]
  | F5, _ => [1; cdiv n 131072; cdiv n 512]
  end.

(** Bytes of the index buffer. *)
Definition total_of (f : fam) (H : nat) (n : Z) : Z :=
  match f, H with
  | F2, 1%nat => 4 + cdiv n 128 * 288
  | F2, 2%nat => 8 + 288 + cdiv n 128 * 288
  | F2, 3%nat => 12 + 288 + cdiv n 8192 * 288 + cdiv n 128 * 288
  | F2, _ => 16 + 160 + cdiv n 524288 * 288 + cdiv n 8192 * 288 + cdiv n 128 * 288
  | F5, 1%nat => 4 + cdiv n 512 * 1088
  | F5, 2%nat => 8 + 1088 + cdiv n 512 * 1088
  | F5, _ => 12 + 576 + cdiv n 131072 * 1088 + cdiv n 512 * 1088
  end.

Lemma cdiv_one n k : 1 <= n <= k -> cdiv n k = 1.
Proof. intros. unfold cdiv. symmetry. apply Z.div_unique with (r := n - 1); lia. Qed.

Lemma height_cases f H n : 1 <= n <= 2 ^ 24 -> Z.of_nat H = tree_height f n ->
  match f, H with
  | F2, 1%nat => n <= 2 ^ 7
  | F2, 2%nat => 2 ^ 7 < n <= 2 ^ 13
  | F2, 3%nat => 2 ^ 13 < n <= 2 ^ 19
  | F2, 4%nat => 2 ^ 19 < n <= 2 ^ 24
  | F5, 1%nat => n <= 2 ^ 9
  | F5, 2%nat => 2 ^ 9 < n <= 2 ^ 17
  | F5, 3%nat => 2 ^ 17 < n <= 2 ^ 24
  | _, _ => False
  end.
Proof.
  unfold tree_height; intros Hn HH.
  destruct f.
  - destruct (Z.leb_spec n (2 ^ 7)), (Z.leb_spec n (2 ^ 13)), (Z.leb_spec n (2 ^ 19)), (Z.leb_spec n (2 ^ 24));
    destruct H as [|[|[|[|[|H]]]]]; lia.
  - destruct (Z.leb_spec n (2 ^ 9)), (Z.leb_spec n (2 ^ 17)), (Z.leb_spec n (2 ^ 24));
    destruct H as [|[|[|[|[|H]]]]]; lia.
Qed.

Ltac cd := unfold cdiv in *; lia.

Ltac unwrap := repeat match goal with |- context [wrap ?w ?x] =>
  lazymatch x with context [wrap _ _] => fail | _ => rewrite (wrap_small w x) by lia end end.

Ltac fin := match goal with |- Ok (_, ?a, _, _) = Ok (_, ?b, _, _) => replace a with b by lia end; reflexivity.

Lemma levels_ok c f H n : 1 <= n <= 2 ^ 24 -> Z.of_nat H = tree_height f n ->
  levels c f H n = Ok (1, total_of f H n, 0, nn_of f H n).
Proof.
  intros Hn HH. pose proof (height_cases f H n Hn HH) as C. clear HH.
  unfold levels, lvl_step_if, lvl_step.
  assert (W : forall k, 1 < k -> 0 <= cdiv n k < 2 ^ 24) by (intros; unfold cdiv; split; [apply Z.div_pos; lia|]; apply Z.div_lt_upper_bound; nia).
  destruct f, H as [|[|[|[|[|H]]]]]; try contradiction; cbn [repeat Z.of_nat Pos.of_succ_nat Pos.succ nn_of total_of].
  - consts. change (seti [0] (1 - 1) (u32 (cdiv n 128))) with (Ok [u32 (cdiv n 128)]). cbn [bind].
    rewrite (cdiv_one n 128) by lia. cbn. destruct (c_debug c); reflexivity.
  - consts. change (seti [0; 0] (2 - 1) (u32 (cdiv n 128))) with (Ok [0; u32 (cdiv n 128)]). cbn [bind].
    replace (1 <? cdiv n 128) with true by cd.
    rewrite cdiv_cdiv by lia. rewrite (cdiv_one n (128 * 64)) by lia.
    change (seti [0; u32 (cdiv n 128)] (2 - 1 - 1) (u32 1)) with (Ok [1; u32 (cdiv n 128)]). cbn [bind].
    change (1 <? 1) with false. cbn [bind]. change (1 <? 1) with false. cbn [bind].
    specialize (W 128 ltac:(lia)). unwrap.
    rewrite massert_true by auto. cbn [bind]. unwrap. fin.
  - consts. change (seti [0; 0; 0] (3 - 1) (u32 (cdiv n 128))) with (Ok [0; 0; u32 (cdiv n 128)]). cbn [bind].
    replace (1 <? cdiv n 128) with true by cd.
    rewrite cdiv_cdiv by lia. change (128 * 64) with 8192.
    change (seti [0; 0; u32 (cdiv n 128)] (3 - 1 - 1) (u32 (cdiv n 8192))) with (Ok [0; u32 (cdiv n 8192); u32 (cdiv n 128)]). cbn [bind].
    replace (1 <? cdiv n 8192) with true by cd.
    rewrite cdiv_cdiv by lia. rewrite (cdiv_one n (8192 * 64)) by lia.
    change (seti [0; u32 (cdiv n 8192); u32 (cdiv n 128)] (3 - 1 - 1 - 1) (u32 1)) with (Ok [1; u32 (cdiv n 8192); u32 (cdiv n 128)]). cbn [bind].
    change (1 <? 1) with false. cbn [bind]. change (1 <? 1) with false. cbn [bind].
    pose proof (W 128 ltac:(lia)). pose proof (W 8192 ltac:(lia)). unwrap.
    rewrite massert_true by auto. cbn [bind]. unwrap. fin.
  - consts. change (seti [0; 0; 0; 0] (4 - 1) (u32 (cdiv n 128))) with (Ok [0; 0; 0; u32 (cdiv n 128)]). cbn [bind].
    replace (1 <? cdiv n 128) with true by cd.
    rewrite cdiv_cdiv by lia. change (128 * 64) with 8192.
    change (seti [0; 0; 0; u32 (cdiv n 128)] (4 - 1 - 1) (u32 (cdiv n 8192))) with (Ok [0; 0; u32 (cdiv n 8192); u32 (cdiv n 128)]). cbn [bind].
    replace (1 <? cdiv n 8192) with true by cd.
    rewrite cdiv_cdiv by lia. change (8192 * 64) with 524288.
    change (seti [0; 0; u32 (cdiv n 8192); u32 (cdiv n 128)] (4 - 1 - 1 - 1) (u32 (cdiv n 524288))) with (Ok [0; u32 (cdiv n 524288); u32 (cdiv n 8192); u32 (cdiv n 128)]). cbn [bind].
    replace (1 <? cdiv n 524288) with true by cd.
    rewrite cdiv_cdiv by lia. rewrite (cdiv_one n (524288 * 32)) by lia.
    change (seti [0; u32 (cdiv n 524288); u32 (cdiv n 8192); u32 (cdiv n 128)] (4 - 1 - 1 - 1 - 1) (u32 1)) with (Ok [1; u32 (cdiv n 524288); u32 (cdiv n 8192); u32 (cdiv n 128)]). cbn [bind].
    pose proof (W 128 ltac:(lia)). pose proof (W 8192 ltac:(lia)). pose proof (W 524288 ltac:(lia)). unwrap.
    rewrite massert_true by auto. cbn [bind]. unwrap. fin.
  - consts. change (seti [0] (1 - 1) (u32 (cdiv n 512))) with (Ok [u32 (cdiv n 512)]). cbn [bind].
    rewrite (cdiv_one n 512) by lia. cbn. destruct (c_debug c); reflexivity.
  - consts. change (seti [0; 0] (2 - 1) (u32 (cdiv n 512))) with (Ok [0; u32 (cdiv n 512)]). cbn [bind].
    replace (1 <? cdiv n 512) with true by cd.
    rewrite cdiv_cdiv by lia. rewrite (cdiv_one n (512 * 256)) by lia.
    change (seti [0; u32 (cdiv n 512)] (2 - 1 - 1) (u32 1)) with (Ok [1; u32 (cdiv n 512)]). cbn [bind].
    change (1 <? 1) with false. cbn [bind]. change (1 <? 1) with false. cbn [bind].
    specialize (W 512 ltac:(lia)). unwrap.
    rewrite massert_true by auto. cbn [bind]. unwrap. fin.
  - consts. change (seti [0; 0; 0] (3 - 1) (u32 (cdiv n 512))) with (Ok [0; 0; u32 (cdiv n 512)]). cbn [bind].
    replace (1 <? cdiv n 512) with true by cd.
    rewrite cdiv_cdiv by lia. change (512 * 256) with 131072.
    change (seti [0; 0; u32 (cdiv n 512)] (3 - 1 - 1) (u32 (cdiv n 131072))) with (Ok [0; u32 (cdiv n 131072); u32 (cdiv n 512)]). cbn [bind].
    replace (1 <? cdiv n 131072) with true by cd.
    rewrite cdiv_cdiv by lia. rewrite (cdiv_one n (131072 * 128)) by lia.
    change (seti [0; u32 (cdiv n 131072); u32 (cdiv n 512)] (3 - 1 - 1 - 1) (u32 1)) with (Ok [1; u32 (cdiv n 131072); u32 (cdiv n 512)]). cbn [bind].
    pose proof (W 512 ltac:(lia)). pose proof (W 131072 ltac:(lia)). unwrap.
    rewrite massert_true by auto. cbn [bind]. unwrap. fin.
Qed.

(** One inner level in the middle of build. *)
Lemma inner_level_ok N nn input h b S m mx nodes b' : 0 < h -> geti nn (h - 1) = Ok nodes -> 0 <= b' ->
  b = b' + nodes * bytes_of N -> b <= zlen m -> 0 <= nodes -> 0 <= S -> 0 <= mx ->
  (forall i, 0 <= i < zlen input -> 0 <= zn 0 input i <= mx) ->
  mx * S < 2 ^ 32 -> mx * S * nd_seg (desc N) < 2 ^ kbits (desc N) -> mx * S * fan N < 2 ^ sbits (desc N) ->
  exists m', inner_level N nn input (h, b, S, m) = Ok (h - 1, b', S * fan N, m') /\
    level_inv N nodes b' m' (V_in (fan N) S (zn 0 input)) /\
    frame m m' b' (b' + nodes * bytes_of N).
Proof.
  intros Hh Hg Hb -> Hl Hn HS Hmx Hin B0 B1 B2. unfold inner_level. replace (0 <? h) with true by lia.
  rewrite Hg. cbn [bind]. replace (b' + nodes * bytes_of N - nodes * bytes_of N) with b' by lia.
  destruct (build_inner_ok N S mx input nodes b' m) as (m' & E & L & F); auto; try lia.
  rewrite E. cbn [bind]. exists m'. auto.
Qed.

Lemma inner_level_skip N nn input b S m : inner_level N nn input (0, b, S, m) = Ok (0, b, S, m).
Proof. reflexivity. Qed.

Definition max_count (f : fam) : Z := match f with F2 => 512 | F5 => 256 end.

Definition built_view (n : Z) (H : nat) (addr : Z) (m : list Z) : tview :=
  {| v_size := n; v_nn := fun i => load 4 m (4 * i); v_base := addr; v_ptr := Z.of_nat H * 4; v_mem := m |}.

Lemma nn_of_ok f H n : 1 <= n <= 2 ^ 24 -> forall i, 0 <= i < zlen (nn_of f H n) -> 0 <= zn 0 (nn_of f H n) i < 2 ^ 32.
Proof.
  intros Hn i Hi.
  assert (W : forall k, 1 < k -> 0 <= cdiv n k < 2 ^ 24) by (intros; unfold cdiv; split; [apply Z.div_pos; lia|]; apply Z.div_lt_upper_bound; nia).
  pose proof (W 128 ltac:(lia)). pose proof (W 8192 ltac:(lia)). pose proof (W 524288 ltac:(lia)).
  pose proof (W 512 ltac:(lia)). pose proof (W 131072 ltac:(lia)).
  assert (HF : Forall (fun z => 0 <= z < 2 ^ 32) (nn_of f H n)).
  { destruct f, H as [|[|[|[|H]]]]; cbn [nn_of]; repeat constructor; lia. }
  rewrite Forall_forall in HF. apply HF. unfold zn. apply nth_In. unfold zlen in Hi. lia.
Qed.

(** Side conditions of the level lemmas. *)
Ltac bnd := consts; first [reflexivity | lia | unfold cdiv in *; lia].

Lemma tree_build_ok c f H input old mx addr : let n := zlen input in
  1 <= n <= 2 ^ 24 -> Z.of_nat H = tree_height f n -> 0 <= mx <= 512 ->
  (forall i, 0 <= i < n -> 0 <= zn 0 input i <= mx) -> (c_debug c = true -> mx <= max_count f) ->
  exists m, tree_build c f H input old = Ok m /\ tinv f H mx n (built_view n H addr m) (zn 0 input) /\
    zlen m = total_of f H n /\ (forall i, 0 <= i < Z.of_nat H -> load 4 m (4 * i) = Ok (zn 0 (nn_of f H n) i)).
Proof.
  intros n Hn HH Hmx Hin HD. unfold tree_build. fold n.
  rewrite massert_true by lia. cbn [bind]. rewrite levels_ok by auto. cbn [bind].
  pose proof (height_cases f H n Hn HH) as C.
  assert (LN : Z.of_nat H = zlen (nn_of f H n)).
  { clear -C. destruct f, H as [|[|[|[|[|H]]]]]; try contradiction; reflexivity. }
  assert (W : forall k, 1 < k -> 1 <= cdiv n k < 2 ^ 24).
  { intros. unfold cdiv. split; [apply Z.div_le_lower_bound; lia|]. apply Z.div_lt_upper_bound; nia. }
  pose proof (W 128 ltac:(lia)) as W1. pose proof (W 8192 ltac:(lia)) as W2. pose proof (W 524288 ltac:(lia)) as W3.
  pose proof (W 512 ltac:(lia)) as W4. pose proof (W 131072 ltac:(lia)) as W5.
  assert (HP : 1 <= Z.of_nat H) by (clear -C; destruct f, H; try contradiction; lia).
  assert (TP : 4 * Z.of_nat H <= total_of f H n).
  { clear -C W1 W2 W3 W4 W5. destruct f, H as [|[|[|[|[|H]]]]]; try contradiction; cbn [total_of]; lia. }
  assert (LR : zlen (resize old (total_of f H n)) = total_of f H n) by (apply zlen_resize; lia).
  destruct (store_nn_ok (nn_of f H n) H (resize old (total_of f H n)) LN ltac:(lia) (nn_of_ok f H n Hn)) as (m & E & Lm & RN).
  rewrite E. cbn [bind]. rewrite LR in Lm.
  rewrite geti_ok by lia. cbn [bind].
  pose proof (zn_bounds mx input ltac:(lia) Hin) as HA.
  assert (TI : forall m', levels_inv f H n (built_view n H addr m') (zn 0 input) (leaf_vals (match f with F2 => 128 | F5 => 512 end) input) ->
    tinv f H mx n (built_view n H addr m') (zn 0 input)).
  { intros m' L. split; [reflexivity|]. split; [auto|]. split; [lia|]. split; [auto|]. split; [intros; apply zn_out; auto|].
    eexists. split; [|split; [|exact L]].
    - apply leaf_vals_bound; auto; lia.
    - intros i Hi. unfold leaf_vals. fold n. replace (i <? 0) with false by lia. replace (i <? n) with true by lia. reflexivity. }
  assert (KF : forall m' lo i, frame m m' lo (zlen m) -> 4 * Z.of_nat H <= lo -> 0 <= i < Z.of_nat H -> load 4 m' (4 * i) = Ok (zn 0 (nn_of f H n) i)).
  { intros m' lo i F Hlo Hi. pose proof (proj1 F) as FL. rewrite load_ok by lia. f_equal. rewrite <- RN by lia.
    eapply frame_rd; [exact F|lia|]. left; lia. }
  clear E RN HA.
  destruct f, H as [|[|[|[|[|H]]]]]; try contradiction.
  - cbn [nn_of total_of] in *. change (Z.of_nat 1) with 1 in *. clear HH.
    change (zn 0 [cdiv n 128] (1 - 1)) with (cdiv n 128).
    replace (_ - cdiv n 128 * bytes_of A2_128) with (4) by bnd.
    destruct (build_leaves_ok c A2_128 512 mx input (cdiv n 128) (4) m) as (m1 & E1 & L1 & Fr1); auto; try bnd.
    rewrite E1. cbn [bind]. pose proof (proj1 Fr1) as Z1.
    change (1 - 1) with 0.
    rewrite inner_level_skip. cbn [bind].
    rewrite inner_level_skip. cbn [bind].
    rewrite inner_level_skip. cbn [bind].
    rewrite massert_true by reflexivity. cbn [bind]. exists m1.
    split; [reflexivity|].
    assert (FR : frame m m1 4 (zlen m)).
    { eapply frame_weaken; [exact Fr1|bnd|bnd]. }
    split; [|split; [lia|intros i Hi; eapply KF; [exact FR|cbn [Z.of_nat Pos.of_succ_nat Pos.succ]; lia|exact Hi]]].
    apply TI. cbn [levels_inv built_view v_mem v_ptr v_nn v_size].
    change (Z.of_nat 1 * 4) with 4. split; [lia|].
    exact L1.
  - cbn [nn_of total_of] in *. change (Z.of_nat 2) with 2 in *. clear HH.
    change (zn 0 [1; cdiv n 128] (2 - 1)) with (cdiv n 128).
    replace (_ - cdiv n 128 * bytes_of A2_128) with (8 + 288) by bnd.
    destruct (build_leaves_ok c A2_128 512 mx input (cdiv n 128) (8 + 288) m) as (m1 & E1 & L1 & Fr1); auto; try bnd.
    rewrite E1. cbn [bind]. pose proof (proj1 Fr1) as Z1.
    change (2 - 1) with 1.
    destruct (inner_level_ok A2_64 [1; cdiv n 128] input 1 (8 + 288) 128 m1 mx (1) (8)) as (m2 & E2 & L2 & Fr2); auto; try bnd.
    rewrite E2. cbn [bind]. change (128 * fan A2_64) with 8192. pose proof (proj1 Fr2) as Z2.
    change (1 - 1) with 0.
    rewrite inner_level_skip. cbn [bind].
    rewrite inner_level_skip. cbn [bind].
    rewrite massert_true by reflexivity. cbn [bind]. exists m2.
    split; [reflexivity|].
    assert (FR : frame m m2 8 (zlen m)).
    { apply frame_trans with m1; [|eapply frame_weaken; [exact Fr2|bnd|bnd]]. eapply frame_weaken; [exact Fr1|bnd|bnd]. }
    split; [|split; [lia|intros i Hi; eapply KF; [exact FR|cbn [Z.of_nat Pos.of_succ_nat Pos.succ]; lia|exact Hi]]].
    apply TI. cbn [levels_inv built_view v_mem v_ptr v_nn v_size].
    change (Z.of_nat 2 * 4) with 8. split; [lia|].
    split. { exact L2. }
    eapply level_frame; [|exact Fr2|bnd]. exact L1.
  - cbn [nn_of total_of] in *. change (Z.of_nat 3) with 3 in *. clear HH.
    change (zn 0 [1; cdiv n 8192; cdiv n 128] (3 - 1)) with (cdiv n 128).
    replace (_ - cdiv n 128 * bytes_of A2_128) with (12 + 288 + cdiv n 8192 * 288) by bnd.
    destruct (build_leaves_ok c A2_128 512 mx input (cdiv n 128) (12 + 288 + cdiv n 8192 * 288) m) as (m1 & E1 & L1 & Fr1); auto; try bnd.
    rewrite E1. cbn [bind]. pose proof (proj1 Fr1) as Z1.
    change (3 - 1) with 2.
    destruct (inner_level_ok A2_64 [1; cdiv n 8192; cdiv n 128] input 2 (12 + 288 + cdiv n 8192 * 288) 128 m1 mx (cdiv n 8192) (12 + 288)) as (m2 & E2 & L2 & Fr2); auto; try bnd.
    rewrite E2. cbn [bind]. change (128 * fan A2_64) with 8192. pose proof (proj1 Fr2) as Z2.
    change (2 - 1) with 1.
    destruct (inner_level_ok A2_64 [1; cdiv n 8192; cdiv n 128] input 1 (12 + 288) 8192 m2 mx (1) (12)) as (m3 & E3 & L3 & Fr3); auto; try bnd.
    rewrite E3. cbn [bind]. change (8192 * fan A2_64) with 524288. pose proof (proj1 Fr3) as Z3.
    change (1 - 1) with 0.
    rewrite inner_level_skip. cbn [bind].
    rewrite massert_true by reflexivity. cbn [bind]. exists m3.
    split; [reflexivity|].
    assert (FR : frame m m3 12 (zlen m)).
    { apply frame_trans with m2; [|eapply frame_weaken; [exact Fr3|bnd|bnd]]. apply frame_trans with m1; [|eapply frame_weaken; [exact Fr2|bnd|bnd]]. eapply frame_weaken; [exact Fr1|bnd|bnd]. }
    split; [|split; [lia|intros i Hi; eapply KF; [exact FR|cbn [Z.of_nat Pos.of_succ_nat Pos.succ]; lia|exact Hi]]].
    apply TI. cbn [levels_inv built_view v_mem v_ptr v_nn v_size].
    change (Z.of_nat 3 * 4) with 12. split; [lia|].
    split; [apply (KF m3 12 1); auto; lia|].
    split. { exact L3. }
    split. { eapply level_frame; [|exact Fr3|bnd]. exact L2. }
    eapply level_frame; [|exact Fr3|bnd]. eapply level_frame; [|exact Fr2|bnd]. exact L1.
  - cbn [nn_of total_of] in *. change (Z.of_nat 4) with 4 in *. clear HH.
    change (zn 0 [1; cdiv n 524288; cdiv n 8192; cdiv n 128] (4 - 1)) with (cdiv n 128).
    replace (_ - cdiv n 128 * bytes_of A2_128) with (16 + 160 + cdiv n 524288 * 288 + cdiv n 8192 * 288) by bnd.
    destruct (build_leaves_ok c A2_128 512 mx input (cdiv n 128) (16 + 160 + cdiv n 524288 * 288 + cdiv n 8192 * 288) m) as (m1 & E1 & L1 & Fr1); auto; try bnd.
    rewrite E1. cbn [bind]. pose proof (proj1 Fr1) as Z1.
    change (4 - 1) with 3.
    destruct (inner_level_ok A2_64 [1; cdiv n 524288; cdiv n 8192; cdiv n 128] input 3 (16 + 160 + cdiv n 524288 * 288 + cdiv n 8192 * 288) 128 m1 mx (cdiv n 8192) (16 + 160 + cdiv n 524288 * 288)) as (m2 & E2 & L2 & Fr2); auto; try bnd.
    rewrite E2. cbn [bind]. change (128 * fan A2_64) with 8192. pose proof (proj1 Fr2) as Z2.
    change (3 - 1) with 2.
    destruct (inner_level_ok A2_64 [1; cdiv n 524288; cdiv n 8192; cdiv n 128] input 2 (16 + 160 + cdiv n 524288 * 288) 8192 m2 mx (cdiv n 524288) (16 + 160)) as (m3 & E3 & L3 & Fr3); auto; try bnd.
    rewrite E3. cbn [bind]. change (8192 * fan A2_64) with 524288. pose proof (proj1 Fr3) as Z3.
    change (2 - 1) with 1.
    destruct (inner_level_ok A2_32 [1; cdiv n 524288; cdiv n 8192; cdiv n 128] input 1 (16 + 160) 524288 m3 mx (1) (16)) as (m4 & E4 & L4 & Fr4); auto; try bnd.
    rewrite E4. cbn [bind]. change (524288 * fan A2_32) with 16777216. pose proof (proj1 Fr4) as Z4.
    change (1 - 1) with 0.
    rewrite massert_true by reflexivity. cbn [bind]. exists m4.
    split; [reflexivity|].
    assert (FR : frame m m4 16 (zlen m)).
    { apply frame_trans with m3; [|eapply frame_weaken; [exact Fr4|bnd|bnd]]. apply frame_trans with m2; [|eapply frame_weaken; [exact Fr3|bnd|bnd]]. apply frame_trans with m1; [|eapply frame_weaken; [exact Fr2|bnd|bnd]]. eapply frame_weaken; [exact Fr1|bnd|bnd]. }
    split; [|split; [lia|intros i Hi; eapply KF; [exact FR|cbn [Z.of_nat Pos.of_succ_nat Pos.succ]; lia|exact Hi]]].
    apply TI. cbn [levels_inv built_view v_mem v_ptr v_nn v_size].
    change (Z.of_nat 4 * 4) with 16. split; [lia|].
    split; [apply (KF m4 16 1); auto; lia|].
    split; [apply (KF m4 16 2); auto; lia|].
    split. { exact L4. }
    split. { eapply level_frame; [|exact Fr4|bnd]. exact L3. }
    split. { eapply level_frame; [|exact Fr4|bnd]. eapply level_frame; [|exact Fr3|bnd]. exact L2. }
    eapply level_frame; [|exact Fr4|bnd]. eapply level_frame; [|exact Fr3|bnd]. eapply level_frame; [|exact Fr2|bnd]. exact L1.
  - cbn [nn_of total_of] in *. change (Z.of_nat 1) with 1 in *. clear HH.
    change (zn 0 [cdiv n 512] (1 - 1)) with (cdiv n 512).
    replace (_ - cdiv n 512 * bytes_of A5_512) with (4) by bnd.
    destruct (build_leaves_ok c A5_512 256 mx input (cdiv n 512) (4) m) as (m1 & E1 & L1 & Fr1); auto; try bnd.
    rewrite E1. cbn [bind]. pose proof (proj1 Fr1) as Z1.
    change (1 - 1) with 0.
    rewrite inner_level_skip. cbn [bind].
    rewrite inner_level_skip. cbn [bind].
    rewrite massert_true by reflexivity. cbn [bind]. exists m1.
    split; [reflexivity|].
    assert (FR : frame m m1 4 (zlen m)).
    { eapply frame_weaken; [exact Fr1|bnd|bnd]. }
    split; [|split; [lia|intros i Hi; eapply KF; [exact FR|cbn [Z.of_nat Pos.of_succ_nat Pos.succ]; lia|exact Hi]]].
    apply TI. cbn [levels_inv built_view v_mem v_ptr v_nn v_size].
    change (Z.of_nat 1 * 4) with 4. split; [lia|].
    exact L1.
  - cbn [nn_of total_of] in *. change (Z.of_nat 2) with 2 in *. clear HH.
    change (zn 0 [1; cdiv n 512] (2 - 1)) with (cdiv n 512).
    replace (_ - cdiv n 512 * bytes_of A5_512) with (8 + 1088) by bnd.
    destruct (build_leaves_ok c A5_512 256 mx input (cdiv n 512) (8 + 1088) m) as (m1 & E1 & L1 & Fr1); auto; try bnd.
    rewrite E1. cbn [bind]. pose proof (proj1 Fr1) as Z1.
    change (2 - 1) with 1.
    destruct (inner_level_ok A5_256 [1; cdiv n 512] input 1 (8 + 1088) 512 m1 mx (1) (8)) as (m2 & E2 & L2 & Fr2); auto; try bnd.
    rewrite E2. cbn [bind]. change (512 * fan A5_256) with 131072. pose proof (proj1 Fr2) as Z2.
    change (1 - 1) with 0.
    rewrite inner_level_skip. cbn [bind].
    rewrite massert_true by reflexivity. cbn [bind]. exists m2.
    split; [reflexivity|].
    assert (FR : frame m m2 8 (zlen m)).
    { apply frame_trans with m1; [|eapply frame_weaken; [exact Fr2|bnd|bnd]]. eapply frame_weaken; [exact Fr1|bnd|bnd]. }
    split; [|split; [lia|intros i Hi; eapply KF; [exact FR|cbn [Z.of_nat Pos.of_succ_nat Pos.succ]; lia|exact Hi]]].
    apply TI. cbn [levels_inv built_view v_mem v_ptr v_nn v_size].
    change (Z.of_nat 2 * 4) with 8. split; [lia|].
    split. { exact L2. }
    eapply level_frame; [|exact Fr2|bnd]. exact L1.
  - cbn [nn_of total_of] in *. change (Z.of_nat 3) with 3 in *. clear HH.
    change (zn 0 [1; cdiv n 131072; cdiv n 512] (3 - 1)) with (cdiv n 512).
    replace (_ - cdiv n 512 * bytes_of A5_512) with (12 + 576 + cdiv n 131072 * 1088) by bnd.
    destruct (build_leaves_ok c A5_512 256 mx input (cdiv n 512) (12 + 576 + cdiv n 131072 * 1088) m) as (m1 & E1 & L1 & Fr1); auto; try bnd.
    rewrite E1. cbn [bind]. pose proof (proj1 Fr1) as Z1.
    change (3 - 1) with 2.
    destruct (inner_level_ok A5_256 [1; cdiv n 131072; cdiv n 512] input 2 (12 + 576 + cdiv n 131072 * 1088) 512 m1 mx (cdiv n 131072) (12 + 576)) as (m2 & E2 & L2 & Fr2); auto; try bnd.
    rewrite E2. cbn [bind]. change (512 * fan A5_256) with 131072. pose proof (proj1 Fr2) as Z2.
    change (2 - 1) with 1.
    destruct (inner_level_ok A5_128 [1; cdiv n 131072; cdiv n 512] input 1 (12 + 576) 131072 m2 mx (1) (12)) as (m3 & E3 & L3 & Fr3); auto; try bnd.
    rewrite E3. cbn [bind]. change (131072 * fan A5_128) with 16777216. pose proof (proj1 Fr3) as Z3.
    change (1 - 1) with 0.
    rewrite massert_true by reflexivity. cbn [bind]. exists m3.
    split; [reflexivity|].
    assert (FR : frame m m3 12 (zlen m)).
    { apply frame_trans with m2; [|eapply frame_weaken; [exact Fr3|bnd|bnd]]. apply frame_trans with m1; [|eapply frame_weaken; [exact Fr2|bnd|bnd]]. eapply frame_weaken; [exact Fr1|bnd|bnd]. }
    split; [|split; [lia|intros i Hi; eapply KF; [exact FR|cbn [Z.of_nat Pos.of_succ_nat Pos.succ]; lia|exact Hi]]].
    apply TI. cbn [levels_inv built_view v_mem v_ptr v_nn v_size].
    change (Z.of_nat 3 * 4) with 12. split; [lia|].
    split; [apply (KF m3 12 1); auto; lia|].
    split. { exact L3. }
    split. { eapply level_frame; [|exact Fr3|bnd]. exact L2. }
    eapply level_frame; [|exact Fr3|bnd]. eapply level_frame; [|exact Fr2|bnd]. exact L1.
Qed.
