(** Correctness of rank and select inside a block. *)
From Coq Require Import ZifyBool.
From Verif Require Import Base BaseFacts Mem MemFacts Tables Words WordFacts Blocks Usage.
Ltac Zify.zify_post_hook ::= Z.div_mod_to_equations.

(* Remove wraps that do nothing, innermost first. *)
Ltac unwrap := repeat match goal with |- context [wrap ?w ?x] =>
  lazymatch x with context [wrap _ _] => fail | _ => rewrite (wrap_small w x) by lia end end.

(** ** Vector popcount *)
Lemma pair_ind {A} (P : list A -> Prop) : P [] -> (forall a, P [a]) -> (forall a b l, P l -> P (a :: b :: l)) -> forall l, P l.
Proof.
  intros H0 H1 H2. fix IH 1. intros [|a [|b l]]; [exact H0|apply H1|apply H2, IH].
Qed.

Lemma srli_and k m l : bytes l -> Nat.even (length l) = true -> 0 <= k <= 8 -> 0 <= m < 2 ^ (8 - k) ->
  vand_epi8 m (srli_epi16 k l) = map (fun b => Z.land (Z.shiftr b k) m) l.
Proof.
  intros Hl He Hk Hm. induction l as [|a|lo hi l IH] using pair_ind; [reflexivity|discriminate|].
  inversion Hl as [|? ? H1 Hl']; subst. inversion Hl' as [|? ? H2 Hl'']; subst.
  cbn [srli_epi16 vand_epi8 map]. rewrite <- IH by auto. unfold vand_epi8.
  pose proof (shiftr_byte lo k H1 Hk). pose proof (shiftr_byte hi k H2 Hk).
  assert (0 < 2 ^ k) by (apply Z.pow_pos_nonneg; lia).
  assert (E : 256 = 2 ^ (8 - k) * 2 ^ k) by (rewrite <- Z.pow_add_r by lia; replace (8 - k + k) with 8 by lia; reflexivity).
  pose proof (Z.mod_pos_bound hi (2 ^ k) ltac:(lia)).
  rewrite shiftr_cat by auto.
  assert (R : 0 <= Z.shiftr lo k + 2 ^ (8 - k) * (hi mod 2 ^ k) < 256).
  { set (p := 2 ^ (8 - k)) in *. set (q := 2 ^ k) in *. nia. }
  f_equal; [|f_equal].
  - rewrite (Z.mul_comm 256), Z_mod_plus_full, Z.mod_small by exact R. rewrite land_low by lia.
    rewrite (Z.mod_small (Z.shiftr lo k)) by lia. reflexivity.
  - rewrite (Z.mul_comm 256), Z.div_add by lia. rewrite (Z.div_small _ 256) by exact R. reflexivity.
Qed.

Lemma vsub_map g l : bytes l -> (forall b, 0 <= b < 256 -> 0 <= b - g b < 256) ->
  vsub_epi8 l (map g l) = map (fun b => b - g b) l.
Proof.
  unfold vsub_epi8. induction 1; intros Hg; cbn [map map2]; [reflexivity|].
  rewrite (wrap_small 8) by (apply Hg; auto). rewrite IHForall by auto. reflexivity.
Qed.

Lemma vadd_map g h l : bytes l -> (forall b, 0 <= b < 256 -> 0 <= g b + h b < 256) ->
  vadd_epi8 (map g l) (map h l) = map (fun b => g b + h b) l.
Proof.
  unfold vadd_epi8. induction 1; intros Hg; cbn [map map2]; [reflexivity|].
  rewrite (wrap_small 8) by (apply Hg; auto). rewrite IHForall by auto. reflexivity.
Qed.

Lemma last_step l : bytes l -> Nat.even (length l) = true ->
  vand_epi8 0x0F (vadd_epi8 l (srli_epi16 4 l)) = map c8 l.
Proof.
  intros Hl He. induction l as [|a|lo hi l IH] using pair_ind; [reflexivity|discriminate|].
  inversion Hl as [|? ? H1 Hl']; subst. inversion Hl' as [|? ? H2 Hl'']; subst.
  cbn [srli_epi16]. unfold vadd_epi8, vand_epi8 in *. cbn [map2 map]. rewrite IH by auto.
  assert (EL : Z.shiftr (lo + 256 * hi) 4 = lo / 16 + 16 * hi) by (rewrite Z.shiftr_div_pow2 by lia; change (2 ^ 4) with 16; lia).
  rewrite EL. unfold c8. change 15 with (Z.ones 4). rewrite !Z.land_ones by lia. rewrite !Z.shiftr_div_pow2 by lia.
  unfold wrap. change (2 ^ 4) with 16. change (2 ^ 8) with 256.
  f_equal; [|f_equal]; lia.
Qed.

Lemma bytes_map g l : bytes l -> (forall b, 0 <= b < 256 -> 0 <= g b < 256) -> bytes (map g l).
Proof. unfold bytes. intros H Hg. rewrite Forall_map. eapply Forall_impl; [|exact H]. intros; apply Hg; auto. Qed.

Lemma popcount_bytes x : 0 <= x < 2 ^ 64 -> fold_right Z.add 0 (map pc8 (le_bytes 8 x)) = popcount x.
Proof.
  intros Hx. pose proof (pc8_wones x) as P. pose proof (length8 x) as L8.
  destruct (le_bytes 8 x) as [|b0 [|b1 [|b2 [|b3 [|b4 [|b5 [|b6 [|b7 [|]]]]]]]]]; try discriminate. clear L8. cbn [map fold_right].
  pose proof (P 0 Hx ltac:(lia)) as P0. pose proof (P 1 Hx ltac:(lia)) as P1. pose proof (P 2 Hx ltac:(lia)) as P2. pose proof (P 3 Hx ltac:(lia)) as P3.
  pose proof (P 4 Hx ltac:(lia)) as P4. pose proof (P 5 Hx ltac:(lia)) as P5. pose proof (P 6 Hx ltac:(lia)) as P6. pose proof (P 7 Hx ltac:(lia)) as P7.
  change (zn 0 _ 0) with b0 in P0. change (zn 0 _ 1) with b1 in P1. change (zn 0 _ 2) with b2 in P2. change (zn 0 _ 3) with b3 in P3.
  change (zn 0 _ 4) with b4 in P4. change (zn 0 _ 5) with b5 in P5. change (zn 0 _ 6) with b6 in P6. change (zn 0 _ 7) with b7 in P7.
  rewrite P0, P1, P2, P3, P4, P5, P6, P7, popcount_wones.
  rewrite (wones_split x 0 8 64), (wones_split x 8 16 64), (wones_split x 16 24 64), (wones_split x 24 32 64),
    (wones_split x 32 40 64), (wones_split x 40 48 64), (wones_split x 48 56 64) by lia.
  change (8 * 0) with 0. change (8 * 1) with 8. change (8 * 2) with 16. change (8 * 3) with 24.
  change (8 * 4) with 32. change (8 * 5) with 40. change (8 * 6) with 48. change (8 * 7) with 56.
  change (0 + 8) with 8. change (8 + 8) with 16. change (16 + 8) with 24. change (24 + 8) with 32.
  change (32 + 8) with 40. change (40 + 8) with 48. change (48 + 8) with 56. change (56 + 8) with 64. lia.
Qed.

Definition words (ws : list Z) : Prop := Forall (fun w => 0 <= w < 2 ^ 64) ws.

Lemma sad_words v : words v -> sad_epu8 (length v) (map pc8 (flat_map (le_bytes 8) v)) = map popcount v.
Proof.
  induction 1 as [|x v Hx Hv IH]; [reflexivity|].
  cbn [length flat_map]. rewrite map_app.
  pose proof (popcount_bytes x Hx) as P. pose proof (length8 x) as L8.
  destruct (le_bytes 8 x) as [|b0 [|b1 [|b2 [|b3 [|b4 [|b5 [|b6 [|b7 [|]]]]]]]]]; try discriminate. cbn [map app].
  change (sad_epu8 (S (length v)) (?a :: ?b :: ?c :: ?d :: ?e :: ?f :: ?g :: ?h :: ?l)) with (fold_right Z.add 0 [a; b; c; d; e; f; g; h] :: sad_epu8 (length v) l).
  rewrite IH. rewrite <- P. reflexivity.
Qed.

Lemma popcount_vec_ok v : words v -> popcount_vec v = map popcount v.
Proof.
  intros Hv. unfold popcount_vec. set (b := flat_map (le_bytes 8) v).
  assert (Hb : bytes b).
  { unfold b. clear. induction v; cbn [flat_map]; [constructor|]. unfold bytes. rewrite Forall_app. split; [apply le_bytes_bytes|auto]. }
  assert (He : Nat.even (length b) = true).
  { unfold b. clear. induction v as [|x v IH]; [reflexivity|]. cbn [flat_map]. rewrite app_length, length_le_bytes.
    rewrite Nat.even_add, IH. reflexivity. }
  assert (A : vsub_epi8 b (vand_epi8 0x55 (srli_epi16 1 b)) = map a8 b).
  { rewrite srli_and by (auto; lia). rewrite vsub_map; auto. intros y Hy. destruct (swar8 y Hy). unfold a8 in *. lia. }
  assert (HA : forall y, 0 <= y < 256 -> 0 <= a8 y < 256) by (intros y Hy; destruct (swar8 y Hy); auto).
  assert (B8 : forall y, 0 <= y < 256 -> 0 <= b8 y < 256).
  { intros y Hy. assert (HC : byte_check (fun y => (0 <=? b8 y) && (b8 y <? 256)) = true) by (vm_compute; reflexivity).
    apply byte_check_ok with (b := y) in HC; lia. }
  cbv zeta. rewrite A.
  assert (BA : bytes (map a8 b)) by (apply bytes_map; auto).
  assert (EB : vadd_epi8 (vand_epi8 0x33 (map a8 b)) (vand_epi8 0x33 (srli_epi16 2 (map a8 b))) = map b8 (map a8 b)).
  { rewrite srli_and by (rewrite ?map_length; auto; lia). unfold vand_epi8. rewrite vadd_map; auto. }
  rewrite EB. rewrite last_step; [|apply bytes_map; auto|rewrite !map_length; auto].
  rewrite !map_map. rewrite (map_ext_in _ pc8).
  - apply sad_words; auto.
  - intros y Hy. unfold bytes in Hb. rewrite Forall_forall in Hb. destruct (swar8 y (Hb y Hy)) as (_ & _ & _ & E). exact E.
Qed.

(** ** Prefix sums *)
Definition inclusive (xs : list Z) (n : nat) : list Z := map (fun j => sumf (zn 0 xs) 0 (j + 1)) (zrange 0 n).

Lemma prefixsum_m256i_ok xs : length xs = 4%nat -> Forall (fun v => 0 <= v <= 64) xs -> prefixsum_m256i xs = inclusive xs 4.
Proof.
  destruct xs as [|a [|b [|c [|d [|]]]]]; try discriminate. intros _ H.
  repeat match goal with H : Forall _ (_ :: _) |- _ => inversion H; clear H; subst end.
  transitivity [u64 (u64 (a + 0) + 0); u64 (u64 (b + a) + 0); u64 (u64 (c + b) + u64 (a + 0)); u64 (u64 (d + c) + u64 (b + a))]; [reflexivity|].
  transitivity [(a + 0); (a + (b + 0)); (a + (b + (c + 0))); (a + (b + (c + (d + 0))))]; [|reflexivity].
  unwrap. repeat (f_equal; try lia).
Qed.

Lemma prefixsum_m512i_ok xs : length xs = 8%nat -> Forall (fun v => 0 <= v <= 64) xs -> prefixsum_m512i xs = inclusive xs 8.
Proof.
  destruct xs as [|a [|b [|c [|d [|e [|f [|g [|h [|]]]]]]]]]; try discriminate. intros _ H.
  repeat match goal with H : Forall _ (_ :: _) |- _ => inversion H; clear H; subst end.
  transitivity [u64 (u64 (u64 (a + 0) + 0) + 0); u64 (u64 (u64 (b + a) + 0) + 0); u64 (u64 (u64 (c + b) + u64 (a + 0)) + 0); u64 (u64 (u64 (d + c) + u64 (b + a)) + 0); u64 (u64 (u64 (e + d) + u64 (c + b)) + u64 (u64 (a + 0) + 0)); u64 (u64 (u64 (f + e) + u64 (d + c)) + u64 (u64 (b + a) + 0)); u64 (u64 (u64 (g + f) + u64 (e + d)) + u64 (u64 (c + b) + u64 (a + 0))); u64 (u64 (u64 (h + g) + u64 (f + e)) + u64 (u64 (d + c) + u64 (b + a)))]; [reflexivity|].
  transitivity [(a + 0); (a + (b + 0)); (a + (b + (c + 0))); (a + (b + (c + (d + 0)))); (a + (b + (c + (d + (e + 0))))); (a + (b + (c + (d + (e + (f + 0)))))); (a + (b + (c + (d + (e + (f + (g + 0))))))); (a + (b + (c + (d + (e + (f + (g + (h + 0))))))))]; [|reflexivity].
  unwrap. repeat (f_equal; try lia).
Qed.

(** ** Words of a block *)
Definition blk (x : wptr) (n : Z) : Prop := words (w_arr x) /\ 0 <= w_off x /\ w_off x + n <= zlen (w_arr x).
Definition W (x : wptr) (j : Z) : Z := zn 0 (w_arr x) (w_off x + j).
Definition pcs (x : wptr) (j : Z) : Z := popcount (W x j).
Definition bbit (x : wptr) (t : Z) : Z := wbit (W x (t / 64)) (t mod 64).
Definition bones (x : wptr) (t : Z) : Z := sumf (bbit x) 0 t.
Definition bsel (x : wptr) (n k r : Z) : Prop := 0 <= r < 64 * n /\ bbit x r = 1 /\ bones x r = k.

Lemma words_zn ws i : words ws -> 0 <= zn 0 ws i < 2 ^ 64.
Proof.
  intros H. unfold zn. destruct (nth_in_or_default (Z.to_nat i) ws 0) as [I | ->]; [|lia].
  unfold words in H. rewrite Forall_forall in H. auto.
Qed.

Lemma W_word x n j : blk x n -> 0 <= W x j < 2 ^ 64.
Proof. intros (H & _). apply words_zn; auto. Qed.

Lemma ldw_ok x n j : blk x n -> 0 <= j < n -> ldw x j = Ok (W x j).
Proof. intros (_ & H1 & H2) Hj. unfold ldw, W. apply geti_ok. lia. Qed.

Lemma ldws_ok x n m : blk x n -> forall j, 0 <= j -> j + Z.of_nat m <= n -> ldws x j m = Ok (map (W x) (zrange j m)).
Proof.
  intros Hb. induction m; intros j Hj Hm; [reflexivity|].
  cbn [ldws zrange map]. rewrite (ldw_ok x n) by (auto; lia). cbn [bind]. rewrite IHm by lia. reflexivity.
Qed.

Lemma bbit_01 x t : 0 <= bbit x t <= 1.
Proof. apply wbit_01. Qed.

Lemma bones_split x q r : 0 <= q -> 0 <= r <= 64 -> bones x (64 * q + r) = sumf (pcs x) 0 q + wones (W x q) 0 r.
Proof.
  intros Hq Hr. unfold bones. rewrite (sumf_split _ 0 (q * 64)) by lia. f_equal.
  - change 0 with (0 * 64) at 1. rewrite <- sumf_groups by lia. apply sumf_ext. intros i Hi.
    unfold pcs. rewrite popcount_wones. unfold wones.
    replace (sumf (bbit x) (i * 64) ((i + 1) * 64)) with (sumf (bbit x) (0 + i * 64) (64 + i * 64)) by (f_equal; lia).
    rewrite <- sumf_shift. apply sumf_ext. intros t Ht. unfold bbit.
    replace ((t + i * 64) / 64) with i by lia. replace ((t + i * 64) mod 64) with t by lia. reflexivity.
  - unfold wones. replace (sumf (bbit x) (q * 64) (64 * q + r)) with (sumf (bbit x) (0 + q * 64) (r + q * 64)) by (f_equal; lia).
    rewrite <- sumf_shift. apply sumf_ext. intros t Ht. unfold bbit.
    destruct (Z.eq_dec r 64).
    + replace ((t + q * 64) / 64) with q by lia. replace ((t + q * 64) mod 64) with t by lia. reflexivity.
    + replace ((t + q * 64) / 64) with q by lia. replace ((t + q * 64) mod 64) with t by lia. reflexivity.
Qed.

Lemma pcs_bound x j : 0 <= pcs x j <= 64.
Proof. apply popcount_bound. Qed.

Lemma bones_words x q : 0 <= q -> bones x (64 * q) = sumf (pcs x) 0 q.
Proof. intros. rewrite <- (Z.add_0_r (64 * q)), bones_split by lia. unfold wones. rewrite (sumf_empty (wbit _)) by lia. lia. Qed.

Lemma sum_pcs_bound x q : 0 <= q -> 0 <= sumf (pcs x) 0 q <= 64 * q.
Proof. intros. pose proof (sumf_bound (pcs x) 64 0 q ltac:(lia) ltac:(intros; apply pcs_bound)). lia. Qed.

Lemma bones_bound x t : 0 <= t -> 0 <= bones x t <= t.
Proof. intros. pose proof (sumf_bound (bbit x) 1 0 t ltac:(lia) ltac:(intros; apply bbit_01)). unfold bones. lia. Qed.

(** A word-level answer gives a block-level one. *)
Lemma bsel_of_wsel x n k q r : 0 <= q < n -> wsel (W x q) (k - sumf (pcs x) 0 q) r -> bsel x n k (64 * q + r).
Proof.
  intros Hq (Hr & Hb & Ho). split; [lia|]. split.
  - unfold bbit. replace ((64 * q + r) / 64) with q by lia. replace ((64 * q + r) mod 64) with r by lia.
    unfold wbit. rewrite Hb. reflexivity.
  - rewrite bones_split by lia. lia.
Qed.

(** ** Rank *)
Lemma rank_mask_ok i : 0 <= i -> rank_mask i = Z.ones (i mod 64 + 1).
Proof.
  intros Hi. unfold rank_mask. change 63 with (Z.ones 6). rewrite Z.land_ones by lia. change (2 ^ 6) with 64.
  rewrite Z.ones_equiv. destruct (Z.eq_dec (i mod 64) 63) as [E|E].
  - replace ((i + 1) mod 64) with 0 by lia. rewrite E. reflexivity.
  - replace ((i + 1) mod 64) with (i mod 64 + 1) by lia.
    destruct (Z.eqb_spec (i mod 64 + 1) 0); [lia|]. cbn [negb b2z]. rewrite Z.mul_1_l.
    assert (0 < 2 ^ (i mod 64 + 1)) by (apply Z.pow_pos_nonneg; lia).
    assert (2 ^ (i mod 64 + 1) <= 2 ^ 63) by (apply Z.pow_le_mono_r; lia).
    rewrite wrap_small by lia. lia.
Qed.

Lemma land_ones_word w t : 0 <= w < 2 ^ 64 -> 0 <= t -> 0 <= Z.land w (Z.ones t) < 2 ^ 64.
Proof.
  intros Hw Ht. rewrite Z.land_ones by lia. assert (0 < 2 ^ t) by (apply Z.pow_pos_nonneg; lia).
  pose proof (Z.mod_pos_bound w (2 ^ t) ltac:(lia)). pose proof (Z.mod_le w (2 ^ t) ltac:(lia) ltac:(lia)). lia.
Qed.

Lemma popcount_land_ones w t : 0 <= t <= 64 -> popcount (Z.land w (Z.ones t)) = wones w 0 t.
Proof.
  intros Ht. rewrite popcount_wones, (wones_split _ 0 t 64) by lia.
  replace (wones (Z.land w (Z.ones t)) t 64) with 0.
  - rewrite Z.add_0_r. unfold wones. apply sumf_ext. intros j Hj. unfold wbit.
    rewrite Z.land_spec, Z.testbit_ones_nonneg by lia. replace (j <? t) with true by lia. rewrite andb_true_r. reflexivity.
  - symmetry. unfold wones. apply sumf_const0. intros j Hj. unfold wbit.
    rewrite Z.land_spec, Z.testbit_ones_nonneg by lia. replace (j <? t) with false by lia. rewrite andb_false_r. reflexivity.
Qed.

Definition pm_ok (pm : popcount_mode) : Prop := pm = PC_broadword \/ pm = PC_builtin.

Lemma popcount_u64_ok c pm w : pm_ok pm -> 0 <= w < 2 ^ 64 -> popcount_u64 c pm w = Ok (popcount w).
Proof. intros [-> | ->] Hw; [apply popcount_u64_broadword; auto|reflexivity]. Qed.

Lemma rank_in_block_ok c pm x n i : pm_ok pm -> blk x n -> 0 <= i < 64 * n ->
  rank_in_block c pm x i = Ok (wones (W x (i / 64)) 0 (i mod 64 + 1)).
Proof.
  intros Hp Hb Hi. unfold rank_in_block. rewrite (ldw_ok x n) by (auto; lia). cbn [bind].
  rewrite rank_mask_ok by lia. pose proof (W_word x n (i / 64) Hb).
  rewrite popcount_u64_ok; auto.
  - rewrite popcount_land_ones by lia. reflexivity.
  - apply land_ones_word; lia.
Qed.

Lemma sum_loop_ok get f fuel : forall b acc, (forall j, b <= j < b + Z.of_nat fuel -> get j = Ok (f j) /\ 0 <= f j <= 64) ->
  0 <= acc -> acc + 64 * Z.of_nat fuel < 2 ^ 64 -> sum_loop get b fuel acc = Ok (acc + sumf f b (b + Z.of_nat fuel)).
Proof.
  induction fuel; intros b acc Hg Ha Hb.
  - cbn [sum_loop]. rewrite sumf_empty by lia. f_equal; lia.
  - cbn [sum_loop]. destruct (Hg b ltac:(lia)) as [E B]. rewrite E. cbn [bind].
    rewrite wrap_small by lia. rewrite IHfuel; [|intros; apply Hg; lia|lia|lia].
    rewrite (sumf_first f b) by lia. replace (b + 1 + Z.of_nat fuel) with (b + Z.of_nat (S fuel)) by lia. f_equal; lia.
Qed.

Lemma fill_counts_ok get f n counts : (1 <= n <= 8)%nat -> length counts = n ->
  (forall j, 0 <= j < Z.of_nat n -> get j = Ok (f j) /\ 0 <= f j <= 64) ->
  exists cs, fill_counts get n counts = Ok cs /\ length cs = n /\ forall j, 0 <= j < Z.of_nat n -> zn 0 cs j = sumf f 0 j.
Proof.
  intros Hn Hl Hg. unfold fill_counts. rewrite seti_ok by (unfold zlen; lia). cbn [bind].
  set (step := fun (counts : list Z) (b : Z) => _).
  assert (G : forall k b cs, 1 <= b -> b + Z.of_nat k <= Z.of_nat n -> length cs = n -> (forall j, 0 <= j < b -> zn 0 cs j = sumf f 0 j) ->
    exists cs', foldM step (zrange b k) cs = Ok cs' /\ length cs' = n /\ forall j, 0 <= j < b + Z.of_nat k -> zn 0 cs' j = sumf f 0 j).
  { induction k; intros b cs Hb Hk Hc Hp.
    - exists cs. split; [reflexivity|]. split; auto. intros; apply Hp; lia.
    - cbn [zrange foldM]. unfold step at 1. rewrite geti_ok by (unfold zlen; lia). cbn [bind].
      destruct (Hg (b - 1) ltac:(lia)) as [E B]. rewrite E. cbn [bind]. rewrite seti_ok by (unfold zlen; lia). cbn [bind].
      rewrite Hp by lia.
      pose proof (sumf_bound f 64 0 (b - 1) ltac:(lia) ltac:(intros; apply Hg; lia)) as B2.
      rewrite wrap_small by lia.
      destruct (IHk (b + 1) (upd cs b (sumf f 0 (b - 1) + f (b - 1)))) as (cs' & E' & L' & P'); try lia.
      + unfold upd. rewrite length_upd_nat. auto.
      + intros j Hj. rewrite zn_upd by (unfold zlen; lia). destruct (Z.eqb_spec j b).
        * subst. rewrite <- sumf_succ by lia. f_equal; lia.
        * apply Hp; lia.
      + exists cs'. split; auto. split; auto. intros; apply P'; lia. }
  destruct (G (n - 1)%nat 1 (upd counts 0 0)) as (cs & E & L & P); try lia.
  - unfold upd. rewrite length_upd_nat. auto.
  - intros j Hj. rewrite zn_upd by (unfold zlen; lia). replace j with 0 by lia. rewrite sumf_empty by lia. reflexivity.
  - exists cs. split; auto. split; auto. intros; apply P; lia.
Qed.

Lemma store_words_ok arr o v : 0 <= o -> o + zlen v <= zlen arr ->
  exists a, store_words arr o v = Ok a /\ zlen a = zlen arr /\
    forall j, 0 <= j < zlen arr -> zn 0 a j = if (o <=? j) && (j <? o + zlen v) then zn 0 v (j - o) else zn 0 arr j.
Proof.
  intros Ho Hl. unfold store_words.
  set (step := fun (arr : list Z) '(j, y) => _).
  assert (G : forall v s arr, 0 <= s -> o + s + zlen v <= zlen arr ->
    exists a, foldM step (combine (zrange s (length v)) v) arr = Ok a /\ zlen a = zlen arr /\
    forall j, 0 <= j < zlen arr -> zn 0 a j = if (o + s <=? j) && (j <? o + s + zlen v) then zn 0 v (j - o - s) else zn 0 arr j).
  { clear v arr Hl. induction v as [|y v IH]; intros s arr Hs Hl.
    - exists arr. split; [reflexivity|]. split; auto. intros j Hj. change (zlen (@nil Z)) with 0.
      replace ((o + s <=? j) && (j <? o + s + 0)) with false by lia. reflexivity.
    - rewrite zlen_cons in *. cbn [length zrange combine foldM]. unfold step at 1.
      rewrite seti_ok by (pose proof (zlen_nonneg v); lia). cbn [bind].
      destruct (IH (s + 1) (upd arr (o + s) y)) as (a & E & L & P); [lia|rewrite zlen_upd; lia|].
      exists a. split; auto. rewrite zlen_upd in *. split; auto. intros j Hj. rewrite P by auto.
      rewrite zn_upd by (pose proof (zlen_nonneg v); lia). pose proof (zlen_nonneg v).
      destruct (Z.eqb_spec j (o + s)).
      + subst j. replace (o + (s + 1) <=? o + s) with false by lia. cbn [andb].
        replace ((o + s <=? o + s) && (o + s <? o + s + (1 + zlen v))) with true by lia.
        replace (o + s - o - s) with 0 by lia. rewrite zn_cons_0. reflexivity.
      + replace (o + (s + 1) <=? j) with (o + s <=? j) by lia. replace (o + (s + 1) + zlen v) with (o + s + (1 + zlen v)) by lia.
        destruct ((o + s <=? j) && (j <? o + s + (1 + zlen v))) eqn:EE; [|reflexivity].
        rewrite zn_cons_S by lia. f_equal; lia. }
  destruct (G v 0 arr ltac:(lia) ltac:(lia)) as (a & E & L & P). exists a. split; auto. split; auto.
  intros j Hj. rewrite P by auto. rewrite Z.add_0_r, Z.sub_0_r. reflexivity.
Qed.

Lemma fill_cells h f (step := fun (cs : list Z) (j : Z) => let* w := h j in seti cs j (popcount w)) : forall k b cs,
  0 <= b -> b + Z.of_nat k <= zlen cs -> (forall j, b <= j < b + Z.of_nat k -> h j = Ok (f j)) ->
  exists cs', foldM step (zrange b k) cs = Ok cs' /\ zlen cs' = zlen cs /\
    forall j, 0 <= j < zlen cs -> zn 0 cs' j = if (b <=? j) && (j <? b + Z.of_nat k) then popcount (f j) else zn 0 cs j.
Proof.
  induction k; intros b cs Hb Hk Hh.
  - exists cs. split; [reflexivity|]. split; auto. intros j Hj. replace ((b <=? j) && (j <? b + Z.of_nat 0)) with false by lia. reflexivity.
  - cbn [zrange foldM]. unfold step at 1. rewrite Hh by lia. cbn [bind]. rewrite seti_ok by lia. cbn [bind].
    destruct (IHk (b + 1) (upd cs b (popcount (f b)))) as (cs' & E & L & P); [lia|rewrite zlen_upd; lia|intros; apply Hh; lia|].
    rewrite zlen_upd in *. exists cs'. split; auto. split; auto. intros j Hj. rewrite P by auto. rewrite zn_upd by lia.
    destruct (Z.eqb_spec j b).
    + subst. replace (b + 1 <=? b) with false by lia. replace ((b <=? b) && (b <? b + Z.of_nat (S k))) with true by lia. reflexivity.
    + replace ((b + 1 <=? j) && (j <? b + 1 + Z.of_nat k)) with ((b <=? j) && (j <? b + Z.of_nat (S k))) by lia. reflexivity.
Qed.

(** The static arrays keep their sizes and [sums[0] = 0]. *)
Definition stat_ok (n : nat) (st : stat) : Prop :=
  length (st_c st) = n /\ length (st_s st) = S n /\ zn 0 (st_s st) 0 = 0.

Lemma stat_init_ok n : stat_ok n (stat_init n).
Proof. split; [apply repeat_length|]. split; [apply repeat_length|reflexivity]. Qed.

Definition rank_result (n : nat) (x : wptr) (i : Z) (r : res (Z * stat)) : Prop :=
  exists st, r = Ok (bones x (i + 1), st) /\ stat_ok n st.

(** Final addition of the two parts. *)
Lemma rank_sum n x i s r st : (n <= 8)%nat -> 0 <= i < 64 * Z.of_nat n -> stat_ok n st ->
  s = sumf (pcs x) 0 (i / 64) -> r = wones (W x (i / 64)) 0 (i mod 64 + 1) ->
  rank_result n x i (Ok (u64 (s + r), st)).
Proof.
  intros Hn Hi Hs -> ->. exists st. split; auto.
  assert (E : i + 1 = 64 * (i / 64) + (i mod 64 + 1)) by lia. replace (bones x (i + 1)) with (bones x (64 * (i / 64) + (i mod 64 + 1))) by (f_equal; lia). clear E.
  rewrite bones_split by lia.
  pose proof (sum_pcs_bound x (i / 64) ltac:(lia)). pose proof (wones_bound (W x (i / 64)) 0 (i mod 64 + 1) ltac:(lia)).
  rewrite wrap_small by lia. reflexivity.
Qed.

Lemma rank_generic_ok c n m st x i : (1 <= n <= 8)%nat -> blk x (Z.of_nat n) -> 0 <= i < 64 * Z.of_nat n -> stat_ok n st ->
  pm_ok (rm_pcm m) -> rm_psm m <> PS_parallel ->
  rank_result n x i (rank_generic c n m st x i).
Proof.
  intros Hn Hb Hi Hs Hp Hq. unfold rank_generic. rewrite massert_true by lia. cbn [bind].
  rewrite (rank_in_block_ok c _ x (Z.of_nat n)) by auto. cbn [bind].
  set (get := fun b => _).
  assert (Hg : forall j, 0 <= j < Z.of_nat n -> get j = Ok (pcs x j) /\ 0 <= pcs x j <= 64).
  { intros j Hj. split; [|apply pcs_bound]. unfold get. rewrite (ldw_ok x (Z.of_nat n)) by auto. cbn [bind].
    apply popcount_u64_ok; auto. apply (W_word x (Z.of_nat n)); auto. }
  destruct (rm_psm m); [| |congruence].
  - rewrite (sum_loop_ok get (pcs x)); [|intros; apply Hg; lia|lia|lia]. cbn [bind].
    apply rank_sum; auto; try lia. rewrite Z2Nat.id by lia. reflexivity.
  - destruct (fill_counts_ok get (pcs x) n (st_c st)) as (cs & E & L & P); auto; try apply Hs.
    rewrite E. cbn [bind]. rewrite geti_ok by (unfold zlen; lia). cbn [bind].
    apply rank_sum; auto; try lia.
    + destruct Hs as (? & ? & ?). split; auto.
    + apply P. lia.
Qed.

Lemma popcount_vec_block x n : blk x (Z.of_nat n) -> 
  exists ws, ldws x 0 n = Ok ws /\ popcount_vec ws = map (pcs x) (zrange 0 n).
Proof.
  intros Hb. exists (map (W x) (zrange 0 n)). split; [apply (ldws_ok x (Z.of_nat n)); auto; lia|].
  rewrite popcount_vec_ok.
  - rewrite map_map. reflexivity.
  - unfold words. rewrite Forall_map, Forall_forall. intros j _. apply (W_word x (Z.of_nat n)); auto.
Qed.

Lemma zlen_pcs x n : zlen (map (pcs x) (zrange 0 n)) = Z.of_nat n.
Proof. unfold zlen. rewrite map_length, length_zrange. reflexivity. Qed.

Lemma zn_pcs x n j : 0 <= j < Z.of_nat n -> zn 0 (map (pcs x) (zrange 0 n)) j = pcs x j.
Proof. intros Hj. rewrite (zn_map _ 0) by (unfold zlen; rewrite length_zrange; lia). rewrite zn_zrange by lia. f_equal; lia. Qed.

Lemma get_pcs x n j : 0 <= j < Z.of_nat n -> geti (map (pcs x) (zrange 0 n)) j = Ok (pcs x j) /\ 0 <= pcs x j <= 64.
Proof.
  intros Hj. split; [|apply pcs_bound]. rewrite geti_ok by (rewrite zlen_pcs; lia). rewrite zn_pcs by lia. reflexivity.
Qed.

Lemma rank_vec_loop_ok c n st x i : (1 <= n <= 8)%nat -> blk x (Z.of_nat n) -> 0 <= i < 64 * Z.of_nat n -> stat_ok n st ->
  rank_result n x i (rank_vec_loop c n st x i).
Proof.
  intros Hn Hb Hi Hs. unfold rank_vec_loop. rewrite massert_true by lia. cbn [bind].
  rewrite (rank_in_block_ok c _ x (Z.of_nat n)) by (unfold pm_ok; auto). cbn [bind].
  destruct (popcount_vec_block x n Hb) as (ws & -> & PV). cbn [bind]. rewrite PV.
  rewrite (sum_loop_ok _ (pcs x)); [|intros; apply get_pcs; lia|lia|lia]. cbn [bind].
  apply rank_sum; auto; try lia. rewrite Z2Nat.id by lia. reflexivity.
Qed.

Lemma rank_vec_unrolled_ok c n st x i : (1 <= n <= 8)%nat -> blk x (Z.of_nat n) -> 0 <= i < 64 * Z.of_nat n -> stat_ok n st ->
  rank_result n x i (rank_vec_unrolled c n st x i).
Proof.
  intros Hn Hb Hi Hs. unfold rank_vec_unrolled. rewrite massert_true by lia. cbn [bind].
  rewrite (rank_in_block_ok c _ x (Z.of_nat n)) by (unfold pm_ok; auto). cbn [bind].
  destruct (popcount_vec_block x n Hb) as (ws & -> & PV). cbn [bind]. rewrite PV.
  destruct (fill_counts_ok (geti (map (pcs x) (zrange 0 n))) (pcs x) n (st_c st)) as (cs & E & L & P);
    [auto|apply Hs|intros; apply get_pcs; lia|].
  rewrite E. cbn [bind]. rewrite geti_ok by (unfold zlen; lia). cbn [bind].
  apply rank_sum; auto; try lia.
  - destruct Hs as (? & ? & ?). split; auto.
  - apply P. lia.
Qed.

(** What the two vector prefix sums have in common. *)
Definition prefix_ok (n : nat) (psum : list Z -> list Z) : Prop :=
  forall xs, length xs = n -> Forall (fun v => 0 <= v <= 64) xs -> psum xs = inclusive xs n.

Lemma zlen_inclusive xs n : zlen (inclusive xs n) = Z.of_nat n.
Proof. unfold zlen, inclusive. rewrite map_length, length_zrange. reflexivity. Qed.

Lemma zn_inclusive xs n j : 0 <= j < Z.of_nat n -> zn 0 (inclusive xs n) j = sumf (zn 0 xs) 0 (j + 1).
Proof. intros Hj. unfold inclusive. rewrite (zn_map _ 0) by (unfold zlen; rewrite length_zrange; lia). rewrite zn_zrange by lia. f_equal; lia. Qed.

Lemma inclusive_ext xs ys n : (forall j, 0 <= j < Z.of_nat n -> zn 0 xs j = zn 0 ys j) -> inclusive xs n = inclusive ys n.
Proof.
  intros H. unfold inclusive. apply map_ext_in. intros j Hj. apply in_zrange in Hj. apply sumf_ext. intros; apply H; lia.
Qed.

(** Stored sums. *)
Lemma store_sums_ok x n st : stat_ok n st ->
  exists sums, store_words (st_s st) 1 (inclusive (map (pcs x) (zrange 0 n)) n) = Ok sums /\ length sums = S n /\
    forall j, 0 <= j <= Z.of_nat n -> zn 0 sums j = sumf (pcs x) 0 j.
Proof.
  intros (_ & H2 & H3).
  assert (L : zlen (st_s st) = Z.of_nat n + 1) by (unfold zlen; lia).
  destruct (store_words_ok (st_s st) 1 (inclusive (map (pcs x) (zrange 0 n)) n)) as (a & E & La & P);
    [lia|rewrite zlen_inclusive; lia|].
  exists a. split; auto. split; [unfold zlen in *; lia|]. intros j Hj. rewrite P by lia. rewrite zlen_inclusive.
  destruct (Z.eq_dec j 0).
  - subst. cbn [Z.leb andb Z.compare]. rewrite sumf_empty by lia. exact H3.
  - replace ((1 <=? j) && (j <? 1 + Z.of_nat n)) with true by lia.
    rewrite zn_inclusive by lia. replace (j - 1 + 1) with j by lia. apply sumf_ext. intros t Ht. apply zn_pcs. lia.
Qed.

Lemma pcs_small x n : Forall (fun v => 0 <= v <= 64) (map (pcs x) (zrange 0 n)).
Proof. rewrite Forall_map, Forall_forall. intros; apply pcs_bound. Qed.

Lemma rank_vec_parallel_ok c n psum st x i : (1 <= n <= 8)%nat -> blk x (Z.of_nat n) -> 0 <= i < 64 * Z.of_nat n -> stat_ok n st ->
  prefix_ok n psum -> rank_result n x i (rank_vec_parallel c n psum st x i).
Proof.
  intros Hn Hb Hi Hs Hp. unfold rank_vec_parallel. rewrite massert_true by lia. cbn [bind].
  rewrite (rank_in_block_ok c _ x (Z.of_nat n)) by (unfold pm_ok; auto). cbn [bind].
  destruct (popcount_vec_block x n Hb) as (ws & -> & PV). cbn [bind]. rewrite PV.
  rewrite Hp; [|rewrite map_length, length_zrange; auto|apply pcs_small].
  destruct (store_sums_ok x n st Hs) as (sums & E & L & P). rewrite E. cbn [bind].
  rewrite geti_ok by (unfold zlen; lia). cbn [bind]. apply rank_sum; auto; try lia.
  - destruct Hs as (? & ? & ?). split; auto. cbn [st_s st_c]. split; auto. rewrite P by lia. apply sumf_empty; lia.
  - apply P. lia.
Qed.

Lemma rank_u256_builtin_parallel_ok c st x i : blk x 4 -> 0 <= i < 256 -> stat_ok 4 st ->
  rank_result 4 x i (rank_u256_builtin_parallel c st x i).
Proof.
  intros Hb Hi Hs. unfold rank_u256_builtin_parallel. rewrite massert_true by lia. cbn [bind].
  destruct Hs as (H1 & H2 & H3). assert (L1 : zlen (st_c st) = 4) by (unfold zlen; lia).
  rewrite seti_ok by lia. cbn [bind].
  change [1; 2; 3] with (zrange 1 3).
  destruct (fill_cells (fun j => ldw x (j - 1)) (fun j => W x (j - 1)) 3 1 (upd (st_c st) 0 0)) as (cs & E & L & P);
    [lia|rewrite zlen_upd; lia|intros; apply (ldw_ok x 4); auto; lia|].
  rewrite E. cbn [bind]. rewrite zlen_upd in *.
  rewrite (rank_in_block_ok c _ x 4) by (unfold pm_ok; auto). cbn [bind].
  assert (Lc : length cs = 4%nat) by (unfold zlen in *; lia).
  rewrite (firstn_all2 cs) by lia.
  assert (V : forall j, 0 <= j < 4 -> zn 0 cs j = if j =? 0 then 0 else pcs x (j - 1)).
  { intros j Hj. rewrite P by lia. destruct (Z.eqb_spec j 0).
    - subst. cbn [Z.leb Z.compare andb]. rewrite zn_upd by lia. reflexivity.
    - replace ((1 <=? j) && (j <? 1 + Z.of_nat 3)) with true by lia. reflexivity. }
  rewrite prefixsum_m256i_ok; auto.
  2:{ rewrite Forall_forall. intros v Hv. apply In_nth with (d := 0) in Hv. destruct Hv as (k & Hk & <-).
      specialize (V (Z.of_nat k) ltac:(lia)). unfold zn in V. rewrite Nat2Z.id in V. rewrite V.
      destruct (Z.of_nat k =? 0); [lia|apply pcs_bound]. }
  destruct (store_words_ok cs 0 (inclusive cs 4)) as (a & Ea & La & Pa); [lia|rewrite zlen_inclusive; lia|].
  rewrite Ea. cbn [bind]. rewrite geti_ok by lia. cbn [bind].
  apply rank_sum; auto; try lia.
  - split; [|split]; cbn [st_c st_s]; auto. unfold zlen in *; lia.
  - rewrite Pa by lia. rewrite zlen_inclusive. replace ((0 <=? i / 64) && (i / 64 <? 0 + Z.of_nat 4)) with true by lia.
    rewrite Z.sub_0_r, zn_inclusive by lia. rewrite sumf_first by lia. rewrite V by lia. cbn [Z.eqb].
    replace (i / 64 + 1) with (i / 64 + 1) by lia. rewrite Z.add_0_l.
    rewrite (sumf_ext (zn 0 cs) (fun t => pcs x (t + -1))).
    + rewrite (sumf_shift (pcs x)). f_equal; lia.
    + intros t Ht. rewrite V by lia. destruct (Z.eqb_spec t 0); [lia|]. reflexivity.
Qed.

Lemma fill_pcs x n cs : blk x (Z.of_nat n) -> length cs = n ->
  foldM (fun cnts j => let* w := ldw x j in seti cnts j (popcount w)) (zrange 0 n) cs = Ok (map (pcs x) (zrange 0 n)).
Proof.
  intros Hb Hl. destruct (fill_cells (fun j => ldw x j) (W x) n 0 cs) as (cs' & E & L & P);
    [lia|unfold zlen; lia|intros; apply (ldw_ok x (Z.of_nat n)); auto; lia|].
  rewrite E. f_equal. apply (list_ext 0).
  - rewrite zlen_pcs. unfold zlen in *; lia.
  - intros j Hj. rewrite L in Hj. rewrite P by auto. unfold zlen in Hj. rewrite zn_pcs by lia.
    replace ((0 <=? j) && (j <? 0 + Z.of_nat n)) with true by lia. reflexivity.
Qed.

Lemma rank_u512_builtin_parallel_ok c st x i : blk x 8 -> 0 <= i < 512 -> stat_ok 8 st ->
  rank_result 8 x i (rank_u512_builtin_parallel c st x i).
Proof.
  intros Hb Hi Hs. unfold rank_u512_builtin_parallel. rewrite massert_true by lia. cbn [bind].
  change [0; 1; 2; 3; 4; 5; 6; 7] with (zrange 0 8).
  rewrite (fill_pcs x 8) by (auto; apply Hs). cbn [bind].
  rewrite (rank_in_block_ok c _ x 8) by (unfold pm_ok; auto). cbn [bind].
  rewrite (firstn_all2 (map _ _)) by (rewrite map_length, length_zrange; lia).
  rewrite prefixsum_m512i_ok; [|rewrite map_length, length_zrange; auto|apply pcs_small].
  destruct (store_sums_ok x 8 st Hs) as (sums & E & L & P). rewrite E. cbn [bind].
  rewrite geti_ok by (unfold zlen; lia). cbn [bind]. apply rank_sum; auto; try lia.
  - split; [reflexivity|]. cbn [st_s st_c]. split; auto. rewrite P by lia. apply sumf_empty; lia.
  - apply P. lia.
Qed.

Lemma rank_u256_ok c m st x i : rank256_supported m = true -> blk x 4 -> 0 <= i < 256 -> stat_ok 4 st ->
  rank_result 4 x i (rank_u256 c m st x i).
Proof.
  intros Hm Hb Hi Hs.
  destruct m; try discriminate Hm;
    first [ apply rank_generic_ok; auto; try lia; unfold pm_ok; vm_compute; (auto || discriminate)
          | apply rank_vec_loop_ok; auto; lia | apply rank_vec_unrolled_ok; auto; lia
          | apply rank_u256_builtin_parallel_ok; auto
          | apply rank_vec_parallel_ok; auto; try lia; intros xs; apply prefixsum_m256i_ok ].
Qed.

Lemma rank_u512_ok c m st x i : rank512_supported m = true -> blk x 8 -> 0 <= i < 512 -> stat_ok 8 st ->
  rank_result 8 x i (rank_u512 c m st x i).
Proof.
  intros Hm Hb Hi Hs.
  destruct m; try discriminate Hm;
    first [ apply rank_generic_ok; auto; try lia; unfold pm_ok; vm_compute; (auto || discriminate)
          | apply rank_vec_loop_ok; auto; lia | apply rank_vec_unrolled_ok; auto; lia
          | apply rank_u512_builtin_parallel_ok; auto
          | apply rank_vec_parallel_ok; auto; try lia; intros xs; apply prefixsum_m512i_ok ].
Qed.

Lemma rank_b64_ok x i : blk x 1 -> 0 <= i < 64 -> rank_b64 x i = Ok (bones x (i + 1)).
Proof.
  intros Hb Hi. unfold rank_b64. cbv zeta. rewrite (wrap_small 64 (i + 1)) by lia.
  assert (E : (if i + 1 =? 64 then Ok (2 ^ 64 - 1)
    else let* t := shl64 1 (i + 1) in Ok (u64 (b2z (negb (i + 1 =? 0)) * t - 1))) = Ok (Z.ones (i + 1))).
  { rewrite Z.ones_equiv. destruct (Z.eqb_spec (i + 1) 64) as [->|]; [reflexivity|].
    unfold shl64. replace ((0 <=? i + 1) && (i + 1 <? 64)) with true by lia. cbn [bind].
    rewrite Z.shiftl_mul_pow2, Z.mul_1_l by lia.
    assert (0 < 2 ^ (i + 1)) by (apply Z.pow_pos_nonneg; lia).
    assert (2 ^ (i + 1) <= 2 ^ 63) by (apply Z.pow_le_mono_r; lia).
    replace (i + 1 =? 0) with false by lia. cbn [negb b2z]. rewrite Z.mul_1_l. unwrap. f_equal; lia. }
  rewrite E. cbn [bind]. rewrite (ldw_ok x 1) by (auto; lia). cbn [bind]. f_equal.
  rewrite popcount_land_ones by lia.
  pose proof (bones_split x 0 (i + 1) ltac:(lia) ltac:(lia)) as B. rewrite (sumf_empty (pcs x)) in B by lia.
  cbn [Z.mul] in B. rewrite !Z.add_0_l in B. symmetry; exact B.
Qed.

(** ** Select *)
Definition select_result (n : nat) (x : wptr) (k : Z) (r : res (Z * stat)) : Prop :=
  exists p st, r = Ok (p, st) /\ bsel x (Z.of_nat n) k p /\ stat_ok n st.

(** The word holding the (k+1)-th one. *)
Lemma find_word x n k : 0 <= k < bones x (64 * Z.of_nat n) ->
  exists q, 0 <= q < Z.of_nat n /\ sumf (pcs x) 0 q <= k < sumf (pcs x) 0 (q + 1).
Proof.
  intros Hk. rewrite bones_words in Hk by lia. induction n.
  - rewrite sumf_empty in Hk by lia. lia.
  - destruct (Z.lt_ge_cases k (sumf (pcs x) 0 (Z.of_nat n))) as [L|G].
    + destruct IHn as (q & Hq & H); [lia|]. exists q. split; [lia|auto].
    + exists (Z.of_nat n). split; [lia|]. split; auto. replace (Z.of_nat n + 1) with (Z.of_nat (S n)) by lia. apply Hk.
Qed.

Lemma select_loop_ok c pm x n fuel k : pm_ok pm -> blk x n -> 0 <= k < 2 ^ 64 -> forall i cnt q,
  0 <= i <= q -> q < i + Z.of_nat fuel -> i + Z.of_nat fuel <= n -> 
  sumf (pcs x) 0 q <= k < sumf (pcs x) 0 (q + 1) ->
  select_loop c pm x fuel i (k - sumf (pcs x) 0 i) cnt = Ok (q, k - sumf (pcs x) 0 q, pcs x q).
Proof.
  intros Hp Hb Hk0. induction fuel; intros i cnt q Hi Hq Hn Hk; [lia|].
  cbn [select_loop]. rewrite (ldw_ok x n) by (auto; lia). cbn [bind].
  rewrite popcount_u64_ok by (auto; apply (W_word x n); auto). cbn [bind]. fold (pcs x i).
  rewrite sumf_succ in Hk by lia. pose proof (sumf_succ (pcs x) 0 i ltac:(lia)) as Es.
  destruct (Z.eq_dec i q).
  - subst q. replace (k - sumf (pcs x) 0 i <? pcs x i) with true by lia. reflexivity.
  - pose proof (sumf_mono (pcs x) 0 (i + 1) q ltac:(lia) ltac:(intros; apply pcs_bound)) as M.
    replace (k - sumf (pcs x) 0 i <? pcs x i) with false by lia.
    replace (k - sumf (pcs x) 0 i - pcs x i) with (k - sumf (pcs x) 0 (i + 1)) by lia.
    pose proof (sum_pcs_bound x (i + 1) ltac:(lia)).
    rewrite wrap_small by lia. apply IHfuel; try lia. rewrite sumf_succ by lia. lia.
Qed.

Lemma select_in_word c sm x n k q : blk x n -> 0 <= q < n -> sumf (pcs x) 0 q <= k < sumf (pcs x) 0 (q + 1) ->
  exists r, select_u64 c sm (W x q) (k - sumf (pcs x) 0 q) = Ok r /\ bsel x n k (64 * q + r).
Proof.
  intros Hb Hq Hk. rewrite sumf_succ in Hk by lia.
  destruct (select_u64_ok c sm (W x q) (k - sumf (pcs x) 0 q)) as (r & E & S).
  - apply (W_word x n); auto.
  - fold (pcs x q). lia.
  - exists r. split; auto. apply bsel_of_wsel; auto.
Qed.

Lemma select_generic_ok c n m st x k : (1 <= n <= 8)%nat -> blk x (Z.of_nat n) -> 0 <= k < bones x (64 * Z.of_nat n) -> stat_ok n st ->
  pm_ok (sl_pcm m) -> sl_scm_loop m = true -> select_result n x k (select_generic c n m st x k).
Proof.
  intros Hn Hb Hk Hs Hp Hl. unfold select_generic. rewrite Hl.
  destruct (find_word x n k Hk) as (q & Hq & Hqk).
  pose proof (bones_bound x (64 * Z.of_nat n) ltac:(lia)).
  pose proof (select_loop_ok c _ x (Z.of_nat n) n k Hp Hb ltac:(lia) 0 0 q ltac:(lia) ltac:(lia) ltac:(lia) Hqk) as EL.
  change (sumf (pcs x) 0 0) with 0 in EL. rewrite Z.sub_0_r in EL. rewrite EL. cbn [bind].
  pose proof (sumf_succ (pcs x) 0 q ltac:(lia)).
  rewrite massert_true by lia. cbn [bind]. rewrite (ldw_ok x (Z.of_nat n)) by (auto; lia). cbn [bind].
  destruct (select_in_word c (sl_swm m) x (Z.of_nat n) k q) as (r & E & S); auto. rewrite E. cbn [bind].
  pose proof S as (B & _). rewrite wrap_small by lia.
  exists (q * 64 + r), st. split; auto. split; auto. rewrite Z.mul_comm. auto.
Qed.

Lemma mask_ones q m : fold_right (fun (c : bool) acc => b2z c + 2 * acc) 0 (repeat true q ++ repeat false m) = 2 ^ Z.of_nat q - 1.
Proof.
  induction q.
  - cbn [repeat app]. induction m; [reflexivity|]. cbn [repeat fold_right b2z]. rewrite IHm. reflexivity.
  - cbn [repeat app fold_right b2z]. rewrite IHq. rewrite Nat2Z.inj_succ, Z.pow_succ_r by lia. lia.
Qed.

Lemma map2_repeat {A B C} (f : A -> B -> C) (y : B) l : map2 f l (repeat y (length l)) = map (fun x => f x y) l.
Proof. induction l; cbn [length repeat map2 map]; [reflexivity|]. rewrite IHl. reflexivity. Qed.

Lemma threshold_map P : forall n a q, a <= q <= a + Z.of_nat n -> (forall j, a <= j < a + Z.of_nat n -> P j = (j <? q)) ->
  map P (zrange a n) = repeat true (Z.to_nat (q - a)) ++ repeat false (Z.to_nat (a + Z.of_nat n - q)).
Proof.
  induction n; intros a q Hq HP.
  - replace (Z.to_nat (q - a)) with 0%nat by lia. replace (Z.to_nat (a + Z.of_nat 0 - q)) with 0%nat by lia. reflexivity.
  - cbn [zrange map]. destruct (Z.eq_dec a q).
    + subst q. rewrite Z.sub_diag. cbn [Z.to_nat repeat app].
      replace (Z.to_nat (a + Z.of_nat (S n) - a)) with (S n) by lia. cbn [repeat].
      rewrite HP by lia. rewrite Z.ltb_irrefl. f_equal.
      transitivity (map (fun _ => false) (zrange (a + 1) n)).
      * apply map_ext_in. intros j Hj. apply in_zrange in Hj. rewrite HP by lia. lia.
      * clear. generalize (a + 1). induction n; intros z; [reflexivity|]. cbn [zrange map repeat]. rewrite IHn. reflexivity.
    + replace (Z.to_nat (q - a)) with (S (Z.to_nat (q - (a + 1)))) by lia. cbn [repeat app].
      rewrite HP by lia. replace (a <? q) with true by lia. f_equal.
      rewrite (IHn (a + 1) q); [|lia|intros; apply HP; lia].
      replace (a + 1 + Z.of_nat n - q) with (a + Z.of_nat (S n) - q) by lia. reflexivity.
Qed.

Lemma sgn_small x : 0 <= x < 2 ^ 63 -> sgn 64 x = x.
Proof. intros. unfold sgn. change (64 - 1) with 63. destruct (Z.ltb_spec x (2 ^ 63)); lia. Qed.

Lemma cmple_ok x n k q : (n <= 8)%nat -> 0 <= k <= 64 * Z.of_nat n -> 0 <= q < Z.of_nat n ->
  sumf (pcs x) 0 q <= k < sumf (pcs x) 0 (q + 1) ->
  vcmple_mask (inclusive (map (pcs x) (zrange 0 n)) n) (set1 64 n k) = 2 ^ q - 1.
Proof.
  intros Hn Hk Hq Hqk. unfold vcmple_mask, set1. rewrite wrap_small by lia.
  set (l := inclusive _ _). assert (L : length l = n) by (unfold l, inclusive; rewrite map_length, length_zrange; auto).
  replace (repeat k n) with (repeat k (length l)) by (rewrite L; reflexivity). rewrite map2_repeat. unfold l, inclusive. rewrite map_map.
  rewrite (threshold_map _ n 0 q).
  - rewrite mask_ones. rewrite Z2Nat.id by lia. rewrite Z.sub_0_r. reflexivity.
  - lia.
  - intros j Hj. rewrite (sumf_ext _ (pcs x)) by (intros t Ht; apply zn_pcs; lia).
    pose proof (sum_pcs_bound x (j + 1) ltac:(lia)). rewrite !sgn_small by lia.
    destruct (Z.lt_ge_cases j q).
    + pose proof (sumf_mono (pcs x) 0 (j + 1) q ltac:(lia) ltac:(intros; apply pcs_bound)). lia.
    + pose proof (sumf_mono (pcs x) 0 (q + 1) (j + 1) ltac:(lia) ltac:(intros; apply pcs_bound)). lia.
Qed.

Lemma lt_cnt_ok q : 0 <= q <= 8 -> geti lt_cnt (2 ^ q - 1) = Ok q.
Proof.
  intros Hq. assert (q = 0 \/ q = 1 \/ q = 2 \/ q = 3 \/ q = 4 \/ q = 5 \/ q = 6 \/ q = 7 \/ q = 8) as C by lia.
  repeat (destruct C as [->|C]; [vm_compute; reflexivity|]). subst. vm_compute. reflexivity.
Qed.

Lemma select_vec_tail_ok c n cnts st x k : (1 <= n <= 8)%nat -> blk x (Z.of_nat n) -> 0 <= k < bones x (64 * Z.of_nat n) -> stat_ok n st ->
  length cnts = n -> select_result n x k (select_vec_tail c cnts (inclusive (map (pcs x) (zrange 0 n)) n) st x k).
Proof.
  intros Hn Hb Hk Hs Hl. unfold select_vec_tail.
  destruct (find_word x n k Hk) as (q & Hq & Hqk).
  pose proof (bones_bound x (64 * Z.of_nat n) ltac:(lia)).
  replace (length (inclusive _ _)) with n by (unfold inclusive; rewrite map_length, length_zrange; reflexivity).
  rewrite (cmple_ok x n k q) by (auto; lia). rewrite lt_cnt_ok by lia. cbn [bind].
  destruct (store_sums_ok x n st Hs) as (sums & E & L & P). rewrite E. cbn [bind].
  rewrite (ldw_ok x (Z.of_nat n)) by (auto; lia). cbn [bind]. rewrite geti_ok by (unfold zlen; lia). cbn [bind].
  rewrite P by lia. pose proof (sum_pcs_bound x q ltac:(lia)). rewrite (wrap_small 64 (k - _)) by lia.
  destruct (select_in_word c S_pdep x (Z.of_nat n) k q) as (r & Er & S); auto. rewrite Er. cbn [bind].
  pose proof S as (B & _). rewrite wrap_small by lia.
  eexists _, _. split; [reflexivity|]. split; [rewrite Z.mul_comm; auto|].
  split; auto. split; auto. cbn [st_s]. rewrite P by lia. apply sumf_empty. lia.
Qed.

Lemma select_vec_builtin_ok c n psum st x k : (1 <= n <= 8)%nat -> blk x (Z.of_nat n) -> 0 <= k < bones x (64 * Z.of_nat n) -> stat_ok n st ->
  prefix_ok n psum -> select_result n x k (select_vec_builtin c n psum st x k).
Proof.
  intros Hn Hb Hk Hs Hp. unfold select_vec_builtin. rewrite fill_pcs by (auto; apply Hs). cbn [bind].
  assert (L : length (map (pcs x) (zrange 0 n)) = n) by (rewrite map_length, length_zrange; auto).
  rewrite (firstn_all2 (map _ _)) by lia.
  rewrite Hp; [|auto|apply pcs_small]. apply select_vec_tail_ok; auto.
Qed.

Lemma select_vec_simd_ok c n psum st x k : (1 <= n <= 8)%nat -> blk x (Z.of_nat n) -> 0 <= k < bones x (64 * Z.of_nat n) -> stat_ok n st ->
  prefix_ok n psum -> select_result n x k (select_vec_simd c n psum st x k).
Proof.
  intros Hn Hb Hk Hs Hp. unfold select_vec_simd. destruct (popcount_vec_block x n Hb) as (ws & -> & PV). cbn [bind]. rewrite PV.
  rewrite Hp; [|rewrite map_length, length_zrange; auto|apply pcs_small]. apply select_vec_tail_ok; auto. apply Hs.
Qed.

Lemma select_u256_ok c m st x k : select256_supported m = true -> blk x 4 -> 0 <= k < bones x 256 -> stat_ok 4 st ->
  select_result 4 x k (select_u256 c m st x k).
Proof.
  intros Hm Hb Hk Hs.
  destruct m; try discriminate Hm;
    first [ apply select_generic_ok; auto; try lia; unfold pm_ok; vm_compute; auto
          | apply select_vec_builtin_ok; auto; try lia; intros xs; apply prefixsum_m256i_ok
          | apply select_vec_simd_ok; auto; try lia; intros xs; apply prefixsum_m256i_ok ].
Qed.

Lemma select_u512_ok c m st x k : select512_supported m = true -> blk x 8 -> 0 <= k < bones x 512 -> stat_ok 8 st ->
  select_result 8 x k (select_u512 c m st x k).
Proof.
  intros Hm Hb Hk Hs.
  destruct m; try discriminate Hm;
    first [ apply select_generic_ok; auto; try lia; unfold pm_ok; vm_compute; auto
          | apply select_vec_builtin_ok; auto; try lia; intros xs; apply prefixsum_m512i_ok
          | apply select_vec_simd_ok; auto; try lia; intros xs; apply prefixsum_m512i_ok ].
Qed.

(** ** Block types *)
Definition statics_ok (b : btype) (s : statics) : Prop := stat_ok (nwords b) (s_rank s) /\ stat_ok (nwords b) (s_select s).

Lemma statics_init_ok b : statics_ok b (statics_init b).
Proof. split; apply stat_init_ok. Qed.

Lemma block_size_words b : block_size b = 64 * words_in_block b /\ words_in_block b = Z.of_nat (nwords b).
Proof. destruct b; split; reflexivity. Qed.

Lemma block_rank_ok c b s x i : supported b = true -> statics_ok b s -> blk x (words_in_block b) -> 0 <= i < block_size b ->
  exists s', block_rank c b s x i = Ok (bones x (i + 1), s') /\ statics_ok b s'.
Proof.
  intros Hsup (S1 & S2) Hb Hi. destruct b as [|rm sm|rm sm]; cbn [block_rank supported] in *; apply andb_true_iff in Hsup || clear Hsup.
  - rewrite rank_b64_ok by auto. cbn [bind]. exists s. split; auto. split; auto.
  - destruct (rank_u256_ok c rm (s_rank s) x i) as (st & E & Hst); auto; try apply Hsup. rewrite E. cbn [bind].
    eexists. split; [reflexivity|]. split; auto.
  - destruct (rank_u512_ok c rm (s_rank s) x i) as (st & E & Hst); auto; try apply Hsup. rewrite E. cbn [bind].
    eexists. split; [reflexivity|]. split; auto.
Qed.

Lemma block_select_ok c b s x k : supported b = true -> statics_ok b s -> blk x (words_in_block b) -> 0 <= k < bones x (block_size b) ->
  exists p s', block_select c b s x k = Ok (p, s') /\ bsel x (words_in_block b) k p /\ statics_ok b s'.
Proof.
  intros Hsup (S1 & S2) Hb Hi. destruct b as [|rm sm|rm sm]; cbn [block_select supported] in *; apply andb_true_iff in Hsup || clear Hsup.
  - change (words_in_block B64) with 1 in *. rewrite (ldw_ok x 1) by (auto; lia). cbn [bind].
    change (block_size B64) with (64 * 1) in Hi. rewrite bones_words in Hi by lia.
    destruct (select_in_word c S_pdep x 1 k 0) as (r & E & S); [auto|lia|rewrite sumf_empty by lia; exact Hi|].
    rewrite sumf_empty, Z.sub_0_r in E by lia. rewrite E. cbn [bind].
    eexists _, _. split; [reflexivity|]. split; [exact S|]. split; auto.
  - destruct (select_u256_ok c sm (s_select s) x k) as (p & st & E & Hp & Hst); auto; try apply Hsup. rewrite E. cbn [bind].
    eexists _, _. split; [reflexivity|]. split; auto. split; auto.
  - destruct (select_u512_ok c sm (s_select s) x k) as (p & st & E & Hp & Hst); auto; try apply Hsup. rewrite E. cbn [bind].
    eexists _, _. split; [reflexivity|]. split; auto. split; auto.
Qed.

(** ** Statics are always well formed *)
Lemma bind_inv {A B} (e : res A) (f : A -> res B) b : bind e f = Ok b -> exists a, e = Ok a /\ f a = Ok b.
Proof. destruct e; cbn [bind]; intros H; try discriminate. eauto. Qed.

Ltac inv_bind := repeat match goal with
  | H : bind _ _ = Ok _ |- _ => apply bind_inv in H; destruct H as (? & ? & H)
  | H : Ok _ = Ok _ |- _ => inversion H; clear H; subst
  end.

Lemma seti_len l i v l' : seti l i v = Ok l' -> length l' = length l.
Proof. unfold seti. destruct (_ && _); intros H; inversion H. unfold upd. apply length_upd_nat. Qed.

Lemma foldM_len {S A} (P : S -> S -> Prop) (f : S -> A -> res S) l : (forall s, P s s) -> (forall a b c, P a b -> P b c -> P a c) ->
  (forall s a s', f s a = Ok s' -> P s s') -> forall s s', foldM f l s = Ok s' -> P s s'.
Proof.
  intros HR HT Hf. induction l; cbn [foldM]; intros s s' H; [inversion H; subst; auto|].
  apply bind_inv in H. destruct H as (s1 & H1 & H2). eapply HT; eauto.
Qed.

Lemma fill_cells_len h l : forall cs cs', foldM (fun cs j => let* w := h j in seti cs j (popcount w)) l cs = Ok cs' -> length cs' = length cs.
Proof.
  intros. apply (foldM_len (fun a b : list Z => length b = length a)) in H; auto; [congruence|].
  intros s a s' Hs. inv_bind. eapply seti_len; eauto.
Qed.

Lemma seti_zn0 l i v l' : 1 <= i -> seti l i v = Ok l' -> zn 0 l' 0 = zn 0 l 0.
Proof.
  intros Hi. unfold seti. destruct (_ && _) eqn:E; intros H; inversion H.
  rewrite zn_upd by lia. destruct (Z.eqb_spec 0 i); [lia|reflexivity].
Qed.

Lemma store_words_len arr v a : forall o, store_words arr o v = Ok a -> length a = length arr.
Proof.
  intros o H. unfold store_words in H. apply (foldM_len (fun a b : list Z => length b = length a)) in H; auto; [congruence|].
  intros s [j y] s' Hs. eapply seti_len; eauto.
Qed.

Lemma store_words_0 arr v a : store_words arr 1 v = Ok a -> zn 0 a 0 = zn 0 arr 0.
Proof.
  unfold store_words. set (step := fun (arr : list Z) '(j, y) => _).
  assert (G : forall v k j arr a, 0 <= j -> foldM step (combine (zrange j k) v) arr = Ok a -> zn 0 a 0 = zn 0 arr 0).
  { clear. induction v as [|y v IH]; intros k j arr a Hj H.
    - destruct (zrange j k); cbn [combine foldM] in H; inversion H; reflexivity.
    - destruct k; cbn [zrange combine foldM] in H; [inversion H; reflexivity|].
      apply bind_inv in H. destruct H as (a1 & H1 & H2). apply IH in H2; [|lia]. rewrite H2. eapply seti_zn0; [|exact H1]. lia. }
  intros H. eapply G; [|exact H]. lia.
Qed.

Lemma fill_counts_len get n cs cs' : fill_counts get n cs = Ok cs' -> length cs' = length cs.
Proof.
  unfold fill_counts. intros H. inv_bind. apply (foldM_len (fun a b : list Z => length b = length a)) in H; auto.
  - apply seti_len in H0. congruence.
  - congruence.
  - intros s a s' Hs. inv_bind. eapply seti_len; eauto.
Qed.

Lemma rank_generic_stat c n m st x i r st' : stat_ok n st -> rank_generic c n m st x i = Ok (r, st') -> stat_ok n st'.
Proof.
  intros (H1 & H2 & H3) H. unfold rank_generic in H. cbv zeta in H. inv_bind.
  destruct (rm_psm m); inv_bind; try (split; auto; fail).
  match goal with H : fill_counts _ _ _ = _ |- _ => apply fill_counts_len in H end. split; [|split]; cbn [st_c st_s]; auto; congruence.
Qed.

Lemma rank_vec_loop_stat c n st x i r st' : stat_ok n st -> rank_vec_loop c n st x i = Ok (r, st') -> stat_ok n st'.
Proof. intros S H. unfold rank_vec_loop in H. cbv zeta in H. inv_bind. auto. Qed.

Lemma rank_vec_unrolled_stat c n st x i r st' : stat_ok n st -> rank_vec_unrolled c n st x i = Ok (r, st') -> stat_ok n st'.
Proof.
  intros (H1 & H2 & H3) H. unfold rank_vec_unrolled in H. cbv zeta in H. inv_bind.
  match goal with H : fill_counts _ _ _ = _ |- _ => apply fill_counts_len in H end. split; [|split]; cbn [st_c st_s]; auto; congruence.
Qed.

Lemma rank_vec_parallel_stat c n psum st x i r st' : stat_ok n st -> rank_vec_parallel c n psum st x i = Ok (r, st') -> stat_ok n st'.
Proof.
  intros (H1 & H2 & H3) H. unfold rank_vec_parallel in H. cbv zeta in H. inv_bind.
  match goal with H : store_words _ _ _ = _ |- _ => pose proof (store_words_len _ _ _ _ H); pose proof (store_words_0 _ _ _ H) end.
  split; [|split]; cbn [st_c st_s]; auto; congruence.
Qed.

Lemma rank_u256_stat c m st x i r st' : stat_ok 4 st -> rank_u256 c m st x i = Ok (r, st') -> stat_ok 4 st'.
Proof.
  intros S H. destruct m; cbn [rank_u256] in H;
    first [ eapply rank_generic_stat; eauto; fail | eapply rank_vec_loop_stat; eauto; fail
          | eapply rank_vec_unrolled_stat; eauto; fail | eapply rank_vec_parallel_stat; eauto; fail | idtac ].
  unfold rank_u256_builtin_parallel in H. cbv zeta in H. inv_bind. destruct S as (H1' & H2' & H3').
  match goal with H : store_words _ _ _ = _ |- _ => apply store_words_len in H end.
  match goal with H : foldM _ _ _ = _ |- _ => apply fill_cells_len in H end.
  match goal with H : seti _ _ _ = _ |- _ => apply seti_len in H end.
  split; [|split]; cbn [st_c st_s]; auto; congruence.
Qed.

Lemma rank_u512_stat c m st x i r st' : stat_ok 8 st -> rank_u512 c m st x i = Ok (r, st') -> stat_ok 8 st'.
Proof.
  intros S H. destruct m; cbn [rank_u512] in H;
    first [ eapply rank_generic_stat; eauto; fail | eapply rank_vec_loop_stat; eauto; fail
          | eapply rank_vec_unrolled_stat; eauto; fail | eapply rank_vec_parallel_stat; eauto; fail | idtac ].
  unfold rank_u512_builtin_parallel in H. cbv zeta in H. inv_bind. destruct S as (H1' & H2' & H3').
  match goal with H : foldM _ _ _ = _ |- _ => apply fill_cells_len in H end.
  match goal with H : store_words _ _ _ = _ |- _ => pose proof (store_words_len _ _ _ _ H); pose proof (store_words_0 _ _ _ H) end.
  split; [|split]; cbn [st_c st_s]; auto; congruence.
Qed.

Lemma select_generic_stat c n m st x k r st' : stat_ok n st -> select_generic c n m st x k = Ok (r, st') -> stat_ok n st'.
Proof. intros S H. unfold select_generic in H. destruct (sl_scm_loop m); inv_bind; auto. destruct x0 as [[? ?] ?]. inv_bind. auto. Qed.

Lemma select_vec_tail_stat c n cnts ms st x k r st' : stat_ok n st -> length cnts = n ->
  select_vec_tail c cnts ms st x k = Ok (r, st') -> stat_ok n st'.
Proof.
  intros (H1 & H2 & H3) L H. unfold select_vec_tail in H. cbv zeta in H. inv_bind.
  match goal with H : store_words _ _ _ = _ |- _ => pose proof (store_words_len _ _ _ _ H); pose proof (store_words_0 _ _ _ H) end.
  split; [|split]; cbn [st_c st_s]; auto; congruence.
Qed.

Lemma select_vec_builtin_stat c n psum st x k r st' : stat_ok n st -> select_vec_builtin c n psum st x k = Ok (r, st') -> stat_ok n st'.
Proof.
  intros S H. unfold select_vec_builtin in H. inv_bind. apply fill_cells_len in H0.
  eapply select_vec_tail_stat; [exact S| |exact H]. destruct S. congruence.
Qed.

Lemma select_vec_simd_stat c n psum st x k r st' : stat_ok n st -> select_vec_simd c n psum st x k = Ok (r, st') -> stat_ok n st'.
Proof. intros S H. unfold select_vec_simd in H. inv_bind. eapply select_vec_tail_stat; [exact S| |exact H]. apply S. Qed.

Lemma select_u256_stat c m st x k r st' : stat_ok 4 st -> select_u256 c m st x k = Ok (r, st') -> stat_ok 4 st'.
Proof.
  intros S H. destruct m; cbn [select_u256] in H;
    first [ eapply select_generic_stat; eauto; fail | eapply select_vec_builtin_stat; eauto; fail | eapply select_vec_simd_stat; eauto; fail ].
Qed.

Lemma select_u512_stat c m st x k r st' : stat_ok 8 st -> select_u512 c m st x k = Ok (r, st') -> stat_ok 8 st'.
Proof.
  intros S H. destruct m; cbn [select_u512] in H;
    first [ eapply select_generic_stat; eauto; fail | eapply select_vec_builtin_stat; eauto; fail | eapply select_vec_simd_stat; eauto; fail ].
Qed.

Lemma block_rank_stat c b s x i r s' : statics_ok b s -> block_rank c b s x i = Ok (r, s') -> statics_ok b s'.
Proof.
  intros (S1 & S2) H. destruct b; cbn [block_rank] in H; inv_bind; [split; auto|..]; destruct x0; inv_bind; split; cbn [s_rank s_select nwords] in *; auto.
  - eapply rank_u256_stat; [|eassumption]; assumption.
  - eapply rank_u512_stat; [|eassumption]; assumption.
Qed.

Lemma block_select_stat c b s x i r s' : statics_ok b s -> block_select c b s x i = Ok (r, s') -> statics_ok b s'.
Proof.
  intros (S1 & S2) H. destruct b; cbn [block_select] in H; inv_bind; [split; auto|..]; destruct x0; inv_bind; split; cbn [s_rank s_select nwords] in *; auto.
  - eapply select_u256_stat; [|eassumption]; assumption.
  - eapply select_u512_stat; [|eassumption]; assumption.
Qed.

Lemma reachable_statics_ok c b s : reachable_statics c b s -> statics_ok b s.
Proof.
  induction 1; [apply statics_init_ok|eapply block_rank_stat; eauto|eapply block_select_stat; eauto].
Qed.
