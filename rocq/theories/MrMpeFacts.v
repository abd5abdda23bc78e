(** Facts about RankMPE64: blocks, headers, pairs of bytes, the choice of the form. *)
From Coq Require Import ZifyBool.
From Verif Require Import Base BaseFacts Words WordFacts BlockFacts NodeFacts Trees TreeBuild Mem MemFacts Spec BitmapFacts KernelFacts SpecPoppy PoppyFacts PoppyFacts2 SpecText MrRank MrRankFacts MrRankFacts2 MrMpe SpecMpe.
Ltac Zify.zify_post_hook ::= Z.div_mod_to_equations.

(** ** Blocks of 128 bytes *)
Definition nbig (t : list Z) : Z := (zlen t + 127) / 128.
Lemma nbig_nonneg t : 0 <= nbig t.
Proof. unfold nbig. pose proof (zlen_nonneg t). lia. Qed.
Lemma mp_blocks_ok t : zlen t < 2 ^ 60 -> mp_blocks (zlen t) = nbig t.
Proof.
  intros H. unfold mp_blocks, mp_extended, nbig. pose proof (zlen_nonneg t). destruct (zlen t mod 128 >? 0) eqn:E; [rewrite wrap_small by lia|]; lia.
Qed.

Definition bsum (t : list Z) (b : Z) : Z := ts t (1024 * b) (1024 * (b + 1)).
Definition homob2 (t : list Z) (b : Z) : bool := (128 * (b + 1) <=? zlen t) && ((bsum t b =? 0) || (bsum t b =? 1024)).

Lemma mp_homoblock_ok t b : text_ok t -> zlen t < 2 ^ 60 -> 0 <= b -> mp_homoblock t (128 * b) = Ok (homob2 t b).
Proof.
  intros H Hl Hb. unfold mp_homoblock.
  destruct (all_bytes_ok (fun b => negb (b >? 0)) t (128 * b) Hl ltac:(lia) 128 0 ltac:(lia)) as (h & -> & Hh). cbn [bind].
  destruct (all_bytes_ok (fun b => negb (b <? 255)) t (128 * b) Hl ltac:(lia) 128 0 ltac:(lia)) as (g & -> & Hg).
  change (0 + Z.of_nat 128) with 128 in *.
  assert (X1 : h = true <-> 128 * (b + 1) <= zlen t /\ bsum t b = 0).
  { rewrite Hh. unfold bsum. split.
    - intros A. split; [specialize (A 127 ltac:(lia)); lia|]. apply ts_all0. intros i Hi. apply bits_of_zero; [lia|].
      destruct (A (i / 8 - 128 * b) ltac:(lia)) as [_ A2]. replace (128 * b + (i / 8 - 128 * b)) with (i / 8) in A2 by lia.
      pose proof (tbyte t (i / 8) H). lia.
    - intros [A B] k Hk. split; [lia|]. rewrite byte_zero; [reflexivity|auto|lia|]. intros j Hj. apply (ts_zero t (1024 * b) (1024 * (b + 1))); lia. }
  assert (X2 : g = true <-> 128 * (b + 1) <= zlen t /\ bsum t b = 1024).
  { rewrite Hg. unfold bsum. split.
    - intros A. split; [specialize (A 127 ltac:(lia)); lia|]. rewrite ts_all1; [lia|lia|]. intros i Hi. apply bits_of_full; [lia|].
      destruct (A (i / 8 - 128 * b) ltac:(lia)) as [_ A2]. replace (128 * b + (i / 8 - 128 * b)) with (i / 8) in A2 by lia.
      pose proof (tbyte t (i / 8) H). lia.
    - intros [A B] k Hk. split; [lia|]. rewrite byte_full; [reflexivity|auto|lia|]. intros j Hj. apply (ts_full t (1024 * b) (1024 * (b + 1))); lia. }
  unfold homob2. destruct h.
  - f_equal. destruct X1 as [X1 _]. specialize (X1 eq_refl). lia.
  - f_equal. destruct g.
    + destruct X2 as [X2 _]. specialize (X2 eq_refl). lia.
    + symmetry. apply not_true_is_false. intros E. assert (G : 128 * (b + 1) <= zlen t /\ (bsum t b = 0 \/ bsum t b = 1024)) by lia.
      destruct G as [G1 [G2|G2]]; [assert (false = true) by (apply X1; auto)|assert (false = true) by (apply X2; auto)]; discriminate.
Qed.

Definition flags2 (t : list Z) : list Z := map (fun b => b2z (homob2 t b)) (zrange 0 (Z.to_nat (nbig t))).
Lemma mp_empty_ok t : text_ok t -> zlen t < 2 ^ 60 -> mp_empty t = Ok (flags2 t).
Proof.
  intros H Hl. unfold mp_empty. rewrite mp_blocks_ok by lia. unfold flags2. apply mapM_ok.
  intros b Hb. apply in_zrange in Hb. rewrite mp_homoblock_ok by (auto; lia). reflexivity.
Qed.
Lemma zlen_flags2 t : zlen (flags2 t) = nbig t.
Proof. unfold flags2. rewrite zlen_map. unfold zlen. rewrite length_zrange. pose proof (nbig_nonneg t). lia. Qed.
Lemma zn_flags2 t b : 0 <= b < nbig t -> zn 0 (flags2 t) b = b2z (homob2 t b).
Proof. intros H. unfold flags2. rewrite zn_map_zrange by lia. reflexivity. Qed.

(** Kept blocks among the first b. *)
Definition ne2 (t : list Z) (b : Z) : Z := sumf (fun c => if homob2 t c then 0 else 1) 0 b.
Lemma ne2_bound t b : 0 <= b -> 0 <= ne2 t b <= b.
Proof. intros H. pose proof (sumf_bound (fun c => if homob2 t c then 0 else 1) 1 0 b H) as S0. unfold ne2. cbn beta in S0. assert (forall i, 0 <= (if homob2 t i then 0 else 1) <= 1) by (intros; destruct (homob2 t i); lia). specialize (S0 ltac:(auto)). lia. Qed.
Lemma ne2_succ t b : 0 <= b -> ne2 t (b + 1) = ne2 t b + (if homob2 t b then 0 else 1).
Proof. intros H. unfold ne2. rewrite sumf_succ by lia. reflexivity. Qed.
Lemma ne2_mono t a b : 0 <= a <= b -> ne2 t a <= ne2 t b.
Proof. intros H. apply sumf_mono; [lia|]. intros. destruct (homob2 t i); lia. Qed.
Lemma ne2_lt t a b : 0 <= a < b -> homob2 t a = false -> ne2 t a + 1 <= ne2 t b.
Proof. intros H E. pose proof (ne2_succ t a ltac:(lia)). rewrite E in H0. pose proof (ne2_mono t (a + 1) b ltac:(lia)). lia. Qed.
Lemma not_empty2_ok t : not_empty (flags2 t) = ne2 t (nbig t).
Proof. unfold not_empty, flags2. rewrite not_empty_gen. pose proof (nbig_nonneg t). rewrite Z2Nat.id by lia. reflexivity. Qed.

(** ** The bytes of the kept blocks *)
Lemma popcount_byte t p : text_ok t -> 0 <= p -> popcount (zn 0 t p) = ts t (8 * p) (8 * p + 8).
Proof.
  intros H Hp. rewrite (popcount_narrow 8) by (pose proof (tbyte t p H); lia). unfold ts.
  rewrite <- (Z.add_0_l (8 * p)) at 1. rewrite (Z.add_comm (8 * p) 8). rewrite <- sumf_shift. apply sumf_ext. intros x Hx. unfold wb, tb.
  replace ((x + 8 * p) / 8) with p by lia. f_equal. lia.
Qed.
Lemma ts_over t p : 0 <= p -> zlen t <= p -> ts t (8 * p) (8 * p + 8) = 0.
Proof. intros Hp H. apply ts_all0. intros i Hi. apply bits_of_zero; [lia|]. apply zn_over. lia. Qed.

Definition mfillP (t : list Z) (b : Z) (temp : list Z) (bc rank j : Z) (st : list Z * Z * Z) : Prop :=
  let '(temp', bc', rank') := st in
  zlen temp' = zlen temp /\ bc' = bc + j /\ rank' = rank + ts t (1024 * b) (1024 * b + 8 * j) /\
  (forall k, 0 <= k < j -> zn 0 temp' (bc + k) = zn 0 t (128 * b + k)) /\
  (forall k, 0 <= k < bc \/ bc + j <= k -> zn 0 temp' k = zn 0 temp k).

Lemma mfill_ok t b temp bc rank : text_ok t -> zlen t < 2 ^ 58 -> 0 <= b -> 1024 * b < 2 ^ 62 -> 0 <= bc -> bc + 128 <= zlen temp -> 0 <= rank <= 1024 * b ->
  exists temp', foldM (mp_fill_byte t (128 * b)) (zrange 0 128) (temp, bc, rank) = Ok (temp', bc + 128, rank + bsum t b) /\
    zlen temp' = zlen temp /\ (forall k, 0 <= k < 128 -> zn 0 temp' (bc + k) = zn 0 t (128 * b + k)) /\
    (forall k, 0 <= k < bc \/ bc + 128 <= k -> zn 0 temp' k = zn 0 temp k).
Proof.
  intros H Hl Hb Hbb Hbc Hbl Hr.
  destruct (foldM_inv (mp_fill_byte t (128 * b)) (mfillP t b temp bc rank) 128 0 (temp, bc, rank)) as ([[temp' bc'] rank'] & E & P).
  - unfold mfillP. rewrite Z.mul_0_r, !Z.add_0_r, ts_empty. repeat split; try lia; auto.
  - intros j [[tp0 bc0] rk0] Hj (L & -> & -> & P1 & P2). change (0 + Z.of_nat 128) with 128 in Hj. unfold mp_fill_byte.
    pose proof (ts_split t (1024 * b) (1024 * b + 8 * j) (1024 * b + 8 * (j + 1)) ltac:(lia)) as TS.
    pose proof (ts_bound t (1024 * b) (1024 * b + 8 * (j + 1)) ltac:(lia)) as TB.
    replace (1024 * b + 8 * j) with (8 * (128 * b + j)) in TS at 2 by lia. replace (1024 * b + 8 * (j + 1)) with (8 * (128 * b + j) + 8) in TS at 2 by lia.
    assert (S : exists tp1, (forall v, v = zn 0 t (128 * b + j) -> seti tp0 (bc + j) v = Ok tp1) /\ zlen tp1 = zlen temp /\
      (forall k, 0 <= k < j + 1 -> zn 0 tp1 (bc + k) = zn 0 t (128 * b + k)) /\ (forall k, 0 <= k < bc \/ bc + (j + 1) <= k -> zn 0 tp1 k = zn 0 temp k)).
    { exists (upd tp0 (bc + j) (zn 0 t (128 * b + j))). split; [intros v ->; apply seti_ok; lia|]. rewrite zlen_upd. split; [exact L|]. split.
      - intros k Hk. rewrite zn_upd by lia. destruct (bc + k =? bc + j) eqn:E; [f_equal; lia|apply P1; lia].
      - intros k Hk. rewrite zn_upd by lia. destruct (k =? bc + j) eqn:E; [lia|apply P2; lia]. }
    destruct S as (tp1 & S1 & S2 & S3 & S4). destruct (128 * b + j <? zlen t) eqn:E.
    + rewrite geti_ok by lia. cbn [bind]. rewrite S1 by reflexivity. cbn [bind]. eexists. split; [reflexivity|]. unfold mfillP.
      split; [exact S2|]. split; [lia|]. split; [|split; [exact S3|exact S4]]. rewrite popcount_byte by (auto; lia). rewrite wrap_small; lia.
    + rewrite S1 by (symmetry; apply zn_over; lia). cbn [bind]. eexists. split; [reflexivity|]. unfold mfillP.
      split; [exact S2|]. split; [lia|]. split; [|split; [exact S3|exact S4]]. rewrite ts_over in TS by lia. lia.
  - change (0 + Z.of_nat 128) with 128 in P. destruct P as (L & -> & -> & P1 & P2). exists temp'. unfold bsum.
    replace (1024 * (b + 1)) with (1024 * b + 8 * 128) by lia. auto.
Qed.

Lemma homob2_sum t b : 0 <= b -> homob2 t b = true -> text_ok t -> bsum t b = if zn 0 t (128 * b) =? 255 then 1024 else 0.
Proof.
  intros Hb E H. unfold homob2 in E. assert (E' : bsum t b = 0 \/ bsum t b = 1024) by lia. unfold bsum in *.
  destruct E' as [E'|E']; rewrite E'.
  - rewrite byte_zero; auto; [lia|]. intros j Hj. apply (ts_zero t (1024 * b) (1024 * (b + 1))); lia.
  - rewrite byte_full; auto; [lia|]. intros j Hj. apply (ts_full t (1024 * b) (1024 * (b + 1))); lia.
Qed.

Definition mscanP (t ranks temp : list Z) (b : Z) (st : list Z * list Z * Z * Z) : Prop :=
  let '(ranks', temp', bc, rank) := st in
  zlen ranks' = zlen ranks /\ zlen temp' = zlen temp /\ bc = 128 * ne2 t b /\ rank = ts t 0 (1024 * b) /\
  (forall c, 0 <= c < b -> zn 0 ranks' (2 * c) = ts t 0 (1024 * c)) /\
  (forall c k, 0 <= c < b -> homob2 t c = false -> 0 <= k < 128 -> zn 0 temp' (128 * ne2 t c + k) = zn 0 t (128 * c + k)).

Lemma mscan_step t ranks temp b st : text_ok t -> zlen t < 2 ^ 58 -> 2 * nbig t + 2 <= zlen ranks -> 128 * ne2 t (nbig t) <= zlen temp ->
  0 <= b < nbig t -> mscanP t ranks temp b st -> exists st', mp_scan_block t (flags2 t) st b = Ok st' /\ mscanP t ranks temp (b + 1) st'.
Proof.
  intros H Hl Hr Hbl Hb. destruct st as [[[r0 b0] bc] rank]. intros (L1 & L2 & -> & -> & P1 & P3).
  assert (NB : nbig t <= 2 ^ 52) by (unfold nbig; lia). pose proof (zlen_nonneg t) as L0.
  unfold mp_scan_block. rewrite seti_ok by lia. cbn [bind]. rewrite seti_ok by (rewrite zlen_upd; lia). cbn [bind].
  rewrite geti_ok by (rewrite zlen_flags2; lia). cbn [bind]. rewrite zn_flags2 by lia.
  set (r1 := upd _ _ _).
  assert (R : zlen r1 = zlen ranks /\ (forall c, 0 <= c < b + 1 -> zn 0 r1 (2 * c) = ts t 0 (1024 * c))).
  { unfold r1. rewrite !zlen_upd. split; [exact L1|].
    intros c Hc. rewrite !zn_upd by (rewrite ?zlen_upd; lia). replace (2 * c =? 2 * b + 1) with false by lia.
    destruct (2 * c =? 2 * b) eqn:E; [do 2 f_equal; lia|]. apply P1. lia. }
  destruct R as (R1 & R2). pose proof (ne2_bound t b ltac:(lia)) as NB1. pose proof (ts_bound t 0 (1024 * b) ltac:(lia)) as TB.
  pose proof (ne2_succ t b ltac:(lia)) as NS. pose proof (ne2_mono t (b + 1) (nbig t) ltac:(lia)) as NM.
  pose proof (ts_split t 0 (1024 * b) (1024 * (b + 1)) ltac:(lia)) as TS. fold (bsum t b) in TS.
  destruct (homob2 t b) eqn:Eh; cbn [b2z].
  - change (1 =? 0) with false. cbv iota.
    assert (In0 : 128 * b < zlen t) by (unfold homob2 in Eh; lia).
    rewrite geti_ok by lia. cbn [bind]. eexists. split; [reflexivity|]. unfold mscanP. split; [exact R1|]. split; [exact L2|].
    split; [lia|]. split; [|split; [exact R2|]].
    + rewrite TS, (homob2_sum t b) by (auto; lia). destruct (zn 0 t (128 * b) =? 255); [apply wrap_small; lia|lia].
    + intros c k Hc Hh Hk. apply P3; auto. destruct (Z.eq_dec c b) as [->|]; [congruence|lia].
  - change (0 =? 0) with true. cbv iota.
    destruct (mfill_ok t b b0 (128 * ne2 t b) (ts t 0 (1024 * b)) H Hl ltac:(lia) ltac:(lia) ltac:(lia) ltac:(lia) ltac:(lia)) as (b1 & -> & F1 & F2 & F3).
    cbn [bind]. eexists. split; [reflexivity|]. unfold mscanP. split; [exact R1|]. split; [lia|]. split; [lia|]. split; [lia|].
    split; [exact R2|].
    intros c k Hc Hh Hk. destruct (Z.eq_dec c b) as [->|]; [apply F2; lia|]. pose proof (ne2_lt t c b ltac:(lia) Hh). pose proof (ne2_bound t c ltac:(lia)).
    rewrite F3 by lia. apply P3; auto; lia.
Qed.

Lemma mp_temp_len_ok nb : 0 <= nb -> mp_temp_len nb = 32 * (nb / 16 + 1).
Proof. intros H. unfold mp_temp_len. destruct ((2 * nb + 2) mod 32 >? 0) eqn:E; lia. Qed.

Lemma mscan_ok t ranks temp : text_ok t -> zlen t < 2 ^ 58 -> zlen ranks = 32 * (nbig t / 16 + 1) -> 128 * ne2 t (nbig t) <= zlen temp ->
  exists ranks' temp', mp_scan t (flags2 t) ranks temp = Ok (ranks', temp') /\ zlen ranks' = zlen ranks /\ zlen temp' = zlen temp /\
    (forall c, 0 <= c <= nbig t -> zn 0 ranks' (2 * c) = ts t 0 (1024 * c)) /\
    (forall k, 2 * nbig t < k -> zn 0 ranks' k = 0) /\
    (forall c k, 0 <= c < nbig t -> homob2 t c = false -> 0 <= k < 128 -> zn 0 temp' (128 * ne2 t c + k) = zn 0 t (128 * c + k)).
Proof.
  intros H Hl Hr Hbl. unfold mp_scan. rewrite mp_blocks_ok by lia. pose proof (nbig_nonneg t) as N0. rewrite mp_temp_len_ok by lia. set (n := nbig t) in *.
  destruct (foldM_inv (mp_scan_block t (flags2 t)) (mscanP t ranks temp) (Z.to_nat n) 0 (ranks, temp, 0, 0)) as ([[[r1 b1] bc] rank] & -> & P).
  - unfold mscanP. rewrite Z.mul_0_r, ts_empty. repeat split; auto; lia.
  - intros k s Hk. apply mscan_step; auto; fold n; lia.
  - rewrite Z.add_0_l, Z2Nat.id in P by lia. destruct P as (L1 & L2 & -> & -> & P1 & P3). cbn [bind]. rewrite seti_ok by lia. cbn [bind].
    rewrite seti_ok by (rewrite zlen_upd; lia). cbn [bind]. set (r2 := upd _ _ _).
    destruct (foldM_inv (fun ranks k => seti ranks k 0) (fun j r => zlen r = zlen ranks /\ (forall k, 0 <= k <= 2 * n -> zn 0 r k = zn 0 r2 k) /\
        (forall k, 2 * n < k < j -> zn 0 r k = 0)) (Z.to_nat (32 * (n / 16 + 1) - (2 * n + 2))) (2 * n + 2) r2) as (r3 & -> & T1 & T2 & T3).
    + unfold r2. rewrite !zlen_upd. split; [exact L1|]. split; [auto|]. intros k Hk. rewrite !zn_upd by (rewrite ?zlen_upd; lia).
      replace (k =? 2 * n + 1) with true by lia. reflexivity.
    + intros k r Hk (Q1 & Q2 & Q3). rewrite seti_ok by lia. eexists. split; [reflexivity|]. rewrite zlen_upd. split; [exact Q1|]. split.
      * intros k' Hk'. rewrite zn_upd by lia. replace (k' =? k) with false by lia. apply Q2. lia.
      * intros k' Hk'. rewrite zn_upd by lia. destruct (k' =? k) eqn:E; [reflexivity|]. apply Q3. lia.
    + cbn [bind]. eexists _, _. split; [reflexivity|]. split; [exact T1|]. split; [exact L2|]. split; [|split; [|exact P3]].
      * intros c Hc. rewrite T2 by lia. unfold r2. rewrite !zn_upd by (rewrite ?zlen_upd; lia). replace (2 * c =? 2 * n + 1) with false by lia.
        destruct (2 * c =? 2 * n) eqn:E; [do 2 f_equal; lia|]. apply P1. lia.
      * intros k Hk. destruct (Z_lt_le_dec k (32 * (n / 16 + 1))); [apply T3; lia|apply zn_over; lia].
Qed.

(** ** Pairs of bytes *)
Definition isp (v : Z) (t : list Z) (b j : Z) : bool := (zn 0 t (128 * b + 2 * j) =? v) && (zn 0 t (128 * b + 2 * j + 1) =? v).
Definition np (v : Z) (t : list Z) (b q : Z) : Z := sumf (fun j => b2z (isp v t b j)) 0 q.
Lemma cnt_bound (p : Z -> bool) q : 0 <= q -> 0 <= sumf (fun j => b2z (p j)) 0 q <= q.
Proof. intros H. pose proof (sumf_bound (fun j => b2z (p j)) 1 0 q H) as S0. cbn beta in S0. assert (forall i, 0 <= b2z (p i) <= 1) by (intros; destruct (p i); cbn; lia). specialize (S0 ltac:(auto)). lia. Qed.
Lemma isp_disj t b j : isp 0 t b j = true -> isp 255 t b j = true -> False.
Proof. unfold isp. lia. Qed.
Lemma pairs_of_ok v t b : pairs_of v t b = np v t b 64.
Proof.
  unfold pairs_of, np, byte_at. change 64 with (Z.of_nat 64). generalize 64%nat as n. induction n; [reflexivity|].
  rewrite zrange_last, filter_app. replace (Z.of_nat (S n)) with (Z.of_nat n + 1) by lia. rewrite sumf_succ by lia. rewrite <- IHn.
  unfold zlen. rewrite app_length, Nat2Z.inj_add. f_equal. rewrite Z.add_0_l. cbn [filter]. fold (isp v t b (Z.of_nat n)). destruct (isp v t b (Z.of_nat n)); reflexivity.
Qed.

(** The block copied to [temp] at [off]. *)
Definition blockAt (t temp : list Z) (b off : Z) : Prop :=
  0 <= off /\ off + 128 <= zlen temp /\ forall k, 0 <= k < 128 -> zn 0 temp (off + k) = zn 0 t (128 * b + k).

Lemma pair_eq_ok v t temp b off j : blockAt t temp b off -> 0 <= j < 64 -> pair_eq v temp (off + 2 * j) = Ok (isp v t b j).
Proof.
  intros (H0 & H1 & H2) Hj. unfold pair_eq, isp. rewrite !geti_ok by lia. cbn [bind]. rewrite H2 by lia.
  replace (off + 2 * j + 1) with (off + (2 * j + 1)) by lia. rewrite H2 by lia. replace (128 * b + (2 * j + 1)) with (128 * b + 2 * j + 1) by lia.
  destruct (zn 0 t (128 * b + 2 * j) =? v); reflexivity.
Qed.

Lemma count_pairs_ok t temp b off : blockAt t temp b off -> count_pairs temp off = Ok (np 0 t b 64 + np 255 t b 64).
Proof.
  intros H. unfold count_pairs.
  match goal with |- foldM ?g _ _ = _ => destruct (foldM_inv g (fun j n => n = np 0 t b j + np 255 t b j) 64 0 0) as (n & E & P) end.
  - reflexivity.
  - intros j n Hj ->. rewrite !(pair_eq_ok _ t temp b) by (auto; lia). cbn [bind]. unfold np. rewrite !sumf_succ by lia.
    destruct (isp 0 t b j) eqn:E0.
    + cbn [bind]. eexists. split; [reflexivity|]. destruct (isp 255 t b j) eqn:E1; [exfalso; eapply isp_disj; eauto|]. cbn [b2z]. lia.
    + cbn [bind]. eexists. split; [reflexivity|]. destruct (isp 255 t b j); cbn [b2z]; lia.
  - rewrite E, P. reflexivity.
Qed.
Lemma count_pairs2_ok t temp b off : blockAt t temp b off -> count_pairs2 temp off = Ok (np 0 t b 64, np 255 t b 64).
Proof.
  intros H. unfold count_pairs2.
  match goal with |- foldM ?g _ _ = _ => destruct (foldM_inv g (fun j n => n = (np 0 t b j, np 255 t b j)) 64 0 (0, 0)) as (n & E & P) end.
  - reflexivity.
  - intros j n Hj ->. rewrite !(pair_eq_ok _ t temp b) by (auto; lia). cbn [bind]. eexists. split; [reflexivity|]. unfold np. rewrite !sumf_succ by lia.
    destruct (isp 0 t b j), (isp 255 t b j); cbn [b2z]; f_equal; lia.
  - rewrite E, P. reflexivity.
Qed.

(** ** The form of a block *)
Definition dz (T : mpe_type) (t : list Z) (b : Z) : bool := drops_zeros T (np 0 t b 64) (np 255 t b 64).
Definition d1 (T : mpe_type) (t : list Z) (b : Z) : bool := drops_ones T (np 0 t b 64) (np 255 t b 64).
Definition code (T : mpe_type) (z o : bool) : Z := match T with MPE1 => b2z z | _ => b2z z + 2 * b2z o end.
Definition hd (z o : bool) : Z := 8 * b2z z + 8 * b2z o.
Definition rmv (T : mpe_type) (t : list Z) (b j : Z) : bool := dz T t b && isp 0 t b j || d1 T t b && isp 255 t b j.
Definition ful (T : mpe_type) (t : list Z) (b j : Z) : bool := d1 T t b && isp 255 t b j.
Definition nrm (T : mpe_type) (t : list Z) (b q : Z) : Z := sumf (fun j => b2z (rmv T t b j)) 0 q.
Definition nfl (T : mpe_type) (t : list Z) (b q : Z) : Z := sumf (fun j => b2z (ful T t b j)) 0 q.

Lemma nrm_parts T t b q : 0 <= q -> nrm T t b q = (if dz T t b then np 0 t b q else 0) + (if d1 T t b then np 255 t b q else 0).
Proof.
  intros Hq. unfold nrm, np. pattern q. apply natlike_ind; auto.
  - destruct (dz T t b), (d1 T t b); reflexivity.
  - intros x Hx IH. unfold Z.succ. rewrite !sumf_succ by lia. rewrite IH. unfold rmv. pose proof (isp_disj t b x).
    destruct (dz T t b), (d1 T t b), (isp 0 t b x), (isp 255 t b x); cbn [andb orb b2z]; try lia; exfalso; auto.
Qed.
Lemma mpe1_same t b : d1 MPE1 t b = dz MPE1 t b.
Proof. reflexivity. Qed.

Lemma choose_ok T t temp b off : blockAt t temp b off -> choose T temp off = Ok (code T (dz T t b) (d1 T t b), nrm T t b 64).
Proof.
  intros H. unfold choose. rewrite nrm_parts by lia. destruct T.
  - rewrite (count_pairs_ok t temp b) by auto. cbn [bind]. unfold dz, d1, code, drops_zeros, drops_ones. destruct (np 0 t b 64 + np 255 t b 64 >? 8); reflexivity.
  - rewrite (count_pairs2_ok t temp b) by auto. cbn [bind]. unfold dz, d1, code, drops_zeros, drops_ones.
    destruct (np 0 t b 64 >? 4) eqn:E0, (np 255 t b 64 >? 4) eqn:E1; cbn [andb]; try (replace (np 255 t b 64 <=? 4) with true by lia); try (replace (np 255 t b 64 <=? 4) with false by lia); try (replace (np 0 t b 64 <=? 4) with true by lia); try (replace (np 0 t b 64 <=? 4) with false by lia); cbn [andb b2z]; do 2 f_equal; lia.
  - rewrite (count_pairs2_ok t temp b) by auto. cbn [bind]. unfold dz, d1, code, drops_zeros, drops_ones. set (n0 := np 0 t b 64). set (n1 := np 255 t b 64).
    change (9 * 2) with 18.
    destruct ((n0 >? 9) && (n1 >? 9)) eqn:E0.
    { replace ((n0 >=? 10) && (n1 >=? 10)) with true by lia. cbn [orb b2z]. do 2 f_equal. }
    replace ((n0 >=? 10) && (n1 >=? 10)) with false by lia. cbn [orb]. rewrite (andb_comm (n1 >=? 18)).
    destruct ((n0 >=? 18) && (n1 <=? 9)) eqn:E1.
    { replace ((n0 <=? 9) && (n1 >=? 18)) with false by lia. cbn [b2z]. do 2 f_equal; lia. }
    destruct ((n0 <=? 9) && (n1 >=? 18)) eqn:E2; cbn [b2z]; do 2 f_equal; lia.
Qed.
Lemma head_ok T z o : (T = MPE1 -> z = o) -> head_bytes T (code T z o) = hd z o.
Proof. intros H. destruct T; [rewrite H by reflexivity|..]; destruct z, o; reflexivity. Qed.

(** The bytes stored for a block, and before it. *)
Definition stored (T : mpe_type) (t : list Z) (b : Z) : Z := if homob2 t b then 0 else 128 + hd (dz T t b) (d1 T t b) - 2 * nrm T t b 64.
Definition moff (T : mpe_type) (t : list Z) (b : Z) : Z := sumf (stored T t) 0 b.

Lemma np_bound v t b : 0 <= np v t b 64 <= 64.
Proof. apply cnt_bound. lia. Qed.
Lemma np_sum t b : np 0 t b 64 + np 255 t b 64 <= 64.
Proof.
  assert (G : forall q, 0 <= q -> np 0 t b q + np 255 t b q <= q); [|apply G; lia].
  intros q Hq. unfold np. pattern q. apply natlike_ind; auto; [reflexivity|]. intros x Hx IH. unfold Z.succ. rewrite !sumf_succ by lia.
  pose proof (isp_disj t b x). destruct (isp 0 t b x), (isp 255 t b x); cbn [b2z]; try lia; exfalso; auto.
Qed.
Lemma nrm_bound T t b q : 0 <= q -> 0 <= nrm T t b q <= q.
Proof. apply cnt_bound. Qed.
Lemma stored_hd T t b : 2 * nrm T t b 64 >= hd (dz T t b) (d1 T t b).
Proof.
  rewrite nrm_parts by lia. pose proof (np_bound 0 t b). pose proof (np_bound 255 t b). unfold dz, d1, hd.
  set (n0 := np 0 t b 64) in *. set (n1 := np 255 t b 64) in *. destruct T; unfold drops_zeros, drops_ones.
  - destruct (n0 + n1 >? 8) eqn:E; cbn [b2z]; lia.
  - destruct (n0 >? 4) eqn:E; destruct (n1 >? 4) eqn:E1; cbn [b2z]; lia.
  - destruct ((n0 >=? 10) && (n1 >=? 10) || (n0 >=? 18) && (n1 <=? 9)) eqn:E; destruct ((n0 >=? 10) && (n1 >=? 10) || (n1 >=? 18) && (n0 <=? 9)) eqn:E1; cbn [b2z]; lia.
Qed.
Lemma stored_bound T t b : 0 <= stored T t b <= 128.
Proof.
  unfold stored. destruct (homob2 t b); [lia|]. pose proof (stored_hd T t b). pose proof (nrm_bound T t b 64 ltac:(lia)).
  unfold hd in *. destruct (dz T t b), (d1 T t b); cbn [b2z] in *; lia.
Qed.
Lemma moff_succ T t b : 0 <= b -> moff T t (b + 1) = moff T t b + stored T t b.
Proof. intros H. unfold moff. rewrite sumf_succ by lia. reflexivity. Qed.
Lemma moff_mono T t a b : 0 <= a <= b -> moff T t a <= moff T t b <= moff T t a + 128 * (b - a).
Proof.
  intros H. unfold moff. rewrite (sumf_split _ 0 a b) by lia. pose proof (sumf_bound (stored T t) 128 a b ltac:(lia) ltac:(intros; apply stored_bound)). lia.
Qed.
Lemma moff_0 T t : moff T t 0 = 0.
Proof. apply sumf_empty. lia. Qed.

(** ** The loop that chooses *)
Definition chooseP (T : mpe_type) (t btc0 : list Z) (b : Z) (st : list Z * Z * Z * Z) : Prop :=
  let '(btc, removed, heads, offset) := st in
  zlen btc = zlen btc0 /\ heads + 128 * ne2 t b - 2 * removed = moff T t b /\ offset = 128 * ne2 t b /\
  (forall c, 0 <= c < b -> zn 0 btc c = if homob2 t c then 0 else code T (dz T t c) (d1 T t c)) /\
  (forall k, b <= k -> zn 0 btc k = zn 0 btc0 k).

Lemma choose_loop T t temp btc0 : nbig t <= zlen btc0 ->
  (forall c, 0 <= c < nbig t -> homob2 t c = false -> blockAt t temp c (128 * ne2 t c)) ->
  exists btc removed heads offset, foldM (choose_block T (flags2 t) temp) (zrange 0 (Z.to_nat (nbig t))) (btc0, 0, 0, 0) = Ok (btc, removed, heads, offset) /\
    chooseP T t btc0 (nbig t) (btc, removed, heads, offset).
Proof.
  intros Hl Hblk. pose proof (nbig_nonneg t) as N0. set (n := nbig t) in *.
  destruct (foldM_inv (choose_block T (flags2 t) temp) (chooseP T t btc0) (Z.to_nat n) 0 (btc0, 0, 0, 0)) as ([[[btc removed] heads] offset] & E & P).
  - unfold chooseP. rewrite moff_0. change (ne2 t 0) with 0. repeat split; auto; lia.
  - intros b [[[btc removed] heads] offset] Hb (L & B & -> & C1 & C2). unfold choose_block. rewrite seti_ok by lia. cbn [bind].
    rewrite geti_ok by (rewrite zlen_flags2; fold n; lia). cbn [bind]. rewrite zn_flags2 by (fold n; lia).
    pose proof (ne2_succ t b ltac:(lia)) as NS. pose proof (moff_succ T t b ltac:(lia)) as MS. unfold stored in MS.
    destruct (homob2 t b) eqn:Eh; cbn [b2z].
    + change (1 =? 0) with false. cbv iota. eexists. split; [reflexivity|]. unfold chooseP. rewrite zlen_upd. split; [exact L|]. split; [lia|]. split; [lia|]. split.
      * intros c Hc. rewrite zn_upd by lia. destruct (c =? b) eqn:E; [replace c with b by lia; rewrite Eh; reflexivity|apply C1; lia].
      * intros k Hk. rewrite zn_upd by lia. replace (k =? b) with false by lia. apply C2. lia.
    + change (0 =? 0) with true. cbv iota. rewrite (choose_ok T t temp b) by (apply Hblk; auto; lia). cbn [bind].
      rewrite seti_ok by (rewrite zlen_upd; lia). cbn [bind]. eexists. split; [reflexivity|]. unfold chooseP. rewrite !zlen_upd. split; [exact L|].
      rewrite head_ok by (intros ->; reflexivity). split; [lia|]. split; [lia|]. split.
      * intros c Hc. rewrite !zn_upd by (rewrite ?zlen_upd; lia). destruct (c =? b) eqn:E; [replace c with b by lia; rewrite Eh; reflexivity|apply C1; lia].
      * intros k Hk. rewrite !zn_upd by (rewrite ?zlen_upd; lia). replace (k =? b) with false by lia. apply C2. lia.
  - rewrite Z.add_0_l, Z2Nat.id in P by lia. eauto 8.
Qed.
