(** RankMPE32: the blocks, the headers and the whole of build.  Choosing and storing
    are those of RankMPE64. *)
From Coq Require Import ZifyBool.
From Verif Require Import Base BaseFacts Words WordFacts BlockFacts NodeFacts Trees TreeBuild Mem MemFacts Spec BitmapFacts KernelFacts SpecPoppy PoppyFacts PoppyFacts2 SpecText MrRank MrRankFacts MrRankFacts2 MrRankFacts3 MrRank32 MrRank32Facts2 MrRank32Facts3 MrMpe SpecMpe MrMpeFacts MrMpeFacts2 MrMpeFacts3 MrMpe32.
Ltac Zify.zify_post_hook ::= Z.div_mod_to_equations.

(** ** Blocks *)
Lemma mp_blocks32_ok t : zlen t <= 2 ^ 32 - 128 -> mp_blocks32 (zlen t) = nbig t.
Proof.
  intros H. unfold mp_blocks32, mp_extended32, nbig. pose proof (zlen_nonneg t). destruct (zlen t mod 128 >? 0) eqn:E; [rewrite wrap_small by lia|]; lia.
Qed.
Lemma nbig32 t : zlen t <= 2 ^ 32 - 128 -> 0 <= nbig t <= 2 ^ 25 - 1.
Proof. intros H. unfold nbig. pose proof (zlen_nonneg t). lia. Qed.
Lemma mp_blocks32_top n : 2 ^ 32 - 128 < n < 2 ^ 32 -> mp_blocks32 n = 0.
Proof. intros H. unfold mp_blocks32, mp_extended32. replace (n mod 128 >? 0) with true by lia. replace (n + (128 - n mod 128)) with (2 ^ 32) by lia. reflexivity. Qed.
Lemma mp_empty32_ok t : text_ok t -> zlen t <= 2 ^ 32 - 128 -> mp_empty32 t = Ok (flags2 t).
Proof.
  intros H Hl. unfold mp_empty32. rewrite mp_blocks32_ok by lia. unfold flags2. apply mapM_ok.
  intros b Hb. apply in_zrange in Hb. rewrite mp_homoblock_ok by (auto; lia). reflexivity.
Qed.

(** ** Ranks modulo 2^32 *)
Definition mfillP32 (t : list Z) (b : Z) (temp : list Z) (bc rank j : Z) (st : list Z * Z * Z) : Prop :=
  let '(temp', bc', rank') := st in
  zlen temp' = zlen temp /\ bc' = bc + j /\ rank' = u32 (rank + ts t (1024 * b) (1024 * b + 8 * j)) /\
  (forall k, 0 <= k < j -> zn 0 temp' (bc + k) = zn 0 t (128 * b + k)) /\
  (forall k, 0 <= k < bc \/ bc + j <= k -> zn 0 temp' k = zn 0 temp k).

Lemma mfill_ok32 t b temp bc rank : text_ok t -> 0 <= b -> 0 <= bc -> bc + 128 <= zlen temp ->
  exists temp', foldM (mp_fill_byte32 t (128 * b)) (zrange 0 128) (temp, bc, u32 rank) = Ok (temp', bc + 128, u32 (rank + bsum t b)) /\
    zlen temp' = zlen temp /\ (forall k, 0 <= k < 128 -> zn 0 temp' (bc + k) = zn 0 t (128 * b + k)) /\
    (forall k, 0 <= k < bc \/ bc + 128 <= k -> zn 0 temp' k = zn 0 temp k).
Proof.
  intros H Hb Hbc Hbl.
  destruct (foldM_inv (mp_fill_byte32 t (128 * b)) (mfillP32 t b temp bc rank) 128 0 (temp, bc, u32 rank)) as ([[temp' bc'] rank'] & E & P).
  - unfold mfillP32. rewrite Z.mul_0_r, !Z.add_0_r, ts_empty, Z.add_0_r. repeat split; try lia; auto.
  - intros j [[tp0 bc0] rk0] Hj (L & -> & -> & P1 & P2). change (0 + Z.of_nat 128) with 128 in Hj. unfold mp_fill_byte32.
    pose proof (ts_split t (1024 * b) (1024 * b + 8 * j) (1024 * b + 8 * (j + 1)) ltac:(lia)) as TS.
    replace (1024 * b + 8 * j) with (8 * (128 * b + j)) in TS at 2 by lia. replace (1024 * b + 8 * (j + 1)) with (8 * (128 * b + j) + 8) in TS at 2 by lia.
    assert (S : exists tp1, (forall v, v = zn 0 t (128 * b + j) -> seti tp0 (bc + j) v = Ok tp1) /\ zlen tp1 = zlen temp /\
      (forall k, 0 <= k < j + 1 -> zn 0 tp1 (bc + k) = zn 0 t (128 * b + k)) /\ (forall k, 0 <= k < bc \/ bc + (j + 1) <= k -> zn 0 tp1 k = zn 0 temp k)).
    { exists (upd tp0 (bc + j) (zn 0 t (128 * b + j))). split; [intros v ->; apply seti_ok; lia|]. rewrite zlen_upd. split; [exact L|]. split.
      - intros k Hk. rewrite zn_upd by lia. destruct (bc + k =? bc + j) eqn:E; [f_equal; lia|apply P1; lia].
      - intros k Hk. rewrite zn_upd by lia. destruct (k =? bc + j) eqn:E; [lia|apply P2; lia]. }
    destruct S as (tp1 & S1 & S2 & S3 & S4). destruct (128 * b + j <? zlen t) eqn:E.
    + rewrite geti_ok by lia. cbn [bind]. rewrite S1 by reflexivity. cbn [bind]. eexists. split; [reflexivity|]. unfold mfillP32.
      split; [exact S2|]. split; [lia|]. split; [|split; [exact S3|exact S4]]. rewrite popcount_byte by (auto; lia). rewrite BaseFacts.wrap_add_l. f_equal. lia.
    + rewrite S1 by (symmetry; apply zn_over; lia). cbn [bind]. eexists. split; [reflexivity|]. unfold mfillP32.
      split; [exact S2|]. split; [lia|]. split; [|split; [exact S3|exact S4]]. rewrite ts_over in TS by lia. f_equal. lia.
  - change (0 + Z.of_nat 128) with 128 in P. destruct P as (L & -> & -> & P1 & P2). exists temp'. unfold bsum.
    replace (1024 * (b + 1)) with (1024 * b + 8 * 128) by lia. auto.
Qed.

Definition mscanP32 (t ranks temp : list Z) (b : Z) (st : list Z * list Z * Z * Z) : Prop :=
  let '(ranks', temp', bc, rank) := st in
  zlen ranks' = zlen ranks /\ zlen temp' = zlen temp /\ bc = 128 * ne2 t b /\ rank = u32 (ts t 0 (1024 * b)) /\
  (forall c, 0 <= c < b -> zn 0 ranks' (2 * c) = u32 (ts t 0 (1024 * c))) /\
  (forall c k, 0 <= c < b -> homob2 t c = false -> 0 <= k < 128 -> zn 0 temp' (128 * ne2 t c + k) = zn 0 t (128 * c + k)).

Lemma mscan_step32 t ranks temp b st : text_ok t -> 2 * nbig t + 2 <= zlen ranks -> 128 * ne2 t (nbig t) <= zlen temp ->
  0 <= b < nbig t -> mscanP32 t ranks temp b st -> exists st', mp_scan_block32 t (flags2 t) st b = Ok st' /\ mscanP32 t ranks temp (b + 1) st'.
Proof.
  intros H Hr Hbl Hb. destruct st as [[[r0 b0] bc] rank]. intros (L1 & L2 & -> & -> & P1 & P3).
  pose proof (zlen_nonneg t) as L0.
  unfold mp_scan_block32. rewrite seti_ok by lia. cbn [bind]. rewrite seti_ok by (rewrite zlen_upd; lia). cbn [bind].
  rewrite geti_ok by (rewrite zlen_flags2; lia). cbn [bind]. rewrite zn_flags2 by lia.
  set (r1 := upd _ _ _).
  assert (R : zlen r1 = zlen ranks /\ (forall c, 0 <= c < b + 1 -> zn 0 r1 (2 * c) = u32 (ts t 0 (1024 * c)))).
  { unfold r1. rewrite !zlen_upd. split; [exact L1|].
    intros c Hc. rewrite !zn_upd by (rewrite ?zlen_upd; lia). replace (2 * c =? 2 * b + 1) with false by lia.
    destruct (2 * c =? 2 * b) eqn:E; [do 3 f_equal; lia|]. apply P1. lia. }
  destruct R as (R1 & R2). pose proof (ne2_bound t b ltac:(lia)) as NB1.
  pose proof (ne2_succ t b ltac:(lia)) as NS. pose proof (ne2_mono t (b + 1) (nbig t) ltac:(lia)) as NM.
  pose proof (ts_split t 0 (1024 * b) (1024 * (b + 1)) ltac:(lia)) as TS. fold (bsum t b) in TS.
  destruct (homob2 t b) eqn:Eh; cbn [b2z].
  - change (1 =? 0) with false. cbv iota.
    assert (In0 : 128 * b < zlen t) by (unfold homob2 in Eh; lia).
    rewrite geti_ok by lia. cbn [bind]. eexists. split; [reflexivity|]. unfold mscanP32. split; [exact R1|]. split; [exact L2|].
    split; [lia|]. split; [|split; [exact R2|]].
    + rewrite TS, (homob2_sum t b) by (auto; lia). destruct (zn 0 t (128 * b) =? 255); [apply BaseFacts.wrap_add_l|f_equal; lia].
    + intros c k Hc Hh Hk. apply P3; auto. destruct (Z.eq_dec c b) as [->|]; [congruence|lia].
  - change (0 =? 0) with true. cbv iota.
    destruct (mfill_ok32 t b b0 (128 * ne2 t b) (ts t 0 (1024 * b)) H ltac:(lia) ltac:(lia) ltac:(lia)) as (b1 & -> & F1 & F2 & F3).
    cbn [bind]. eexists. split; [reflexivity|]. unfold mscanP32. split; [exact R1|]. split; [lia|]. split; [lia|]. split; [f_equal; lia|].
    split; [exact R2|].
    intros c k Hc Hh Hk. destruct (Z.eq_dec c b) as [->|]; [apply F2; lia|]. pose proof (ne2_lt t c b ltac:(lia) Hh). pose proof (ne2_bound t c ltac:(lia)).
    rewrite F3 by lia. apply P3; auto; lia.
Qed.

Lemma mscan_ok32 t ranks temp : text_ok t -> zlen t <= 2 ^ 32 - 128 -> zlen ranks = 32 * (nbig t / 16 + 1) -> 128 * ne2 t (nbig t) <= zlen temp ->
  exists ranks' temp', mp_scan32 t (flags2 t) ranks temp = Ok (ranks', temp') /\ zlen ranks' = zlen ranks /\ zlen temp' = zlen temp /\
    (forall c, 0 <= c <= nbig t -> zn 0 ranks' (2 * c) = u32 (ts t 0 (1024 * c))) /\
    (forall c k, 0 <= c < nbig t -> homob2 t c = false -> 0 <= k < 128 -> zn 0 temp' (128 * ne2 t c + k) = zn 0 t (128 * c + k)).
Proof.
  intros H Hl Hr Hbl. unfold mp_scan32. rewrite mp_blocks32_ok by lia. pose proof (nbig_nonneg t) as N0. rewrite mp_temp_len_ok by lia. set (n := nbig t) in *.
  destruct (foldM_inv (mp_scan_block32 t (flags2 t)) (mscanP32 t ranks temp) (Z.to_nat n) 0 (ranks, temp, 0, 0)) as ([[[r1 b1] bc] rank] & -> & P).
  - unfold mscanP32. rewrite Z.mul_0_r, ts_empty. repeat split; auto; lia.
  - intros k s Hk. apply mscan_step32; auto; fold n; lia.
  - rewrite Z.add_0_l, Z2Nat.id in P by lia. destruct P as (L1 & L2 & -> & -> & P1 & P3). cbn [bind]. rewrite seti_ok by lia. cbn [bind].
    rewrite seti_ok by (rewrite zlen_upd; lia). cbn [bind]. set (r2 := upd _ _ _).
    destruct (foldM_inv (fun ranks k => seti ranks k 0) (fun j r => zlen r = zlen ranks /\ (forall k, 0 <= k <= 2 * n -> zn 0 r k = zn 0 r2 k))
        (Z.to_nat (32 * (n / 16 + 1) - (2 * n + 2))) (2 * n + 2) r2) as (r3 & -> & T1 & T2).
    + unfold r2. rewrite !zlen_upd. split; [exact L1|auto].
    + intros k r Hk (Q1 & Q2). rewrite seti_ok by lia. eexists. split; [reflexivity|]. rewrite zlen_upd. split; [exact Q1|].
      intros k' Hk'. rewrite zn_upd by lia. replace (k' =? k) with false by lia. apply Q2. lia.
    + cbn [bind]. eexists _, _. split; [reflexivity|]. split; [exact T1|]. split; [exact L2|]. split; [|exact P3].
      intros c Hc. rewrite T2 by lia. unfold r2. rewrite !zn_upd by (rewrite ?zlen_upd; lia). replace (2 * c =? 2 * n + 1) with false by lia.
      destruct (2 * c =? 2 * n) eqn:E; [do 3 f_equal; lia|]. apply P1. lia.
Qed.

(** ** Two 16-bit fields to an int *)
Definition lw32 (d : Z -> Z) (k : Z) : Z := u32 (sumf (fun l => d (2 * k + l) * 2 ^ (16 * l)) 0 (if k =? 7 then 1 else 2)).

Lemma lane_loop32 (g : list Z -> Z -> res (list Z)) (d : Z -> Z) base v0 : 0 <= base <= 10 -> zlen v0 = 18 -> (forall k, base <= k < base + 8 -> zn 0 v0 k = 0) ->
  (forall v j, zlen v = 18 -> 0 <= j < 15 -> g v j = (let* x := geti v (base + j / 2) in seti v (base + j / 2) (u32 (x + Z.shiftl (d j) (16 * (j mod 2)))))) ->
  exists v, foldM g (zrange 0 15) v0 = Ok v /\ zlen v = 18 /\ (forall k, 0 <= k < 8 -> zn 0 v (base + k) = lw32 d k) /\ (forall k, 0 <= k < base \/ base + 8 <= k -> zn 0 v k = zn 0 v0 k).
Proof.
  intros Hb L0 Z0 G.
  destruct (foldM_inv g (fun j v => zlen v = 18 /\ (forall k, 0 <= k < 8 -> zn 0 v (base + k) = u32 (sumf (fun l => d (2 * k + l) * 2 ^ (16 * l)) 0 (clamp32 (j - 2 * k)))) /\
    (forall k, 0 <= k < base \/ base + 8 <= k -> zn 0 v k = zn 0 v0 k)) 15 0 v0) as (v & E & L & P1 & P2).
  - split; [exact L0|]. split; [|auto]. intros k Hk. rewrite Z0 by lia. rewrite sumf_empty by (unfold clamp32; lia). reflexivity.
  - intros j v Hj (L & P1 & P2). change (0 + Z.of_nat 15) with 15 in Hj. rewrite G by (auto; lia). rewrite geti_ok by lia. cbn [bind]. rewrite seti_ok by lia.
    eexists. split; [reflexivity|]. rewrite zlen_upd. split; [exact L|]. split.
    + intros k Hk. rewrite zn_upd by lia. destruct (base + k =? base + j / 2) eqn:E; [|rewrite P1 by lia; do 2 f_equal; unfold clamp32; lia].
      replace (j / 2) with k by lia. rewrite P1 by lia. rewrite BaseFacts.wrap_add_l.
      replace (clamp32 (j - 2 * k)) with (j mod 2) by (unfold clamp32; lia). replace (clamp32 (j + 1 - 2 * k)) with (j mod 2 + 1) by (unfold clamp32; lia).
      rewrite sumf_succ by lia. f_equal. f_equal. rewrite Z.shiftl_mul_pow2 by lia. do 2 f_equal. lia.
    + intros k Hk. rewrite zn_upd by lia. replace (k =? base + j / 2) with false by lia. apply P2. lia.
  - change (0 + Z.of_nat 15) with 15 in P1. exists v. split; [exact E|]. split; [exact L|]. split; [|exact P2].
    intros k Hk. rewrite P1 by lia. unfold lw32. do 2 f_equal. unfold clamp32. destruct (k =? 7) eqn:K; lia.
Qed.

Definition rdiff32 (temp : list Z) (s j : Z) : Z := u32 (zn 0 temp (2 * (16 * s + j + 1)) - zn 0 temp (2 * (16 * s))).
Definition odiff32 (T : mpe_type) (jf : Z -> Z) (temp btc : list Z) (s j : Z) : Z :=
  u32 (u32 (zn 0 temp (2 * (16 * s + j + 1) + 1) - zn 0 temp (2 * (16 * s) + 1)) + flag_in_offset T (btcv jf btc (16 * s + j + 1))).
Definition mp_int (T : mpe_type) (jf : Z -> Z) (temp btc : list Z) (s k : Z) : Z :=
  if k =? 0 then zn 0 temp (2 * (16 * s)) else
  if k <=? 8 then lw32 (rdiff32 temp s) (k - 1) else
  if k =? 9 then zn 0 temp (2 * (16 * s) + 1) else
  if k =? 10 then u32 (lw32 (odiff32 T jf temp btc s) 0 + flag_of_first32 T (btcv jf btc (16 * s))) else
  lw32 (odiff32 T jf temp btc s) (k - 10).

Lemma mp_bucket32_ok T strict jf temp btc s : 0 <= s -> 32 * (s + 1) <= zlen temp -> (strict = true -> 16 * s + 16 <= zlen btc) ->
  exists v, mp_bucket32 T strict jf temp btc s = Ok v /\ zlen v = 18 /\ forall k, 0 <= k < 18 -> zn 0 v k = mp_int T jf temp btc s k.
Proof.
  intros Hs Ht Hst. unfold mp_bucket32. rewrite geti_ok by lia. cbn [bind].
  rewrite seti_ok by (rewrite zlen_repeat; lia). cbn [bind].
  assert (Z0 : forall k, 0 <= k < 18 -> zn 0 (repeat 0 18) k = 0).
  { intros k Hk. unfold zn. rewrite nth_repeat. destruct (k <? 0); reflexivity. }
  match goal with |- context [foldM ?g (zrange 0 15) ?v0] => destruct (lane_loop32 g (rdiff32 temp s) 1 v0) as (v1 & -> & L1 & P1 & P2) end.
  - lia.
  - rewrite zlen_upd. reflexivity.
  - intros k Hk. rewrite zn_upd by (rewrite ?zlen_repeat; lia). replace (k =? 0) with false by lia. apply Z0. lia.
  - intros v j L Hj. rewrite geti_ok by lia. cbn [bind]. replace (j / 2 + 1) with (1 + j / 2) by lia. reflexivity.
  - cbn [bind]. rewrite geti_ok by lia. cbn [bind]. rewrite seti_ok by lia. cbn [bind].
    match goal with |- context [foldM ?g (zrange 0 15) ?v0] => destruct (lane_loop32 g (odiff32 T jf temp btc s) 10 v0) as (v2 & -> & L2 & Q1 & Q2) end.
    + lia.
    + rewrite zlen_upd. exact L1.
    + intros k Hk. rewrite zn_upd by lia. replace (k =? 9) with false by lia. rewrite P2 by lia. rewrite zn_upd by (rewrite ?zlen_repeat; lia). replace (k =? 0) with false by lia. apply Z0. lia.
    + intros v j L Hj. rewrite geti_ok by lia. cbn [bind]. rewrite read_btc_ok; [|intros E; specialize (Hst E); lia|lia]. cbn [bind]. replace (9 + 1 + j / 2) with (10 + j / 2) by lia. reflexivity.
    + cbn [bind]. rewrite read_btc_ok; [|intros E; specialize (Hst E); lia|lia]. cbn [bind]. rewrite geti_ok by lia. cbn [bind]. rewrite seti_ok by lia.
      eexists. split; [reflexivity|]. rewrite zlen_upd. split; [exact L2|]. intros k Hk. rewrite zn_upd by lia. unfold mp_int.
      destruct (k =? 10) eqn:K6.
      { replace (k =? 0) with false by lia. replace (k <=? 8) with false by lia. replace (k =? 9) with false by lia. specialize (Q1 0 ltac:(lia)). change (10 + 0) with 10 in Q1. rewrite Q1. reflexivity. }
      destruct (k =? 0) eqn:K0.
      { replace k with 0 by lia. rewrite Q2 by lia. rewrite zn_upd by lia. change (0 =? 9) with false. cbv iota. rewrite P2 by lia. rewrite zn_upd by (rewrite ?zlen_repeat; lia). reflexivity. }
      destruct (k <=? 8) eqn:K4.
      { rewrite Q2 by lia. rewrite zn_upd by lia. replace (k =? 9) with false by lia. specialize (P1 (k - 1) ltac:(lia)). replace (1 + (k - 1)) with k in P1 by lia. exact P1. }
      destruct (k =? 9) eqn:K5.
      { replace k with 9 by lia. rewrite Q2 by lia. rewrite zn_upd by lia. reflexivity. }
      specialize (Q1 (k - 10) ltac:(lia)). replace (10 + (k - 10)) with k in Q1 by lia. exact Q1.
Qed.

Lemma mp_bucket32_fail T jf temp btc s : 0 <= s -> 32 * (s + 1) <= zlen temp -> zlen btc < 16 * s + 16 -> mp_bucket32 T true jf temp btc s = Ub UB_bounds.
Proof.
  intros Hs Ht He. unfold mp_bucket32. rewrite geti_ok by lia. cbn [bind]. rewrite seti_ok by (rewrite zlen_repeat; lia). cbn [bind].
  match goal with |- context [foldM ?g (zrange 0 15) ?v0] => destruct (foldM_inv g (fun _ v => zlen v = 18) 15 0 v0) as (v1 & E1 & P1) end.
  - rewrite zlen_upd. reflexivity.
  - intros j v Hj L. change (0 + Z.of_nat 15) with 15 in Hj. rewrite geti_ok by lia. cbn [bind]. rewrite geti_ok by lia. cbn [bind]. rewrite seti_ok by lia.
    eexists. split; [reflexivity|]. rewrite zlen_upd. exact L.
  - rewrite E1. cbn [bind]. rewrite geti_ok by lia. cbn [bind]. rewrite seti_ok by lia. cbn [bind].
    match goal with |- context [foldM ?g (zrange 0 15) ?v0] => destruct (fold_fail g (fun j v => zlen v = 18 /\ (0 < j -> 16 * s + j + 1 <= zlen btc)) (fun _ => True) 15 ltac:(auto) 0 v0) as [(v2 & E2 & L2 & B2)|(E2 & _)] end.
    + rewrite zlen_upd. split; [exact P1|lia].
    + intros j v Hj (L & B). change (0 + Z.of_nat 15) with 15 in Hj. rewrite geti_ok by lia. cbn [bind]. unfold read_btc. cbn [orb]. unfold geti at 1 3.
      destruct ((0 <=? 16 * s + j + 1) && (16 * s + j + 1 <? zlen btc)) eqn:E; cbn [bind].
      * left. rewrite geti_ok by lia. cbn [bind]. rewrite seti_ok by lia. eexists. split; [reflexivity|]. rewrite zlen_upd. split; [exact L|lia].
      * right. auto.
    + change (0 + Z.of_nat 15) with 15 in B2. lia.
    + rewrite E2. reflexivity.
Qed.

Lemma ints_loop T strict jf r3 btc n k w0 : zlen r3 = 32 * (n / 16 + 1) -> zlen btc = n -> (strict = true -> 16 * k <= n) -> 0 <= k <= n / 16 + 1 -> 18 * (n / 16 + 1) <= zlen w0 ->
  exists ranks, foldM (fun ints s => let* v := mp_bucket32 T strict jf r3 btc s in put_words ints (18 * s) v) (zrange 0 (Z.to_nat k)) w0 = Ok ranks /\ zlen ranks = zlen w0 /\
    forall s k', 0 <= s < k -> 0 <= k' < 18 -> zn 0 ranks (18 * s + k') = mp_int T jf r3 btc s k'.
Proof.
  intros TL C1 HS Hk HL.
  destruct (foldM_inv (fun ranks s => let* v := mp_bucket32 T strict jf r3 btc s in put_words ranks (18 * s) v) (fun j ranks =>
        zlen ranks = zlen w0 /\ forall s k', 0 <= s < j -> 0 <= k' < 18 -> zn 0 ranks (18 * s + k') = mp_int T jf r3 btc s k')
        (Z.to_nat k) 0 w0) as (ranks & E & L & Q).
  - split; [reflexivity|]. intros; lia.
  - intros j ranks Hj (L & Q).
    destruct (mp_bucket32_ok T strict jf r3 btc j ltac:(lia) ltac:(lia)) as (v & -> & LV & V).
    { intros ES. specialize (HS ES). lia. }
    cbn [bind]. destruct (put_words_ok ranks (18 * j) v ltac:(lia) ltac:(lia)) as (ranks' & -> & L' & Q'). exists ranks'. split; [reflexivity|].
    split; [lia|]. intros s k' Hs Hk'. rewrite Q' by lia. destruct ((18 * j <=? 18 * s + k') && (18 * s + k' <? 18 * j + zlen v)) eqn:E.
    + assert (s = j) by lia. subst s. replace (18 * j + k' - 18 * j) with k' by lia. apply V. lia.
    + apply Q; lia.
  - exists ranks. split; [exact E|]. split; [exact L|]. intros. apply Q; lia.
Qed.

(** ** build *)
Definition tempM32 (T : mpe_type) (t temp : list Z) : Prop :=
  zlen temp = 32 * (nbig t / 16 + 1) /\
  (forall c, 0 <= c <= nbig t -> zn 0 temp (2 * c) = u32 (ts t 0 (1024 * c))) /\
  (forall c, 0 <= c < 16 * (nbig t / 16 + 1) -> zn 0 temp (2 * c + 1) = po T t c).

Lemma zlen_aligned_b32 j a n : 0 <= n -> n + 128 < 2 ^ 32 -> zlen (fresh_aligned_b32 j a n) = n + slack_b a.
Proof. intros H H1. unfold fresh_aligned_b32, slack_b. rewrite wrap_small by lia. rewrite zlen_fresh_b; lia. Qed.

Definition mpeP32 (T : mpe_type) (m : memory) (jf : Z -> Z) (t temp btc : list Z) (r : rank_mpe) : Prop :=
  tempM32 T t temp /\ btcP T t btc /\ zlen (mp_ranks r) = 18 * (nbig t / 16 + 1) + slack32 (m_addr_r m) /\ zlen (mp_bits r) = moff T t (nbig t) + 8 + slack_b (m_addr_b m) /\
  mp_ranks_len r = 18 * (nbig t / 16 + 1) /\ mp_bits_len r = moff T t (nbig t) + 8 /\ mp_text_len r = zlen t /\ byteful (mp_bits r) /\
  (forall s k, 0 <= s <= nbig t / 16 -> 0 <= k < 18 -> zn 0 (mp_ranks r) (18 * s + k) = mp_int T jf temp btc s k) /\
  (forall c, 0 <= c < nbig t -> homob2 t c = false -> blockOk T t c (mp_bits r) (moff T t c)).

Lemma build_mpe32_gen T strict jf m t : addresses_ok m -> text_ok t -> zlen t <= 2 ^ 32 - 128 -> moff T t (nbig t) + 136 < 2 ^ 32 ->
  (0 < nbig t -> strict = false -> exists temp btc r, build_mpe32 T strict jf m t = Ok r /\ mpeP32 T m jf t temp btc r) /\
  (nbig t = 0 \/ strict = true -> build_mpe32 T strict jf m t = Ub UB_bounds).
Proof.
  intros (A1 & A2 & A3 & A4) H Hl HM. unfold build_mpe32. rewrite mp_empty32_ok by (auto; lia). cbn [bind]. rewrite not_empty2_ok, mp_blocks32_ok by lia.
  pose proof (nbig_nonneg t) as N0. pose proof (ne2_bound t (nbig t) N0) as NB. pose proof (slack32_ok _ A2) as S1. pose proof (slack_b_ok _ A4) as S2.
  pose proof (nbig32 t Hl) as NM.
  rewrite !mp_temp_len_ok by lia. set (n := nbig t) in *. set (tl := 32 * (n / 16 + 1)) in *.
  rewrite (wrap_small 32 (ne2 t n * 128)) by lia.
  destruct (mscan_ok32 t (fresh32 (m_junk_t m) tl) (fresh_b (m_junk_t m) (ne2 t n * 128)) H Hl) as (r1 & temp & -> & L1 & L2 & P1 & P3).
  { rewrite zlen_fresh32 by lia. reflexivity. }
  { rewrite zlen_fresh_b by lia. fold n. lia. }
  rewrite zlen_fresh32 in L1 by lia. rewrite zlen_fresh_b in L2 by lia. cbn [bind]. fold n in P1, P3.
  assert (BA : forall c, 0 <= c < nbig t -> homob2 t c = false -> blockAt t temp c (128 * ne2 t c)).
  { intros c Hc Hh. fold n in Hc. unfold blockAt. pose proof (ne2_bound t c ltac:(lia)). pose proof (ne2_lt t c n ltac:(lia) Hh). split; [lia|]. split; [lia|]. intros k Hk. apply P3; auto. }
  destruct (choose_loop T t temp (fresh_b jf n)) as (btc & removed & heads & offset & E1 & C1 & C2 & C3 & C4 & C5); auto.
  { rewrite zlen_fresh_b by lia. fold n. lia. }
  fold n in E1, C2, C3, C4, C5. rewrite zlen_fresh_b in C1 by lia. rewrite E1. cbn [bind]. clear E1.
  pose proof (moff_mono T t 0 n ltac:(lia)) as MB. rewrite moff_0 in MB.
  replace (u32 (heads + (ne2 t n * 128 - 2 * removed) + 8)) with (moff T t n + 8) by (rewrite wrap_small; lia).
  destruct (store_loop T t r1 temp btc (fresh_aligned_b32 (m_junk_b m) (m_addr_b m) (moff T t n + 8)) H) as (r2 & bits & bc & off & E2 & D1 & D2 & D3 & D4 & D5 & D6 & D7 & D8); auto.
  { fold n. lia. }
  { fold n. lia. }
  { rewrite zlen_aligned_b32 by lia. fold n. lia. }
  { apply byteful_fresh_b. }
  fold n in E2, D4, D5, D6, D7, D8. rewrite zlen_aligned_b32 in D2 by lia. rewrite E2. cbn [bind]. clear E2.
  assert (BB : byteful btc).
  { intros k Hk. destruct (Z_lt_le_dec k n) as [Hkn|Hkn].
    - rewrite C4 by lia. destruct (homob2 t k); [lia|]. generalize (dz T t k), (d1 T t k). intros z o. destruct T, z, o; cbn; lia.
    - rewrite C5 by lia. apply byteful_fresh_b. exact Hk. }
  destruct (Z.eq_dec n 0) as [En|En].
  { split; [lia|]. intros _. rewrite En. replace tl with 32 by lia. change (u32 (2 * 0 + 1 - 2)) with (2 ^ 32 - 1).
    change (Z.to_nat ((32 - (2 * 0 + 1) + 1) / 2)) with 16%nat. cbn [zrange foldM]. unfold geti at 1.
    replace ((0 <=? 2 ^ 32 - 1) && (2 ^ 32 - 1 <? zlen r2)) with false by lia. reflexivity. }
  assert (U : u32 (2 * n + 1 - 2) = 2 * (n - 1) + 1) by (clear - NM En N0; rewrite wrap_small; lia). rewrite U. clear U.
  destruct (pad_loop n (moff T t (n - 1)) r2 ltac:(clear - En N0; lia) ltac:(unfold tl in *; clear - D1 L1; lia) ltac:(apply D6; clear - En N0; lia)) as (r3 & E3 & T1 & T2 & T3).
  fold tl in E3, T1, T3. rewrite E3. clear E3.
  assert (TP : tempM32 T t r3).
  { unfold tempM32. fold n. split; [exact T1|]. split.
    - intros c Hc. rewrite T2 by (clear - Hc; lia). rewrite D7 by (clear - Hc; lia). apply P1. exact Hc.
    - intros c Hc. unfold po. fold n. destruct (Z_lt_le_dec c n).
      + rewrite T2 by (clear - Hc l; lia). rewrite D6 by (clear - Hc l; lia). f_equal. lia.
      + replace (2 * c + 1) with (2 * (n + (c - n)) + 1) by (clear; lia). rewrite T3 by (unfold tl; clear - Hc l; lia). f_equal. lia. }
  cbn [bind]. replace (tl / 2 / 16) with (n / 16 + 1) by (unfold tl; clear; lia). replace (tl / 32 * 18) with (18 * (n / 16 + 1)) by (unfold tl; clear; lia).
  assert (TL : zlen r3 = 32 * (n / 16 + 1)) by exact T1. clearbody tl. clear T1 T2 T3 L1 P1 P3 D6 D7.
  split.
  - intros _ C. destruct (ints_loop T strict jf r3 btc n (n / 16 + 1) (fresh_aligned32 (m_junk_r m) (m_addr_r m) (18 * (n / 16 + 1))) TL C1) as (ranks & -> & L & Q).
    { intros ES. congruence. }
    { clear - N0; lia. }
    { rewrite zlen_aligned32 by (auto; clear - NM; lia). clear - S1; lia. }
    rewrite zlen_aligned32 in L by (auto; clear - NM; lia).
    cbn [bind]. eexists r3, btc, _. split; [reflexivity|]. unfold mpeP32, btcP. fold n. cbn [mp_ranks mp_bits mp_ranks_len mp_bits_len mp_text_len].
    split; [exact TP|]. split; [split; [lia|auto]|]. split; [lia|]. split; [lia|]. split; [lia|]. split; [lia|]. split; [reflexivity|]. split; [exact D3|]. split; [|exact D8].
    intros s k Hs Hk. apply Q; lia.
  - intros [Hn|ES]; [lia|]. replace (Z.to_nat (n / 16 + 1)) with (S (Z.to_nat (n / 16))) by lia. rewrite zrange_last.
    rewrite foldM_app. destruct (ints_loop T strict jf r3 btc n (n / 16) (fresh_aligned32 (m_junk_r m) (m_addr_r m) (18 * (n / 16 + 1))) TL C1) as (ranks & -> & L & Q).
    { intros _. clear - N0; lia. }
    { clear - N0; lia. }
    { rewrite zlen_aligned32 by (auto; clear - NM; lia). clear - S1; lia. }
    cbn [bind foldM]. subst strict. rewrite mp_bucket32_fail; [reflexivity|lia|lia|lia].
Qed.
