(** The scan of the 32-bit rank structures: words of 8 or 4 bytes, counters modulo 2^32. *)
From Coq Require Import ZifyBool.
From Verif Require Import Base BaseFacts Words WordFacts BlockFacts NodeFacts Trees TreeBuild MemFacts Spec BitmapFacts KernelFacts SpecPoppy PoppyFacts PoppyFacts2 SpecText MrRank MrRankFacts MrRankFacts2 MrRank32.
Ltac Zify.zify_post_hook ::= Z.div_mod_to_equations.

Definition gterm (w : Z) (t : list Z) (q m : Z) : Z := zn 0 t (w * q + m) * 2 ^ (8 * (w - 1 - m)).
Definition gpart (w : Z) (t : list Z) (q k : Z) : Z := sumf (gterm w t q) 0 k.
Definition gbytes (w : Z) (t : list Z) (q : Z) : list Z := rev (map (fun m => zn 0 t (w * q + m)) (zrange 0 (Z.to_nat w))).
Definition gword (w : Z) (t : list Z) (q : Z) : Z := val (gbytes w t q).
Definition width (w : Z) : Prop := w = 8 \/ w = 4.

Lemma gword8 t q : gword 8 t q = tword t q.
Proof. reflexivity. Qed.

Lemma gbytes_bytes w t q : text_ok t -> bytes (gbytes w t q).
Proof. intros H. unfold gbytes, bytes. apply Forall_rev. apply Forall_forall. intros x Hx. apply in_map_iff in Hx as (m & <- & _). apply tbyte, H. Qed.

Lemma gpart_all w t q : width w -> gpart w t q w = gword w t q.
Proof.
  intros [->| ->]; [exact (pword_all t q)|].
  unfold gpart, gword, gbytes, sumf, gterm. change (Z.to_nat (4 - 0)) with 4%nat. change (Z.to_nat 4) with 4%nat. cbn [sumn].
  change (zrange 0 4) with [0; 1; 2; 3]. cbn [map rev app val].
  change (0 + 1) with 1. change (1 + 1) with 2. change (2 + 1) with 3. change (3 + 1) with 4.
  change (2 ^ (8 * (4 - 1 - 0))) with (256 * (256 * 256)). change (2 ^ (8 * (4 - 1 - 1))) with (256 * 256).
  change (2 ^ (8 * (4 - 1 - 2))) with 256. change (2 ^ (8 * (4 - 1 - 3))) with 1. ring.
Qed.

Lemma gword_bound w t q : width w -> text_ok t -> 0 <= gword w t q < 2 ^ (8 * w).
Proof.
  intros W H. pose proof (val_bound (gbytes w t q) (gbytes_bytes w t q H)) as V. unfold gword.
  destruct W as [-> | ->]; [replace (zlen (gbytes 8 t q)) with 8 in V by reflexivity|replace (zlen (gbytes 4 t q)) with 4 in V by reflexivity]; exact V.
Qed.

Lemma gterm_nonneg w t q m : text_ok t -> 0 <= m < w -> 0 <= gterm w t q m.
Proof. intros H Hm. unfold gterm. pose proof (tbyte t (w * q + m) H). pose proof (Z.pow_pos_nonneg 2 (8 * (w - 1 - m)) ltac:(lia) ltac:(lia)). nia. Qed.

Lemma gpart_bound w t q k : width w -> text_ok t -> 0 <= k <= w -> 0 <= gpart w t q k < 2 ^ (8 * w).
Proof.
  intros W H Hk. pose proof (gword_bound w t q W H) as G. rewrite <- (gpart_all w t q W) in G. unfold gpart in *. split.
  - apply sumf_nonneg. intros i Hi. apply gterm_nonneg; auto; lia.
  - pose proof (sumf_mono (gterm w t q) 0 k w ltac:(lia) ltac:(intros; apply gterm_nonneg; auto; lia)). lia.
Qed.
Lemma gpart_succ w t q k : 0 <= k -> gpart w t q (k + 1) = gpart w t q k + gterm w t q k.
Proof. intros H. unfold gpart. rewrite sumf_succ by lia. reflexivity. Qed.

(** Bits of a word of 32 bits. *)
Lemma zn_gbytes4 t q j : 0 <= j < 4 -> zn 0 (gbytes 4 t q) j = zn 0 t (4 * q + (3 - j)).
Proof.
  intros Hj. unfold gbytes. rewrite zn_rev by (rewrite zlen_map; unfold zlen; rewrite length_zrange; lia).
  rewrite zlen_map. unfold zlen. rewrite length_zrange. rewrite zn_map_zrange by lia. f_equal.
Qed.
Lemma bit_gword4 t q p : text_ok t -> 0 <= p < 32 -> Z.testbit (gword 4 t q) (31 - p) = Z.testbit (zn 0 t (4 * q + p / 8)) (7 - p mod 8).
Proof.
  intros H Hp. unfold gword. replace (31 - p) with (8 * (3 - p / 8) + (7 - p mod 8)) by lia.
  rewrite testbit_val by (auto using gbytes_bytes; lia). rewrite zn_gbytes4 by lia. f_equal. f_equal. lia.
Qed.
Lemma gword4_bits t q r : text_ok t -> 0 <= q -> 0 <= r <= 32 -> sumf (fun p => wbit (gword 4 t q) (31 - p)) 0 r = ts t (32 * q) (32 * q + r).
Proof.
  intros H Hq Hr. unfold ts. rewrite <- (Z.add_0_r (32 * q)) at 1. rewrite (Z.add_comm (32 * q) 0), (Z.add_comm (32 * q) r).
  rewrite <- sumf_shift. apply sumf_ext. intros p Hp. unfold tb, wbit. rewrite bit_gword4 by (auto; lia). f_equal. f_equal; [|lia]. f_equal. lia.
Qed.
Lemma popcount_small x : 0 <= x < 2 ^ 32 -> popcount x = sumf (fun p => wbit x (31 - p)) 0 32.
Proof.
  intros Hx. rewrite popcount_wones. unfold wones. rewrite (sumf_split _ 0 32 64) by lia. rewrite (sumf_const0 _ 32 64), Z.add_0_r.
  - rewrite <- (sum_wb 32) by lia. reflexivity.
  - intros i Hi. unfold wbit. rewrite (bits_above x 32 i) by lia. reflexivity.
Qed.
Lemma popcount_gword w t q : width w -> text_ok t -> 0 <= q -> popcount (gword w t q) = ts t (8 * w * q) (8 * w * q + 8 * w).
Proof.
  intros W H Hq. pose proof (gword_bound w t q W H) as G. destruct W as [->| ->].
  - change (8 * 8) with 64. apply popcount_tword; auto.
  - change (8 * 4) with 32 in *. rewrite popcount_small by exact G. apply gword4_bits; auto. lia.
Qed.

(** ** Copying one block *)
Definition fillP32 (w : Z) (t : list Z) (b : Z) (bits : list Z) (bc rank j : Z) (st : list Z * Z * Z) : Prop :=
  let '(bits', bc', rank') := st in
  zlen bits' = zlen bits /\ bc' = bc + j / w /\ rank' = u32 (rank + ts t (512 * b) (512 * b + 8 * w * (j / w))) /\
  (forall k, 0 <= k < j / w -> zn 0 bits' (bc + k) = gword w t (64 / w * b + k)) /\
  (j mod w <> 0 -> zn 0 bits' (bc + j / w) = gpart w t (64 / w * b + j / w) (j mod w)) /\
  (forall k, 0 <= k < bc \/ bc + 64 / w <= k -> zn 0 bits' k = zn 0 bits k).

Lemma fill_step32 w t b bits bc rank j st : width w -> text_ok t -> 0 <= b -> 0 <= bc -> bc + 64 / w <= zlen bits -> zlen bits < 2 ^ 32 ->
  0 <= j < 64 -> fillP32 w t b bits bc rank j st -> exists st', fill_byte32 w t (64 * b) st j = Ok st' /\ fillP32 w t b bits bc rank (j + 1) st'.
Proof.
  intros W H Hb Hbc Hbl Hz Hj. destruct st as [[bits0 bc0] rank0]. intros (L & -> & -> & P1 & P2 & P3).
  unfold fill_byte32. set (q := 64 / w * b + j / w) in *.
  assert (Q1 : 0 <= q /\ w * q + j mod w = 64 * b + j /\ 8 * w * q = 512 * b + 8 * w * (j / w)) by (unfold q; destruct W as [->| ->]; [change (64 / 8) with 8|change (64 / 4) with 16]; repeat split; lia).
  assert (Q2 : 0 <= j mod w < w /\ 0 <= j / w /\ bc + j / w < zlen bits /\ bc + j / w < bc + 64 / w /\
    (j mod w = w - 1 -> (j + 1) / w = j / w + 1 /\ (j + 1) mod w = 0) /\ (j mod w <> w - 1 -> (j + 1) / w = j / w /\ (j + 1) mod w = j mod w + 1)).
  { destruct W as [->| ->]; [change (64 / 8) with 8 in *|change (64 / 4) with 16 in *]; repeat split; lia. }
  destruct Q1 as (Q0 & Q1 & Q1'). destruct Q2 as (Q2 & Q3 & Q4 & Q5 & Q6 & Q7).
  assert (EP : gterm w t q (j mod w) = Z.shiftl (zn 0 t (64 * b + j)) (8 * (w - j mod w - 1))).
  { unfold gterm. rewrite Q1. clear - Q2. set (e := j mod w) in *. clearbody e. rewrite Z.shiftl_mul_pow2 by lia. f_equal. f_equal. lia. }
  assert (PB : 0 <= gpart w t q (j mod w + 1) < 2 ^ (8 * w)).
  { apply gpart_bound; auto. clear - Q2. set (e := j mod w) in *. clearbody e. lia. }
  assert (B8 : 8 * w * (j / w + 1) = 8 * w * (j / w) + 8 * w) by ring. assert (W0 : 0 < w) by (clear - W; destruct W; lia). assert (Eq : q = 64 / w * b + j / w) by reflexivity. assert (N : 0 <= 8 * w * (j / w)) by (clear - W0 Q3; nia).
  unfold fillP32. set (K := 64 / w) in *. set (d1 := (j + 1) / w) in *. set (e1 := (j + 1) mod w) in *. set (d := j / w) in *. set (e := j mod w) in *. clearbody K d1 e1 d e q.
  set (X := 8 * w * d) in *.
  assert (A : exists bits1, (if e =? 0 then seti bits0 (bc + d) 0 else Ok bits0) = Ok bits1 /\ zlen bits1 = zlen bits /\
    zn 0 bits1 (bc + d) = gpart w t q e /\ (forall k, 0 <= k -> k <> bc + d -> zn 0 bits1 k = zn 0 bits0 k)).
  { clear Q6 Q7 B8 Q1' N. destruct (e =? 0) eqn:E.
    - rewrite seti_ok by lia. eexists. split; [reflexivity|]. rewrite zlen_upd. split; [exact L|]. split.
      + rewrite zn_upd by lia. rewrite Z.eqb_refl. replace e with 0 by lia. reflexivity.
      + intros k Hk Hn. rewrite zn_upd by lia. destruct (k =? bc + d) eqn:Ek; [lia|reflexivity].
    - exists bits0. split; [reflexivity|]. split; [exact L|]. split; [apply P2; lia|auto]. }
  destruct A as (bits1 & -> & L1 & W1 & O1). cbn [bind].
  assert (B : exists bits2, (if 64 * b + j <? zlen t then let* b0 := geti t (64 * b + j) in let* x := geti bits1 (bc + d) in
      seti bits1 (bc + d) (wrap (8 * w) (x + Z.shiftl b0 (8 * (w - e - 1)))) else Ok bits1) = Ok bits2 /\ zlen bits2 = zlen bits /\
    zn 0 bits2 (bc + d) = gpart w t q (e + 1) /\ (forall k, 0 <= k -> k <> bc + d -> zn 0 bits2 k = zn 0 bits0 k)).
  { rewrite gpart_succ in PB |- * by (clear - Q2; lia). clear Q6 Q7 Q1 Q1' B8 N.
    destruct (64 * b + j <? zlen t) eqn:E.
    - rewrite !geti_ok by (pose proof (zlen_nonneg t); clear PB; lia). cbn [bind]. rewrite seti_ok by (clear PB; lia). eexists. split; [reflexivity|].
      rewrite zlen_upd. split; [exact L1|]. split.
      + rewrite zn_upd by (clear PB; lia). rewrite Z.eqb_refl, W1, <- EP. apply wrap_small. exact PB.
      + intros k Hk Hn. rewrite zn_upd by (clear PB; lia). destruct (k =? bc + d) eqn:Ek; [lia|]. apply O1; lia.
    - exists bits1. split; [reflexivity|]. split; [exact L1|]. split; [|exact O1].
      rewrite W1, EP. rewrite zn_over by (clear PB; lia). rewrite Z.shiftl_0_l. lia. }
  destruct B as (bits2 & -> & L2 & W2 & O2). cbn [bind]. clear PB EP.
  destruct (e =? w - 1) eqn:E7.
  - rewrite geti_ok by lia. cbn [bind]. destruct (Q6 ltac:(lia)) as [-> ->]. clear Q6 Q7. eexists. split; [reflexivity|]. cbv iota beta zeta.
    replace (e + 1) with w in W2 by lia. rewrite gpart_all in W2 by exact W.
    split; [exact L2|]. split; [rewrite wrap_small by lia; lia|]. split; [|split; [|split]].
    + rewrite W2. rewrite popcount_gword by auto. rewrite Q1', B8. rewrite wrap_add_l. f_equal. rewrite <- Z.add_assoc. f_equal. fold X.
      rewrite (ts_split t (512 * b) (512 * b + X) (512 * b + (X + 8 * w))) by lia. rewrite Z.add_assoc. reflexivity.
    + intros k Hk. destruct (Z.eq_dec k d) as [->|]; [rewrite <- Eq; exact W2|]. rewrite O2 by lia. apply P1. lia.
    + intros; lia.
    + intros k Hk. rewrite O2 by lia. apply P3. exact Hk.
  - destruct (Q7 ltac:(lia)) as [-> ->]. clear Q6 Q7. eexists. split; [reflexivity|]. cbv iota beta zeta.
    split; [exact L2|]. split; [lia|]. split; [reflexivity|]. split; [|split].
    + intros k Hk. rewrite O2 by lia. apply P1. lia.
    + intros _. rewrite <- Eq. exact W2.
    + intros k Hk. rewrite O2 by lia. apply P3. exact Hk.
Qed.

Lemma fill_ok32 w t b bits bc rank : width w -> text_ok t -> 0 <= b -> 0 <= bc -> bc + 64 / w <= zlen bits -> zlen bits < 2 ^ 32 ->
  exists bits', foldM (fill_byte32 w t (64 * b)) (zrange 0 64) (bits, bc, u32 rank) = Ok (bits', bc + 64 / w, u32 (rank + ts t (512 * b) (512 * (b + 1)))) /\
    zlen bits' = zlen bits /\ (forall k, 0 <= k < 64 / w -> zn 0 bits' (bc + k) = gword w t (64 / w * b + k)) /\
    (forall k, 0 <= k < bc \/ bc + 64 / w <= k -> zn 0 bits' k = zn 0 bits k).
Proof.
  intros W H Hb Hbc Hbl Hz. destruct (foldM_inv (fill_byte32 w t (64 * b)) (fillP32 w t b bits bc rank) 64 0 (bits, bc, u32 rank)) as ([[bits' bc'] rank'] & E & P).
  - unfold fillP32. replace (0 / w) with 0 by (destruct W as [->| ->]; reflexivity). rewrite Z.mul_0_r, !Z.add_0_r, ts_empty, Z.add_0_r.
    split; [reflexivity|]. split; [reflexivity|]. split; [reflexivity|]. split; [intros; lia|]. split; [|auto]. destruct W as [->| ->]; intros X; exfalso; apply X; reflexivity.
  - intros k s Hk. apply fill_step32; auto.
  - destruct P as (L & -> & -> & P1 & _ & P3). change (0 + Z.of_nat 64) with 64 in *. exists bits'.
    replace (512 * (b + 1)) with (512 * b + 8 * w * (64 / w)) by (destruct W as [->| ->]; [change (64 / 8) with 8|change (64 / 4) with 16]; lia). auto.
Qed.

(** ** The scan *)
Definition scanP32 (w : Z) (t ranks bits : list Z) (b : Z) (st : list Z * list Z * Z * Z) : Prop :=
  let '(ranks', bits', bc, rank) := st in
  zlen ranks' = zlen ranks /\ zlen bits' = zlen bits /\ bc = 64 / w * ne t b /\ rank = u32 (ts t 0 (512 * b)) /\
  (forall c, 0 <= c < b -> zn 0 ranks' (2 * c) = u32 (ts t 0 (512 * c)) /\ zn 0 ranks' (2 * c + 1) = 64 / w * ne t c) /\
  (forall k, 2 * b <= k -> zn 0 ranks' k = zn 0 ranks k) /\
  (forall c k, 0 <= c < b -> homob t c = false -> 0 <= k < 64 / w -> zn 0 bits' (64 / w * ne t c + k) = gword w t (64 / w * c + k)) /\
  (forall k, 64 / w * ne t b <= k -> zn 0 bits' k = zn 0 bits k).

Lemma scan_step32 w t ranks bits b st : width w -> text_ok t -> 2 * nblk t + 1 <= zlen ranks -> 64 / w * ne t (nblk t) <= zlen bits -> zlen bits < 2 ^ 32 ->
  0 <= b < nblk t -> scanP32 w t ranks bits b st -> exists st', scan_block32 w t (flags t) st b = Ok st' /\ scanP32 w t ranks bits (b + 1) st'.
Proof.
  intros W H Hr Hbl Hz Hb. destruct st as [[[r0 b0] bc] rank]. intros (L1 & L2 & -> & -> & P1 & P2 & P3 & P4).
  unfold scan_block32. rewrite seti_ok by lia. cbn [bind]. rewrite seti_ok by (rewrite zlen_upd; lia). cbn [bind].
  rewrite geti_ok by (rewrite zlen_flags; lia). cbn [bind]. rewrite zn_flags by lia.
  pose proof (fun bc rank => fill_ok32 w t b b0 bc rank W H) as FO. unfold scanP32.
  set (K := 64 / w) in *. assert (HK : 0 < K) by (unfold K; clear - W; destruct W as [->| ->]; reflexivity). clearbody K.
  set (r1 := upd _ _ _).
  assert (R : zlen r1 = zlen ranks /\ (forall c, 0 <= c < b + 1 -> zn 0 r1 (2 * c) = u32 (ts t 0 (512 * c)) /\ zn 0 r1 (2 * c + 1) = K * ne t c) /\
     (forall k, 2 * (b + 1) <= k -> zn 0 r1 k = zn 0 ranks k)).
  { unfold r1. rewrite !zlen_upd. split; [exact L1|]. split.
    - intros c Hc. rewrite !zn_upd by (rewrite ?zlen_upd; lia).
      replace (2 * c =? 2 * b + 1) with false by lia. replace (2 * c + 1 =? 2 * b) with false by lia.
      destruct (Z.eq_dec c b) as [->|].
      + rewrite !Z.eqb_refl. auto.
      + replace (2 * c =? 2 * b) with false by lia. replace (2 * c + 1 =? 2 * b + 1) with false by lia. apply P1. lia.
    - intros k Hk. rewrite !zn_upd by (rewrite ?zlen_upd; lia). replace (k =? 2 * b + 1) with false by lia. replace (k =? 2 * b) with false by lia. apply P2. lia. }
  destruct R as (R1 & R2 & R3). pose proof (ne_bound t b ltac:(lia)) as NB1.
  pose proof (ne_succ t b ltac:(lia)) as NS. pose proof (ne_mono t (b + 1) (nblk t) ltac:(lia)) as NM.
  pose proof (ts_split t 0 (512 * b) (512 * (b + 1)) ltac:(lia)) as TS.
  destruct (homob t b) eqn:Eh; cbn [b2z].
  - change (1 =? 0) with false. cbv iota. rewrite Z.add_0_r in NS.
    assert (In0 : 64 * b < zlen t) by (unfold homob in Eh; lia).
    rewrite geti_ok by lia. cbn [bind]. eexists. split; [reflexivity|]. cbv iota beta zeta. rewrite NS. split; [exact R1|]. split; [exact L2|].
    split; [reflexivity|]. split; [|split; [exact R2|split; [exact R3|split]]].
    + rewrite TS, (homob_sum t b) by (auto; lia). destruct (zn 0 t (64 * b) =? 255); [rewrite wrap_add_l; reflexivity|rewrite Z.add_0_r; reflexivity].
    + intros c k Hc Hh Hk. apply P3; auto. destruct (Z.eq_dec c b) as [->|]; [congruence|lia].
    + exact P4.
  - change (0 =? 0) with true. cbv iota. assert (KM : K * ne t b + K <= K * ne t (nblk t)) by (rewrite NS in NM; clear - NM HK; nia). assert (K0 : 0 <= K * ne t b) by (clear - NB1 HK; nia).
    destruct (FO (K * ne t b) (ts t 0 (512 * b)) ltac:(lia) K0 ltac:(lia) ltac:(lia)) as (b1 & -> & F1 & F2 & F3).
    cbn [bind]. eexists. split; [reflexivity|]. cbv iota beta zeta. rewrite NS. replace (K * (ne t b + 1)) with (K * ne t b + K) by ring. rewrite TS.
    split; [exact R1|]. split; [lia|]. split; [reflexivity|]. split; [reflexivity|].
    split; [exact R2|]. split; [exact R3|]. split.
    + intros c k Hc Hh Hk. destruct (Z.eq_dec c b) as [->|]; [apply F2; lia|]. pose proof (ne_lt t c b ltac:(lia) Hh). pose proof (ne_bound t c ltac:(lia)).
      assert (K * ne t c + K <= K * ne t b) by (clear - H0 HK; nia). assert (0 <= K * ne t c) by (clear - H1 HK; nia). rewrite F3 by lia. apply P3; auto; lia.
    + intros k Hk. rewrite F3 by lia. apply P4. lia.
Qed.

(** Texts whose padded length is an unsigned int. *)
Lemma extended32 n : 0 <= n <= 2 ^ 32 - 64 -> extended_len32 n = 64 * ((n + 63) / 64).
Proof. intros H. unfold extended_len32. destruct (n mod 64 >? 0) eqn:E; [rewrite wrap_small by lia|]; lia. Qed.
Lemma block_count32_ok t : zlen t <= 2 ^ 32 - 64 -> block_count32 (zlen t) = nblk t.
Proof. intros H. unfold block_count32, nblk. pose proof (zlen_nonneg t). rewrite extended32 by lia. lia. Qed.
Lemma nblk32 t : zlen t <= 2 ^ 32 - 64 -> 0 <= nblk t <= 2 ^ 26 - 1.
Proof. intros H. pose proof (zlen_nonneg t). unfold nblk. lia. Qed.
Lemma empty_blocks32_ok t : text_ok t -> zlen t <= 2 ^ 32 - 64 -> empty_blocks32 t = Ok (flags t).
Proof.
  intros H Hl. unfold empty_blocks32. rewrite block_count32_ok by lia. unfold flags. apply mapM_ok.
  intros b Hb. apply in_zrange in Hb. rewrite homoblock_ok by (auto; lia). reflexivity.
Qed.

Lemma scan_ok32 w t ranks bits : width w -> text_ok t -> zlen t <= 2 ^ 32 - 64 -> 2 * nblk t + 1 <= zlen ranks -> 64 / w * ne t (nblk t) <= zlen bits -> zlen bits < 2 ^ 32 ->
  exists ranks' bits', scan32 w t (flags t) ranks bits = Ok (ranks', bits') /\ zlen ranks' = zlen ranks /\ zlen bits' = zlen bits /\
    (forall c, 0 <= c <= nblk t -> zn 0 ranks' (2 * c) = u32 (ts t 0 (512 * c))) /\
    (forall c, 0 <= c < nblk t -> zn 0 ranks' (2 * c + 1) = 64 / w * ne t c) /\
    (forall k, 2 * nblk t < k -> zn 0 ranks' k = zn 0 ranks k) /\
    (forall c k, 0 <= c < nblk t -> homob t c = false -> 0 <= k < 64 / w -> zn 0 bits' (64 / w * ne t c + k) = gword w t (64 / w * c + k)) /\
    (forall k, 64 / w * ne t (nblk t) <= k -> zn 0 bits' k = zn 0 bits k).
Proof.
  intros W H Hl Hr Hbl Hz. unfold scan32. rewrite block_count32_ok by exact Hl. pose proof (nblk_nonneg t) as N0.
  destruct (foldM_inv (scan_block32 w t (flags t)) (scanP32 w t ranks bits) (Z.to_nat (nblk t)) 0 (ranks, bits, 0, 0)) as ([[[r1 b1] bc] rank] & -> & P).
  - unfold scanP32. rewrite Z.mul_0_r, ts_empty. replace (ne t 0) with 0 by reflexivity. rewrite Z.mul_0_r. repeat split; auto; lia.
  - intros k s Hk. apply scan_step32; auto; lia.
  - rewrite Z.add_0_l, Z2Nat.id in P by lia. destruct P as (L1 & L2 & -> & -> & P1 & P2 & P3 & P4). cbn [bind]. rewrite seti_ok by lia. cbn [bind].
    eexists _, b1. split; [reflexivity|]. rewrite zlen_upd. split; [exact L1|]. split; [exact L2|]. split; [|split; [|split; [|split; [exact P3|exact P4]]]].
    + intros c Hc. rewrite zn_upd by lia. destruct (Z.eq_dec c (nblk t)) as [->|]; [rewrite Z.eqb_refl; reflexivity|].
      replace (2 * c =? 2 * nblk t) with false by lia. apply P1. lia.
    + intros c Hc. rewrite zn_upd by lia. replace (2 * c + 1 =? 2 * nblk t) with false by lia. apply P1. lia.
    + intros k Hk. rewrite zn_upd by lia. replace (k =? 2 * nblk t) with false by lia. apply P2. lia.
Qed.
