(** RankMPE64: the stored form of the blocks. *)
From Coq Require Import ZifyBool.
From Verif Require Import Base BaseFacts Words WordFacts BlockFacts NodeFacts Trees TreeBuild Mem MemFacts Spec BitmapFacts KernelFacts SpecPoppy PoppyFacts PoppyFacts2 SpecText MrRank MrRankFacts MrRankFacts2 MrRankFacts3 MrMpe SpecMpe MrMpeFacts.
Ltac Zify.zify_post_hook ::= Z.div_mod_to_equations.

Definition byteful (l : list Z) : Prop := forall k, 0 <= k -> 0 <= zn 0 l k < 256.
Lemma byteful_text l : text_ok l -> byteful l.
Proof. intros H k _. apply tbyte. exact H. Qed.
Lemma byteful_upd l k v : byteful l -> 0 <= v < 256 -> 0 <= k < zlen l -> byteful (upd l k v).
Proof. intros H Hv Hk j Hj. rewrite zn_upd by lia. destruct (j =? k); auto. Qed.

(** ** Eight bytes of a word *)
Lemma rd_ext n : forall m m' off, 0 <= off -> (forall k, off <= k < off + Z.of_nat n -> zn 0 m' k = zn 0 m k) -> rd n m' off = rd n m off.
Proof. induction n; intros m m' off H0 H; [reflexivity|]. cbn [rd]. rewrite H by lia. f_equal. f_equal. apply IHn; [lia|]. intros k Hk. apply H. lia. Qed.
Lemma rd_word n : forall m off w, 0 <= w < 256 ^ Z.of_nat n -> (forall k, 0 <= k < Z.of_nat n -> zn 0 m (off + k) = (w / 2 ^ (8 * k)) mod 256) -> rd n m off = w.
Proof.
  induction n; intros m off w Hw H; cbn [rd].
  - change (256 ^ Z.of_nat 0) with 1 in Hw. lia.
  - rewrite (IHn m (off + 1) (w / 256)).
    + specialize (H 0 ltac:(lia)). rewrite Z.add_0_r in H. rewrite H. change (2 ^ (8 * 0)) with 1. rewrite Z.div_1_r. lia.
    + rewrite Nat2Z.inj_succ, Z.pow_succ_r in Hw by lia. lia.
    + intros k Hk. replace (off + 1 + k) with (off + (k + 1)) by lia. rewrite H by lia. rewrite Z.div_div by lia.
      change 256 with (2 ^ 8) at 2. rewrite <- Z.pow_add_r by lia. do 3 f_equal. lia.
Qed.

Lemma put_le_ok bits p w : 0 <= p -> p + 8 <= zlen bits -> 0 <= w < 2 ^ 64 -> exists bits', put_le bits p w = Ok bits' /\
  zlen bits' = zlen bits /\ rd 8 bits' p = w /\ (byteful bits -> byteful bits') /\ (forall k, 0 <= k < p \/ p + 8 <= k -> zn 0 bits' k = zn 0 bits k).
Proof.
  intros Hp Hl Hw. unfold put_le.
  match goal with |- exists _, foldM ?g _ _ = _ /\ _ => destruct (foldM_inv g (fun j l => zlen l = zlen bits /\ (byteful bits -> byteful l) /\
     (forall k, 0 <= k < j -> zn 0 l (p + k) = (w / 2 ^ (8 * k)) mod 256) /\ (forall k, 0 <= k < p \/ p + j <= k -> zn 0 l k = zn 0 bits k)) 8 0 bits) as (l & -> & L1 & L2 & L3 & L4) end.
  - split; [reflexivity|]. split; [auto|]. split; [intros; lia|auto].
  - intros j l Hj (L1 & L2 & L3 & L4). rewrite seti_ok by lia. change 255 with (Z.ones 8). rewrite Z.land_ones, Z.shiftr_div_pow2 by lia. change (2 ^ 8) with 256.
    eexists. split; [reflexivity|]. rewrite zlen_upd. split; [exact L1|]. split; [|split].
    + intros B. apply byteful_upd; [auto| |lia]. apply Z.mod_pos_bound. lia.
    + intros k Hk. rewrite zn_upd by lia. destruct (p + k =? p + j) eqn:E; [replace k with j by lia; reflexivity|apply L3; lia].
    + intros k Hk. rewrite zn_upd by lia. replace (k =? p + j) with false by lia. apply L4. lia.
  - change (0 + Z.of_nat 8) with 8 in *. eexists. split; [reflexivity|]. split; [exact L1|]. split; [|split; [exact L2|exact L4]].
    apply rd_word; [exact Hw|exact L3].
Qed.

(** ** The pairs that are kept *)
Definition cnt (R : Z -> bool) (q : Z) : Z := sumf (fun j => b2z (R j)) 0 q.
Definition fw (R : Z -> bool) (n : Z) : Z := sumf (fun j => if R j then 2 ^ (63 - j) else 0) 0 n.
Definition keptAt (R : Z -> bool) (t : list Z) (b : Z) (bits : list Z) (base q : Z) : Prop := forall j, 0 <= j < q -> R j = false ->
  zn 0 bits (base + 2 * (j - cnt R j)) = zn 0 t (128 * b + 2 * j) /\ zn 0 bits (base + 2 * (j - cnt R j) + 1) = zn 0 t (128 * b + 2 * j + 1).

Lemma cnt_succ R q : 0 <= q -> cnt R (q + 1) = cnt R q + b2z (R q).
Proof. intros. unfold cnt. rewrite sumf_succ by lia. reflexivity. Qed.
Lemma cnt_diff R a b : 0 <= a <= b -> cnt R a <= cnt R b <= cnt R a + (b - a).
Proof.
  intros H. unfold cnt. rewrite (sumf_split _ 0 a b) by lia. pose proof (sumf_bound (fun j => b2z (R j)) 1 a b ltac:(lia) ltac:(intros i _; cbn beta; destruct (R i); cbn; lia)) as SB. cbn beta in SB. lia.
Qed.
Lemma fw_step R j : 0 <= j < 64 -> R j = true -> u64 (fw R j + Z.shiftl 1 (63 - j)) = fw R (j + 1).
Proof.
  intros Hj E. pose proof (flag_bound R (j + 1) ltac:(lia)) as B. unfold fw in *. rewrite sumf_succ in * by lia. rewrite E in *.
  rewrite Z.shiftl_mul_pow2, Z.mul_1_l by lia. apply wrap_small. exact B.
Qed.
Lemma fw_skip R j : 0 <= j < 64 -> R j = false -> fw R (j + 1) = fw R j.
Proof. intros Hj E. unfold fw. rewrite sumf_succ by lia. rewrite E. lia. Qed.

Definition pairP (R : Z -> bool) (t : list Z) (b : Z) (bits : list Z) (base j : Z) (bits' : list Z) (bc : Z) : Prop :=
  zlen bits' = zlen bits /\ bc = base + 2 * (j - cnt R j) /\ (byteful bits -> byteful bits') /\ keptAt R t b bits' base j /\
  (forall k, 0 <= k < base \/ bc <= k -> zn 0 bits' k = zn 0 bits k).

Lemma pair_start R t b bits base : pairP R t b bits base 0 bits base.
Proof. split; [reflexivity|]. split; [change (cnt R 0) with 0; lia|]. split; [auto|]. split; [intros j Hj; lia|auto]. Qed.
Lemma pair_drop R t b bits base j bits' bc : 0 <= j -> R j = true -> pairP R t b bits base j bits' bc -> pairP R t b bits base (j + 1) bits' bc.
Proof.
  intros Hj E (L1 & L2 & L3 & L4 & L5). pose proof (cnt_succ R j Hj) as C. rewrite E in C. cbn [b2z] in C.
  split; [exact L1|]. split; [lia|]. split; [exact L3|]. split; [|exact L5]. intros k Hk Ek. apply L4; auto. destruct (Z.eq_dec k j) as [->|]; [congruence|lia].
Qed.
Lemma pair_keep R t temp b off bits base j bits' bc : text_ok t -> blockAt t temp b off -> 0 <= j < 64 -> R j = false -> 0 <= base -> base + 2 * (64 - cnt R 64) <= zlen bits ->
  pairP R t b bits base j bits' bc -> exists bits2,
  (forall A (k : list Z -> res A), (let* x := geti temp (off + 2 * j) in let* bits := seti bits' bc x in let* y := geti temp (off + 2 * j + 1) in let* bits := seti bits (bc + 1) y in k bits) = k bits2) /\
  pairP R t b bits base (j + 1) bits2 (bc + 2).
Proof.
  intros Ht (B0 & B1 & B2) Hj E Hb Hl (L1 & -> & L3 & L4 & L5). pose proof (cnt_succ R j ltac:(lia)) as C. rewrite E in C. cbn [b2z] in C.
  pose proof (cnt_diff R (j + 1) 64 ltac:(lia)) as D. pose proof (cnt_diff R 0 j ltac:(lia)) as D0. change (cnt R 0) with 0 in D0. set (at_ := base + 2 * (j - cnt R j)) in *.
  exists (upd (upd bits' at_ (zn 0 t (128 * b + 2 * j))) (at_ + 1) (zn 0 t (128 * b + 2 * j + 1))). split.
  - intros A k. rewrite geti_ok by lia. cbn [bind]. rewrite B2 by lia. rewrite seti_ok by lia. cbn [bind]. rewrite geti_ok by lia. cbn [bind].
    replace (off + 2 * j + 1) with (off + (2 * j + 1)) by lia. rewrite B2 by lia. rewrite seti_ok by (rewrite zlen_upd; lia). cbn [bind].
    replace (128 * b + (2 * j + 1)) with (128 * b + 2 * j + 1) by lia. reflexivity.
  - unfold pairP. rewrite !zlen_upd. split; [exact L1|]. split; [lia|]. split; [|split].
    + intros B. apply byteful_upd; [apply byteful_upd; [auto|apply tbyte; auto|lia]|apply tbyte; auto|rewrite zlen_upd; lia].
    + intros i Hi Ei. rewrite !zn_upd by (rewrite ?zlen_upd; pose proof (cnt_diff R 0 i ltac:(lia)) as Q; change (cnt R 0) with 0 in Q; pose proof (cnt_diff R i 64 ltac:(lia)) as Q1; pose proof (cnt_succ R i ltac:(lia)) as Q2; rewrite Ei in Q2; cbn [b2z] in Q2; lia).
      destruct (Z.eq_dec i j) as [->|Ne].
      * fold at_. replace (at_ =? at_ + 1) with false by lia. rewrite Z.eqb_refl. rewrite Z.eqb_refl. auto.
      * assert (Q : base + 2 * (i - cnt R i) + 2 <= at_).
        { unfold at_. pose proof (cnt_succ R i ltac:(lia)) as Q2. rewrite Ei in Q2. cbn [b2z] in Q2. pose proof (cnt_diff R (i + 1) j ltac:(lia)). lia. }
        replace (base + 2 * (i - cnt R i) =? at_ + 1) with false by lia. replace (base + 2 * (i - cnt R i) =? at_) with false by lia.
        replace (base + 2 * (i - cnt R i) + 1 =? at_ + 1) with false by lia. replace (base + 2 * (i - cnt R i) + 1 =? at_) with false by lia. apply L4; auto. lia.
    + intros k Hk. rewrite !zn_upd by (rewrite ?zlen_upd; lia). replace (k =? at_ + 1) with false by lia. replace (k =? at_) with false by lia. apply L5. lia.
Qed.

Lemma one_loop v R t temp b off bits base : text_ok t -> blockAt t temp b off -> (forall j, 0 <= j < 64 -> isp v t b j = R j) -> 0 <= base -> base + 2 * (64 - cnt R 64) <= zlen bits ->
  exists bits' bc, foldM (one_pair v temp off) (zrange 0 64) (bits, base, 0) = Ok (bits', bc, fw R 64) /\ pairP R t b bits base 64 bits' bc.
Proof.
  intros Ht B HR Hb Hl.
  destruct (foldM_inv (one_pair v temp off) (fun j st => let '(bits', bc, w) := st in w = fw R j /\ pairP R t b bits base j bits' bc) 64 0 (bits, base, 0)) as ([[bits' bc] w] & E & P1 & P2).
  - split; [reflexivity|]. apply pair_start.
  - intros j [[bits' bc] w] Hj (-> & P). unfold one_pair. rewrite (pair_eq_ok v t temp b) by (auto; lia). cbn [bind]. rewrite HR by lia. destruct (R j) eqn:E.
    + eexists. split; [reflexivity|]. split; [apply fw_step; auto; lia|]. apply pair_drop; auto. lia.
    + destruct (pair_keep R t temp b off bits base j bits' bc Ht B ltac:(lia) E Hb Hl P) as (b2 & F & P'). rewrite F. eexists. split; [reflexivity|].
      split; [symmetry; apply fw_skip; auto; lia|exact P'].
  - exists bits', bc. rewrite E, P1. auto.
Qed.

Lemma both_loop R F t temp b off bits base : text_ok t -> blockAt t temp b off -> (forall j, 0 <= j < 64 -> isp 0 t b j || isp 255 t b j = R j) -> (forall j, 0 <= j < 64 -> isp 255 t b j = F j) ->
  0 <= base -> base + 2 * (64 - cnt R 64) <= zlen bits ->
  exists bits' bc, foldM (both_pair temp off) (zrange 0 64) (bits, base, 0, 0) = Ok (bits', bc, fw R 64, fw F 64) /\ pairP R t b bits base 64 bits' bc.
Proof.
  intros Ht B HR HF Hb Hl.
  destruct (foldM_inv (both_pair temp off) (fun j st => let '(bits', bc, w, w2) := st in w = fw R j /\ w2 = fw F j /\ pairP R t b bits base j bits' bc) 64 0 (bits, base, 0, 0)) as ([[[bits' bc] w] w2] & E & P1 & P2 & P3).
  - split; [reflexivity|]. split; [reflexivity|]. apply pair_start.
  - intros j [[[bits' bc] w] w2] Hj (-> & -> & P). unfold both_pair. rewrite !(pair_eq_ok _ t temp b) by (auto; lia). cbn [bind].
    assert (W2 : (if isp 255 t b j then u64 (fw F j + Z.shiftl 1 (63 - j)) else fw F j) = fw F (j + 1)).
    { rewrite HF by lia. destruct (F j) eqn:E; [apply fw_step; auto; lia|symmetry; apply fw_skip; auto; lia]. }
    rewrite W2. clear W2. assert (G : (if isp 0 t b j then Ok true else Ok (isp 255 t b j)) = Ok (R j)) by (rewrite <- HR by lia; destruct (isp 0 t b j); reflexivity).
    rewrite G. cbn [bind]. destruct (R j) eqn:E.
    + eexists. split; [reflexivity|]. split; [apply fw_step; auto; lia|]. split; [reflexivity|]. apply pair_drop; auto. lia.
    + destruct (pair_keep R t temp b off bits base j bits' bc Ht B ltac:(lia) E Hb Hl P) as (b2 & F2 & P'). rewrite F2. eexists. split; [reflexivity|].
      split; [symmetry; apply fw_skip; auto; lia|]. split; [reflexivity|exact P'].
  - exists bits', bc. rewrite E, P1, P2. auto.
Qed.

(** ** A stored block *)
Definition blockOk (T : mpe_type) (t : list Z) (b : Z) (bits : list Z) (p : Z) : Prop :=
  keptAt (rmv T t b) t b bits (p + hd (dz T t b) (d1 T t b)) 64 /\
  (dz T t b || d1 T t b = true -> rd 8 bits p = fw (rmv T t b) 64) /\
  (dz T t b && d1 T t b = true -> rd 8 bits (p + 8) = fw (ful T t b) 64).
Definition blen (T : mpe_type) (t : list Z) (b : Z) : Z := 128 + hd (dz T t b) (d1 T t b) - 2 * nrm T t b 64.

Lemma blockOk_frame T t b bits bits' p : 0 <= p -> (forall k, p <= k < p + blen T t b -> zn 0 bits' k = zn 0 bits k) -> blockOk T t b bits p -> blockOk T t b bits' p.
Proof.
  intros Hp H (K & W1 & W2). unfold blen in H. pose proof (nrm_bound T t b 64 ltac:(lia)) as N. unfold blockOk.
  assert (Hh : 0 <= hd (dz T t b) (d1 T t b)) by (unfold hd; destruct (dz T t b), (d1 T t b); cbn; lia). split; [|split].
  - intros j Hj E. pose proof (cnt_succ (rmv T t b) j ltac:(lia)) as C. rewrite E in C. cbn [b2z] in C. change (nrm T t b 64) with (cnt (rmv T t b) 64) in *.
    pose proof (cnt_diff (rmv T t b) (j + 1) 64 ltac:(lia)). pose proof (cnt_diff (rmv T t b) 0 j ltac:(lia)) as D0. change (cnt (rmv T t b) 0) with 0 in D0.
    destruct (K j Hj E) as [K1 K2]. rewrite <- K1, <- K2. split; apply H; lia.
  - intros E. rewrite <- W1 by exact E. apply rd_ext; [lia|]. intros k Hk. apply H. unfold hd in *. destruct (dz T t b), (d1 T t b); cbn [b2z] in *; try discriminate; lia.
  - intros E. rewrite <- W2 by exact E. apply rd_ext; [lia|]. intros k Hk. apply H. unfold hd in *. destruct (dz T t b), (d1 T t b); cbn [b2z] in *; try discriminate; lia.
Qed.

Definition storedP (T : mpe_type) (t : list Z) (b : Z) (bits : list Z) (p : Z) (bits' : list Z) : Prop :=
  zlen bits' = zlen bits /\ (byteful bits -> byteful bits') /\ blockOk T t b bits' p /\ (forall k, 0 <= k < p \/ p + blen T t b <= k -> zn 0 bits' k = zn 0 bits k).

Lemma store_both_ok T t temp b off bits p : text_ok t -> blockAt t temp b off -> dz T t b = true -> d1 T t b = true -> 0 <= p -> p + blen T t b <= zlen bits ->
  exists bits', store_both temp off p bits p = Ok (bits', p + blen T t b) /\ storedP T t b bits p bits'.
Proof.
  intros Ht B Z0 Z1 Hp Hl. unfold store_both. pose proof (nrm_bound T t b 64 ltac:(lia)) as N. unfold storedP, blockOk, blen in *. rewrite Z0, Z1 in *. change (hd true true) with 16 in *. cbn [andb orb].
  destruct (both_loop (rmv T t b) (ful T t b) t temp b off bits (p + 16) Ht B) as (b1 & bc & E & L1 & -> & L3 & L4 & L5).
  - intros j Hj. unfold rmv. rewrite Z0, Z1. reflexivity.
  - intros j Hj. unfold ful. rewrite Z1. reflexivity.
  - lia.
  - change (cnt (rmv T t b) 64) with (nrm T t b 64). lia.
  - rewrite E. cbn [bind]. clear E. change (cnt (rmv T t b) 64) with (nrm T t b 64) in *.
    destruct (put_le_ok b1 p (fw (rmv T t b) 64) Hp ltac:(lia) (flag_bound (rmv T t b) 64 ltac:(lia))) as (b2 & -> & M1 & M2 & M3 & M4). cbn [bind].
    destruct (put_le_ok b2 (p + 8) (fw (ful T t b) 64) ltac:(lia) ltac:(lia) (flag_bound (ful T t b) 64 ltac:(lia))) as (b3 & -> & N1 & N2 & N3 & N4). cbn [bind].
    exists b3. split; [do 2 f_equal; lia|]. split; [lia|]. split; [auto|]. split; [split; [|split]|].
    + intros j Hj Ej. pose proof (cnt_diff (rmv T t b) 0 j ltac:(lia)) as D0. change (cnt (rmv T t b) 0) with 0 in D0.
      rewrite !N4 by lia. rewrite !M4 by lia. apply L4; auto.
    + intros _. rewrite <- M2. apply rd_ext; [lia|]. intros k Hk. apply N4. lia.
    + intros _. exact N2.
    + intros k Hk. rewrite N4, M4 by lia. apply L5. lia.
Qed.

Lemma store_one_ok v T t temp b off bits p : text_ok t -> blockAt t temp b off -> (v = 0 /\ dz T t b = true /\ d1 T t b = false \/ v = 255 /\ dz T t b = false /\ d1 T t b = true) -> 0 <= p -> p + blen T t b <= zlen bits ->
  exists bits', store_one v temp off p bits p = Ok (bits', p + blen T t b) /\ storedP T t b bits p bits'.
Proof.
  intros Ht B Hv Hp Hl. unfold store_one. pose proof (nrm_bound T t b 64 ltac:(lia)) as N. unfold storedP, blockOk, blen in *.
  assert (Hh : hd (dz T t b) (d1 T t b) = 8 /\ dz T t b && d1 T t b = false) by (destruct Hv as [(_ & -> & ->)|(_ & -> & ->)]; auto). destruct Hh as [Hh Hx]. rewrite Hh, Hx in *.
  destruct (one_loop v (rmv T t b) t temp b off bits (p + 8) Ht B) as (b1 & bc & E & L1 & -> & L3 & L4 & L5).
  - intros j Hj. unfold rmv. destruct Hv as [(-> & -> & ->)|(-> & -> & ->)]; cbn [andb orb]; [rewrite orb_false_r|]; reflexivity.
  - lia.
  - change (cnt (rmv T t b) 64) with (nrm T t b 64). lia.
  - rewrite E. cbn [bind]. clear E. change (cnt (rmv T t b) 64) with (nrm T t b 64) in *.
    destruct (put_le_ok b1 p (fw (rmv T t b) 64) Hp ltac:(lia) (flag_bound (rmv T t b) 64 ltac:(lia))) as (b2 & -> & M1 & M2 & M3 & M4). cbn [bind].
    exists b2. split; [do 2 f_equal; lia|]. split; [lia|]. split; [auto|]. split; [split; [|split]|].
    + intros j Hj Ej. pose proof (cnt_diff (rmv T t b) 0 j ltac:(lia)) as D0. change (cnt (rmv T t b) 0) with 0 in D0.
      rewrite !M4 by lia. apply L4; auto.
    + intros _. exact M2.
    + discriminate.
    + intros k Hk. rewrite M4 by lia. apply L5. lia.
Qed.

Lemma store_plain_ok T t temp b off bits p : text_ok t -> blockAt t temp b off -> dz T t b = false -> d1 T t b = false -> 0 <= p -> p + blen T t b <= zlen bits ->
  exists bits', store_plain temp off bits p = Ok (bits', p + blen T t b) /\ storedP T t b bits p bits'.
Proof.
  intros Ht (B0 & B1 & B2) Z0 Z1 Hp Hl. unfold store_plain. unfold storedP, blockOk, blen in *. rewrite Z0, Z1 in *. change (hd false false) with 0 in *.
  assert (R0 : forall j, rmv T t b j = false) by (intros; unfold rmv; rewrite Z0, Z1; reflexivity).
  assert (C0 : forall q, cnt (rmv T t b) q = 0) by (intros; apply sumf_const0; intros; rewrite R0; reflexivity).
  change (nrm T t b 64) with (cnt (rmv T t b) 64) in *. rewrite C0 in *.
  match goal with |- exists _, bind (foldM ?g _ _) _ = _ /\ _ => destruct (foldM_inv g (fun j l => zlen l = zlen bits /\ (byteful bits -> byteful l) /\
     (forall k, 0 <= k < j -> zn 0 l (p + k) = zn 0 t (128 * b + k)) /\ (forall k, 0 <= k < p \/ p + j <= k -> zn 0 l k = zn 0 bits k)) 128 0 bits) as (l & -> & L1 & L2 & L3 & L4) end.
  - split; [reflexivity|]. split; [auto|]. split; [intros; lia|auto].
  - intros j l Hj (L1 & L2 & L3 & L4). change (0 + Z.of_nat 128) with 128 in Hj. rewrite geti_ok by lia. cbn [bind]. rewrite seti_ok by lia. rewrite B2 by lia.
    eexists. split; [reflexivity|]. rewrite zlen_upd. split; [exact L1|]. split; [|split].
    + intros B. apply byteful_upd; [auto|apply tbyte; auto|lia].
    + intros k Hk. rewrite zn_upd by lia. destruct (p + k =? p + j) eqn:E; [replace k with j by lia; reflexivity|apply L3; lia].
    + intros k Hk. rewrite zn_upd by lia. replace (k =? p + j) with false by lia. apply L4. lia.
  - change (0 + Z.of_nat 128) with 128 in *. cbn [bind]. exists l. split; [do 2 f_equal; lia|]. split; [exact L1|]. split; [exact L2|]. split; [split; [|split]|].
    + intros j Hj _. rewrite C0. replace (p + 0 + 2 * (j - 0)) with (p + 2 * j) by lia. rewrite <- !Z.add_assoc. split; apply L3; lia.
    + discriminate.
    + discriminate.
    + intros k Hk. apply L4. lia.
Qed.

Lemma store_form T t temp b off bits p : text_ok t -> blockAt t temp b off -> 0 <= p -> p + blen T t b <= zlen bits ->
  exists bits', (let f := code T (dz T t b) (d1 T t b) in match T with
         | MPE1 => if f =? 0 then store_plain temp off bits p else store_both temp off p bits p
         | _ => if f =? 3 then store_both temp off p bits p else
                if f =? 1 then store_one 0 temp off p bits p else
                if f =? 2 then store_one 255 temp off p bits p else
                store_plain temp off bits p
         end) = Ok (bits', p + blen T t b) /\ storedP T t b bits p bits'.
Proof.
  intros Ht B Hp Hl. destruct T.
  - cbv zeta. unfold code. pose proof (mpe1_same t b) as M. destruct (dz MPE1 t b) eqn:E0; cbn [b2z]; [apply store_both_ok|apply store_plain_ok]; auto.
  - cbv zeta. unfold code. destruct (dz MPE2 t b) eqn:E0, (d1 MPE2 t b) eqn:E1.
    + apply store_both_ok; auto.
    + apply store_one_ok; auto.
    + apply store_one_ok; auto.
    + apply store_plain_ok; auto.
  - cbv zeta. unfold code. destruct (dz MPE3 t b) eqn:E0, (d1 MPE3 t b) eqn:E1.
    + apply store_both_ok; auto.
    + apply store_one_ok; auto.
    + apply store_one_ok; auto.
    + apply store_plain_ok; auto.
Qed.

(** ** The loop that stores *)
Definition storeP (T : mpe_type) (t ranks0 bits0 : list Z) (b : Z) (st : list Z * list Z * Z * Z) : Prop :=
  let '(ranks, bits, bc, offset) := st in
  zlen ranks = zlen ranks0 /\ zlen bits = zlen bits0 /\ byteful bits /\ bc = moff T t b /\ offset = 128 * ne2 t b /\
  (forall c, 0 <= c < b -> zn 0 ranks (2 * c + 1) = moff T t c) /\
  (forall k, 0 <= k -> (k mod 2 = 0 \/ 2 * b < k) -> zn 0 ranks k = zn 0 ranks0 k) /\
  (forall c, 0 <= c < b -> homob2 t c = false -> blockOk T t c bits (moff T t c)).

Lemma store_loop T t ranks0 temp btc bits0 : text_ok t -> 2 * nbig t + 1 <= zlen ranks0 -> nbig t <= zlen btc -> moff T t (nbig t) <= zlen bits0 -> byteful bits0 ->
  (forall c, 0 <= c < nbig t -> homob2 t c = false -> blockAt t temp c (128 * ne2 t c)) ->
  (forall c, 0 <= c < nbig t -> zn 0 btc c = if homob2 t c then 0 else code T (dz T t c) (d1 T t c)) ->
  exists ranks bits bc offset, foldM (store_block T (flags2 t) btc temp) (zrange 0 (Z.to_nat (nbig t))) (ranks0, bits0, 0, 0) = Ok (ranks, bits, bc, offset) /\
    storeP T t ranks0 bits0 (nbig t) (ranks, bits, bc, offset).
Proof.
  intros Ht Hr Hbt Hbits Hby Hblk Hf. pose proof (nbig_nonneg t) as N0. set (n := nbig t) in *.
  destruct (foldM_inv (store_block T (flags2 t) btc temp) (storeP T t ranks0 bits0) (Z.to_nat n) 0 (ranks0, bits0, 0, 0)) as ([[[ranks bits] bc] offset] & E & P).
  - unfold storeP. rewrite moff_0. change (ne2 t 0) with 0. split; [auto|]. split; [auto|]. split; [exact Hby|]. split; [lia|]. split; [lia|]. split; [intros; lia|]. split; [auto|intros; lia].
  - intros b [[[ranks bits] bc] offset] Hb (L1 & L2 & L3 & -> & -> & L4 & L5 & L6). unfold store_block. rewrite seti_ok by lia. cbn [bind].
    rewrite geti_ok by (rewrite zlen_flags2; fold n; lia). cbn [bind]. rewrite zn_flags2 by (fold n; lia).
    pose proof (ne2_succ t b ltac:(lia)) as NS. pose proof (moff_succ T t b ltac:(lia)) as MS. pose proof (moff_mono T t (b + 1) n ltac:(lia)) as MM.
    pose proof (moff_mono T t 0 b ltac:(lia)) as M0. rewrite moff_0 in M0.
    set (r1 := upd ranks (2 * b + 1) (moff T t b)).
    assert (R : zlen r1 = zlen ranks0 /\ (forall c, 0 <= c < b + 1 -> zn 0 r1 (2 * c + 1) = moff T t c) /\ (forall k, 0 <= k -> (k mod 2 = 0 \/ 2 * (b + 1) < k) -> zn 0 r1 k = zn 0 ranks0 k)).
    { unfold r1. rewrite zlen_upd. split; [exact L1|]. split.
      - intros c Hc. rewrite zn_upd by lia. destruct (2 * c + 1 =? 2 * b + 1) eqn:E; [f_equal; lia|apply L4; lia].
      - intros k Hk0 Hk. rewrite zn_upd by lia. replace (k =? 2 * b + 1) with false by lia. apply L5; lia. }
    destruct R as (R1 & R2 & R3). unfold stored in MS.
    destruct (homob2 t b) eqn:Eh; cbn [b2z].
    + change (1 =? 0) with false. cbv iota. eexists. split; [reflexivity|]. unfold storeP. split; [exact R1|]. split; [exact L2|]. split; [exact L3|]. split; [lia|]. split; [lia|].
      split; [exact R2|]. split; [exact R3|]. intros c Hc Hh. apply L6; auto. destruct (Z.eq_dec c b) as [->|]; [congruence|lia].
    + change (0 =? 0) with true. cbv iota. rewrite geti_ok by lia. cbn [bind]. rewrite geti_ok by lia. cbn [bind]. rewrite Hf, Eh by lia. rewrite R2 by lia.
      destruct (store_form T t temp b (128 * ne2 t b) bits (moff T t b) Ht (Hblk b ltac:(lia) Eh) ltac:(lia) ltac:(unfold blen; lia)) as (b1 & S1 & S2 & S3 & S4 & S5).
      cbv zeta in S1. rewrite S1. cbn [bind]. eexists. split; [reflexivity|]. unfold storeP. split; [exact R1|]. split; [lia|]. split; [auto|]. split; [unfold blen; lia|]. split; [lia|].
      split; [exact R2|]. split; [exact R3|]. intros c Hc Hh. destruct (Z.eq_dec c b) as [->|]; [exact S4|].
      pose proof (moff_succ T t c ltac:(lia)) as MC. unfold stored in MC. rewrite Hh in MC. pose proof (moff_mono T t (c + 1) b ltac:(lia)) as MB. pose proof (moff_mono T t 0 c ltac:(lia)) as MB0. rewrite moff_0 in MB0.
      apply (blockOk_frame T t c bits); [lia| |apply L6; auto; lia]. intros k Hk. unfold blen in Hk. apply S5. lia.
  - rewrite Z.add_0_l, Z2Nat.id in P by lia. eauto 8.
Qed.
