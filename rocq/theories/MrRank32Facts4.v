(** RankCF32. *)
From Coq Require Import ZifyBool.
From Verif Require Import Base BaseFacts Words WordFacts BlockFacts NodeFacts Trees TreeBuild MemFacts Spec BitmapFacts KernelFacts SpecPoppy PoppyFacts PoppyFacts2 SpecText MrRank MrRankFacts MrRankFacts2 MrRankFacts4 MrRank32 MrRank32Facts MrRank32Facts2.
Ltac Zify.zify_post_hook ::= Z.div_mod_to_equations.

(** ** Pairs of ints *)
Lemma pair_low lo hi j : 0 <= lo < 2 ^ 32 -> 0 <= j < 32 -> Z.testbit (lo + 2 ^ 32 * hi) j = Z.testbit lo j.
Proof.
  intros Hl Hj. rewrite <- (Z.mod_pow2_bits_low (lo + 2 ^ 32 * hi) 32 j) by lia. f_equal. rewrite Z.mul_comm, Z_mod_plus_full. apply Z.mod_small. lia.
Qed.
Lemma pair_high lo hi j : 0 <= lo < 2 ^ 32 -> 0 <= j -> Z.testbit (lo + 2 ^ 32 * hi) (j + 32) = Z.testbit hi j.
Proof.
  intros Hl Hj. rewrite <- Z.div_pow2_bits by lia. f_equal. rewrite Z.mul_comm, Z.div_add, Z.div_small by lia. lia.
Qed.
Lemma masks_cf32_bits : forallb (fun k => forallb (fun j => Bool.eqb (Z.testbit (zn 0 masks_cf32 k) j) (if j <? 32 then 32 - k <=? j else 96 - k <=? j)) (zrange 0 64)) (zrange 0 64) = true.
Proof. vm_compute. reflexivity. Qed.
Lemma mask_cf32_bit k j : 0 <= k < 64 -> 0 <= j < 64 -> Z.testbit (zn 0 masks_cf32 k) j = (if j <? 32 then 32 - k <=? j else 96 - k <=? j).
Proof.
  intros Hk Hj. pose proof masks_cf32_bits as F. rewrite forallb_forall in F. specialize (F k ltac:(apply in_zrange; lia)).
  rewrite forallb_forall in F. specialize (F j ltac:(apply in_zrange; lia)). apply eqb_prop. exact F.
Qed.
Lemma zlen_masks_cf32 : zlen masks_cf32 = 64.
Proof. reflexivity. Qed.
Lemma cut_sum (g : Z -> Z) k : 0 <= k <= 32 -> sumf (fun p => if p <? k then g p else 0) 0 32 = sumf g 0 k.
Proof.
  intros Hk. rewrite (sumf_split _ 0 k 32) by lia. rewrite (sumf_const0 _ k 32), Z.add_0_r.
  - apply sumf_ext. intros p Hp. replace (p <? k) with true by lia. reflexivity.
  - intros p Hp. replace (p <? k) with false by lia. reflexivity.
Qed.
Lemma halves x : sumf (fun j => wbit x j) 0 64 = sumf (fun p => wbit x (31 - p)) 0 32 + sumf (fun p => wbit x (31 - p + 32)) 0 32.
Proof.
  rewrite (sumf_split _ 0 32 64) by lia. f_equal.
  - rewrite <- (sum_wb 32) by lia. reflexivity.
  - change 32 with (0 + 32) at 1. change 64 with (32 + 32). rewrite <- sumf_shift.
    transitivity (sumf (fun j => wbit (Z.shiftr x 32) j) 0 32).
    + apply sumf_ext. intros j Hj. unfold wbit. rewrite Z.shiftr_spec by lia. reflexivity.
    + rewrite <- (sum_wb 32) by lia. unfold wb. apply sumf_ext. intros p Hp. unfold wbit. rewrite Z.shiftr_spec by lia. f_equal. 
Qed.
Lemma pair_count lo hi k : 0 <= lo < 2 ^ 32 -> 0 <= k < 64 ->
  popcount (Z.land (lo + 2 ^ 32 * hi) (zn 0 masks_cf32 k)) = sumf (fun p => wbit lo (31 - p)) 0 (Z.min k 32) + sumf (fun p => wbit hi (31 - p)) 0 (Z.max 0 (k - 32)).
Proof.
  intros Hl Hk. rewrite popcount_wones. unfold wones. rewrite halves. rewrite <- (cut_sum _ (Z.min k 32)) by lia. rewrite <- (cut_sum _ (Z.max 0 (k - 32))) by lia. f_equal.
  - apply sumf_ext. intros p Hp. unfold wbit. rewrite Z.land_spec, mask_cf32_bit, pair_low by lia. replace (31 - p <? 32) with true by lia.
    replace (32 - k <=? 31 - p) with (p <? Z.min k 32) by lia. destruct (p <? Z.min k 32); [rewrite andb_true_r|rewrite andb_false_r]; reflexivity.
  - apply sumf_ext. intros p Hp. unfold wbit. rewrite Z.land_spec, mask_cf32_bit, pair_high by lia. replace (31 - p + 32 <? 32) with false by lia.
    replace (96 - k <=? 31 - p + 32) with (p <? Z.max 0 (k - 32)) by lia. destruct (p <? Z.max 0 (k - 32)); [rewrite andb_true_r|rewrite andb_false_r]; reflexivity.
Qed.
Lemma pair_popcount lo hi : 0 <= lo < 2 ^ 32 -> popcount (lo + 2 ^ 32 * hi) = sumf (fun p => wbit lo (31 - p)) 0 32 + sumf (fun p => wbit hi (31 - p)) 0 32.
Proof.
  intros Hl. rewrite popcount_wones. unfold wones. rewrite halves. f_equal; apply sumf_ext; intros p Hp; unfold wbit; rewrite ?pair_low, ?pair_high by lia; reflexivity.
Qed.

Lemma count_pairs_ok al t b bits p i : text_ok t -> 0 <= b -> 512 * b + i < 2 ^ 32 -> 0 <= p -> p + 16 <= zlen bits ->
  (forall k, 0 <= k < 16 -> zn 0 bits (p + k) = gword 4 t (16 * b + k)) -> 0 <= i < 512 ->
  count_pairs al bits p i (ts t 0 (512 * b)) = if al && (p mod 2 =? 1) then Ub UB_align else Ok (ts t 0 (512 * b + i)).
Proof.
  intros H Hb Hbi Hp Hpl W Hi. unfold count_pairs.
  assert (PA : forall q, 0 <= q < 8 -> pair_at al bits (p + 2 * q) = if al && (p mod 2 =? 1) then Ub UB_align else Ok (gword 4 t (2 * (8 * b + q)) + 2 ^ 32 * gword 4 t (2 * (8 * b + q) + 1))).
  { intros q Hq. unfold pair_at. replace ((p + 2 * q) mod 2) with (p mod 2) by lia. destruct (al && (p mod 2 =? 1)); [reflexivity|].
    rewrite !geti_ok by lia. cbn [bind]. rewrite <- (Z.add_assoc p). rewrite !W by lia. do 3 f_equal; [|f_equal]; lia. }
  destruct (al && (p mod 2 =? 1)).
  { destruct (Z.to_nat (i / 64)) as [|n] eqn:E.
    - cbn [zrange foldM bind]. rewrite PA by lia. reflexivity.
    - cbn [zrange foldM]. rewrite PA by lia. reflexivity. }
  assert (GB : forall q, 0 <= gword 4 t q < 2 ^ 32) by (intros q; pose proof (gword_bound 4 t q (or_intror eq_refl) H) as G; change (8 * 4) with 32 in G; exact G).
  assert (GS : forall q k, 0 <= q -> 0 <= k <= 32 -> sumf (fun p => wbit (gword 4 t q) (31 - p)) 0 k = ts t (32 * q) (32 * q + k)) by (intros; apply gword4_bits; auto).
  destruct (foldM_inv (fun r j => let* w := pair_at al bits (p + 2 * j) in Ok (u32 (r + popcount w))) (fun j r => r = ts t 0 (512 * b + 64 * j)) (Z.to_nat (i / 64)) 0 (ts t 0 (512 * b))) as (r & -> & R).
  - rewrite Z.mul_0_r, Z.add_0_r. reflexivity.
  - intros k s Hk ->. rewrite PA by lia. cbn [bind]. eexists. split; [reflexivity|].
    rewrite pair_popcount by apply GB. rewrite !GS by lia. replace (32 * (2 * (8 * b + k))) with (512 * b + 64 * k) by lia. replace (32 * (2 * (8 * b + k) + 1)) with (512 * b + 64 * k + 32) by lia.
    rewrite <- ts_split by lia. replace (512 * b + 64 * k + 32 + 32) with (512 * b + 64 * (k + 1)) by lia. rewrite <- ts_split by lia. apply ts_small. lia.
  - cbn [bind]. rewrite PA by lia. cbn [bind]. rewrite geti_ok by (rewrite zlen_masks_cf32; lia). cbn [bind]. f_equal.
    rewrite pair_count by (try apply GB; lia). rewrite !GS by lia. subst r. rewrite Z.add_0_l, Z2Nat.id by lia.
    replace (32 * (2 * (8 * b + i / 64))) with (512 * b + 64 * (i / 64)) by lia. replace (32 * (2 * (8 * b + i / 64) + 1)) with (512 * b + 64 * (i / 64) + 32) by lia.
    set (y := i - 64 * (i / 64)). replace (512 * b + i) with (512 * b + 64 * (i / 64) + y) by lia. assert (Hy : 0 <= y < 64) by lia.
    assert (TW : ts t (512 * b + 64 * (i / 64)) (512 * b + 64 * (i / 64) + Z.min y 32) + ts t (512 * b + 64 * (i / 64) + 32) (512 * b + 64 * (i / 64) + 32 + Z.max 0 (y - 32)) = ts t (512 * b + 64 * (i / 64)) (512 * b + 64 * (i / 64) + y)).
    { destruct (Z_le_gt_dec y 32).
      - replace (Z.min y 32) with y by lia. replace (Z.max 0 (y - 32)) with 0 by lia. rewrite Z.add_0_r. unfold ts at 2. rewrite sumf_empty by lia. lia.
      - replace (Z.min y 32) with 32 by lia. replace (512 * b + 64 * (i / 64) + 32 + Z.max 0 (y - 32)) with (512 * b + 64 * (i / 64) + y) by lia. rewrite <- ts_split by lia. reflexivity. }
    rewrite TW. rewrite <- ts_split by lia. apply ts_small. lia.
Qed.

(** ** The border *)
Lemma find_border_gen32 t total : 0 <= total <= 2 ^ 26 -> forall n c, 0 <= c -> c + Z.of_nat n <= 2 ^ 26 -> c < Z.max 1 total -> ne t c <= total ->
  ne t (c + Z.of_nat n) <= total -> Z.max 1 total <= c + Z.of_nat n ->
  find_border32 (map (fun b => b2z (homob t b)) (zrange c n)) c (c - ne t c) (total - ne t c) = Z.max 1 total.
Proof.
  intros HT. induction n; intros c Hc Hn Hlt Hne Hend Hmax; [lia|].
  cbn [zrange map find_border32]. pose proof (ne_succ t c Hc) as NS. pose proof (ne_bound t c Hc) as NB.
  replace (c + Z.of_nat (S n)) with (c + 1 + Z.of_nat n) in * by lia. pose proof (ne_mono t (c + 1) (c + 1 + Z.of_nat n) ltac:(lia)) as NM.
  assert (E : (if b2z (homob t c) =? 0 then c - ne t c else u32 (c - ne t c + 1)) = c + 1 - ne t (c + 1) /\
    (if b2z (homob t c) =? 0 then u32 (total - ne t c - 1) else total - ne t c) = total - ne t (c + 1)).
  { destruct (homob t c); cbn [b2z]; [change (1 =? 0) with false|change (0 =? 0) with true]; cbv iota; split; try lia; rewrite wrap_small; lia. }
  destruct E as [-> ->]. destruct (c + 1 - ne t (c + 1) >=? total - ne t (c + 1)) eqn:G; [lia|]. apply IHn; lia.
Qed.

Lemma border32_ok t : zlen t <= 2 ^ 32 - 64 -> find_border32 (flags t) 0 0 (ne t (nblk t)) = if nblk t =? 0 then 0 else Z.max 1 (ne t (nblk t)).
Proof.
  intros Hl. pose proof (nblk32 t Hl) as N0. pose proof (zlen_nonneg t). assert (NB : nblk t <= 2 ^ 26) by (unfold nblk; lia).
  pose proof (ne_bound t (nblk t) ltac:(lia)). destruct (nblk t =? 0) eqn:E.
  - unfold flags. replace (nblk t) with 0 by lia. reflexivity.
  - assert (E0 : ne t 0 = 0) by (unfold ne; apply sumf_empty; lia).
    pose proof (find_border_gen32 t (ne t (nblk t)) ltac:(lia) (Z.to_nat (nblk t)) 0) as G. rewrite E0, !Z.sub_0_r, Z.add_0_l, Z2Nat.id in G by lia.
    apply G; lia.
Qed.

Lemma copy_block32_ok dst lc src off : 0 <= lc -> lc + 16 <= zlen dst -> 0 <= off -> off + 16 <= zlen src ->
  exists d, copy_block32 dst lc src off = Ok d /\ zlen d = zlen dst /\
    forall k, 0 <= k -> zn 0 d k = if (lc <=? k) && (k <? lc + 16) then zn 0 src (off + (k - lc)) else zn 0 dst k.
Proof.
  intros Hlc Hd Ho Hs. unfold copy_block32.
  destruct (foldM_inv (fun dst j => let* w := geti src (off + j) in seti dst (lc + j) w) (fun j d => zlen d = zlen dst /\
    forall k, 0 <= k -> zn 0 d k = if (lc <=? k) && (k <? lc + j) then zn 0 src (off + (k - lc)) else zn 0 dst k) 16 0 dst) as (d & E & L & P).
  - split; [reflexivity|]. intros k Hk. replace ((lc <=? k) && (k <? lc + 0)) with false by lia. reflexivity.
  - intros j d Hj (L & P). rewrite geti_ok by lia. cbn [bind]. rewrite seti_ok by lia. eexists. split; [reflexivity|]. rewrite zlen_upd. split; [exact L|].
    intros k Hk. rewrite zn_upd by lia. rewrite P by lia. destruct (k =? lc + j) eqn:E.
    + replace ((lc <=? k) && (k <? lc + (j + 1))) with true by lia. f_equal. lia.
    + replace ((lc <=? k) && (k <? lc + (j + 1))) with ((lc <=? k) && (k <? lc + j)) by lia. reflexivity.
  - exists d. auto.
Qed.

(** ** The left part *)
(** Block [c] right of the border [K] is kept in the place of the uniform block [sl] left of it. *)
Definition in_slot (t : list Z) (K c sl : Z) : Prop := homob t sl = true /\ sl - ne t sl = ne t c - ne t K.
Definition leftP32 (t f : list Z) (K b : Z) (st : list Z * Z * list Z) : Prop :=
  let '(bits, rc, ranks) := st in
  zlen bits = zlen f /\ zlen ranks = 2 * nblk t + 1 /\ K <= rc <= nblk t /\ ne t rc - ne t K = b - ne t b /\
  (forall c, 0 <= c <= nblk t -> zn 0 ranks (2 * c) = u32 (ts t 0 (512 * c))) /\
  (forall c, 0 <= c < K \/ rc <= c < nblk t -> zn 0 ranks (2 * c + 1) = 16 * ne t c) /\
  (forall c, K <= c < rc -> homob t c = false -> exists sl, zn 0 ranks (2 * c + 1) = 17 * sl + 1 /\ 0 <= sl < b /\ in_slot t K c sl /\
      forall k, 0 <= k < 16 -> zn 0 bits (17 * sl + 1 + k) = gword 4 t (16 * c + k)) /\
  (forall c, 0 <= c < b -> zn 0 bits (17 * c) = u32 (ts t 0 (512 * c))) /\
  (forall c k, 0 <= c < b -> homob t c = false -> 0 <= k < 16 -> zn 0 bits (17 * c + 1 + k) = gword 4 t (16 * c + k)) /\
  (forall k, 17 * b <= k -> zn 0 bits k = zn 0 f k).

Lemma left_step32 t temp f b st : let K := ne t (nblk t) in text_ok t -> zlen t <= 2 ^ 32 - 64 -> 17 * K <= zlen f -> zlen temp = 16 * K ->
  (forall c k, 0 <= c < nblk t -> homob t c = false -> 0 <= k < 16 -> zn 0 temp (16 * ne t c + k) = gword 4 t (16 * c + k)) ->
  0 <= b < K -> leftP32 t f K b st -> exists st', left_block32 (flags t) temp st b = Ok st' /\ leftP32 t f K (b + 1) st'.
Proof.
  intros K H Hl Hf Ht HT Hb. destruct st as [[bits rc] ranks]. intros (L1 & L2 & Hrc & Hne & R1 & R2 & R3 & B1 & B2 & B3).
  pose proof (nblk32 t Hl) as N0. pose proof (ne_bound t (nblk t) ltac:(lia)) as NB. fold K in NB. set (n := nblk t) in *.
  assert (En : nblk t = n) by reflexivity. assert (EK : ne t n = K) by reflexivity. clearbody K. clearbody n.
  unfold left_block32. rewrite geti_ok by lia. cbn [bind]. rewrite seti_ok by lia. cbn [bind]. rewrite geti_ok by (rewrite zlen_flags; lia). cbn [bind].
  rewrite zn_flags by lia. rewrite R1 by lia. pose proof (ne_succ t b ltac:(lia)) as NS.
  set (bits0 := upd bits (17 * b) (u32 (ts t 0 (512 * b)))). assert (L0 : zlen bits0 = zlen f) by (unfold bits0; rewrite zlen_upd; exact L1).
  assert (Z0 : forall k, 0 <= k -> zn 0 bits0 k = if k =? 17 * b then u32 (ts t 0 (512 * b)) else zn 0 bits k) by (intros; unfold bits0; apply zn_upd; lia).
  (* after any copy of a block into the slot *)
  assert (G : forall d src, zlen d = zlen f -> (forall k, 0 <= k -> zn 0 d k = if (17 * b + 1 <=? k) && (k <? 17 * b + 1 + 16) then zn 0 src (k - (17 * b + 1)) else zn 0 bits0 k) ->
     (forall k, 0 <= k < 17 * b -> zn 0 d k = zn 0 bits k) /\ zn 0 d (17 * b) = u32 (ts t 0 (512 * b)) /\
     (forall k, 0 <= k < 16 -> zn 0 d (17 * b + 1 + k) = zn 0 src k) /\ (forall k, 17 * (b + 1) <= k -> zn 0 d k = zn 0 f k)).
  { intros d src Ld Q. split; [|split; [|split]].
    - intros k Hk. rewrite Q by lia. replace ((17 * b + 1 <=? k) && (k <? 17 * b + 1 + 16)) with false by lia. rewrite Z0 by lia. replace (k =? 17 * b) with false by lia. reflexivity.
    - rewrite Q by lia. replace ((17 * b + 1 <=? 17 * b) && (17 * b <? 17 * b + 1 + 16)) with false by lia. rewrite Z0 by lia. rewrite Z.eqb_refl. reflexivity.
    - intros k Hk. rewrite Q by lia. replace ((17 * b + 1 <=? 17 * b + 1 + k) && (17 * b + 1 + k <? 17 * b + 1 + 16)) with true by lia. f_equal. lia.
    - intros k Hk. rewrite Q by lia. replace ((17 * b + 1 <=? k) && (k <? 17 * b + 1 + 16)) with false by lia. rewrite Z0 by lia. replace (k =? 17 * b) with false by lia. apply B3. lia. }
  destruct (homob t b) eqn:Eh; cbn [b2z].
  - change (1 =? 0) with false. cbv iota.
    assert (NK : ne t (b + 1) <= ne t K) by (apply ne_mono; zl).
    assert (KB : K - ne t K >= b + 1 - ne t (b + 1)).
    { assert (X : ne t K <= ne t (b + 1) + (K - (b + 1))).
      { apply ne_lip. zl. }
      zl. }
    destruct (find_right_ok t (S (length (flags t))) rc) as (c & -> & C1 & C2 & C3).
    { zl. } { pose proof (zlen_flags t) as LF. unfold zlen in LF. zl. } { rewrite En. zl. }
    rewrite En in C1. cbn [bind]. rewrite geti_ok by zl. cbn [bind]. rewrite seti_ok by zl. cbn [bind]. rewrite R2 by zl.
    pose proof (ne_lt t c n ltac:(zl) C2) as CL. rewrite EK in CL. pose proof (ne_bound t c ltac:(zl)).
    destruct (copy_block32_ok bits0 (17 * b + 1) temp (16 * ne t c)) as (d & -> & LD & D); try zl. cbn [bind].
    eexists. split; [reflexivity|]. unfold leftP32. rewrite En.
    destruct (G d (map (fun k => gword 4 t (16 * c + k)) (zrange 0 16)) ltac:(zl)) as (G1 & G2 & G3 & G4).
    { intros k Hk. rewrite D by zl. destruct ((17 * b + 1 <=? k) && (k <? 17 * b + 1 + 16)) eqn:E; [|reflexivity].
      rewrite zn_map_zrange by zl. apply HT; auto; zl. }
    assert (G3' : forall k, 0 <= k < 16 -> zn 0 d (17 * b + 1 + k) = gword 4 t (16 * c + k)).
    { intros k Hk. rewrite G3 by zl. rewrite zn_map_zrange by zl. reflexivity. }
    split; [rewrite LD; exact L0|]. split; [rewrite zlen_upd; exact L2|]. split; [zl|]. split.
    { pose proof (ne_succ t c ltac:(zl)) as NC. rewrite C2 in NC. clear - NC Hne NS C3 C2. zl. }
    assert (ZR : forall k, 0 <= k -> zn 0 (upd ranks (2 * c + 1) (17 * b + 1)) k = if k =? 2 * c + 1 then 17 * b + 1 else zn 0 ranks k) by (intros; apply zn_upd; zl).
    split. { intros c' Hc'. rewrite ZR by zl. replace (2 * c' =? 2 * c + 1) with false by zl. apply R1. zl. }
    split. { intros c' Hc'. rewrite ZR by zl. replace (2 * c' + 1 =? 2 * c + 1) with false by zl. apply R2. zl. }
    split.
    { intros c' Hc' Hh. rewrite ZR by zl. destruct (Z.eq_dec c' c) as [->|].
      - rewrite Z.eqb_refl. exists b. split; [zl|]. split; [zl|]. split; [split; [exact Eh|zl]|]. exact G3'.
      - replace (2 * c' + 1 =? 2 * c + 1) with false by zl. destruct (Z_lt_le_dec c' rc).
        + destruct (R3 c' ltac:(zl) Hh) as (sl & R30 & R31 & RS & R32). exists sl. split; [exact R30|]. split; [zl|]. split; [exact RS|]. intros k Hk. rewrite G1 by zl. apply R32. zl.
        + pose proof (ne_lt t c' c ltac:(zl) Hh). pose proof (ne_mono t rc c' ltac:(zl)). zl. }
    split. { intros c' Hc'. destruct (Z.eq_dec c' b) as [->|]; [exact G2|]. rewrite G1 by zl. apply B1. zl. }
    split. { intros c' k Hc' Hh Hk. destruct (Z.eq_dec c' b) as [->|]; [congruence|]. rewrite G1 by zl. apply B2; auto; zl. }
    exact G4.
  - change (0 =? 0) with true. cbv iota. rewrite geti_ok by zl. cbn [bind]. rewrite R2 by zl.
    pose proof (ne_lt t b n ltac:(zl) Eh) as CL. rewrite EK in CL. pose proof (ne_bound t b ltac:(zl)).
    destruct (copy_block32_ok bits0 (17 * b + 1) temp (16 * ne t b)) as (d & -> & LD & D); try zl. cbn [bind].
    eexists. split; [reflexivity|]. unfold leftP32. rewrite En.
    destruct (G d (map (fun k => gword 4 t (16 * b + k)) (zrange 0 16)) ltac:(zl)) as (G1 & G2 & G3 & G4).
    { intros k Hk. rewrite D by zl. destruct ((17 * b + 1 <=? k) && (k <? 17 * b + 1 + 16)) eqn:E; [|reflexivity].
      rewrite zn_map_zrange by zl. apply HT; auto; zl. }
    split; [zl|]. split; [zl|]. split; [zl|]. split; [zl|]. split; [exact R1|]. split; [exact R2|]. split.
    { intros c' Hc' Hh. destruct (R3 c' ltac:(zl) Hh) as (sl & R30 & R31 & RS & R32). exists sl. split; [exact R30|]. split; [zl|]. split; [exact RS|]. intros k Hk. rewrite G1 by zl. apply R32. zl. }
    split. { intros c' Hc'. destruct (Z.eq_dec c' b) as [->|]; [exact G2|]. rewrite G1 by zl. apply B1. zl. }
    split. { intros c' k Hc' Hh Hk. destruct (Z.eq_dec c' b) as [->|]; [rewrite G3, zn_map_zrange by zl; reflexivity|]. rewrite G1 by zl. apply B2; auto; zl. }
    exact G4.
Qed.

(** ** The structure *)
Definition cfP32 (m : memory) (t : list Z) (r : rank_cf) : Prop :=
  let n := nblk t in let K := ne t n in
  cf_bits_len r = 15 * K + 2 * n + 1 /\ zlen (cf_bits r) = 15 * K + 2 * n + 1 + slack32 (m_addr_b m) /\ cf_text_len r = zlen t /\ cf_border r = K /\ cf_block_border r = 17 * K /\
  (forall c, 0 <= c < K -> zn 0 (cf_bits r) (17 * c) = u32 (ts t 0 (512 * c))) /\
  (forall c k, 0 <= c < K -> homob t c = false -> 0 <= k < 16 -> zn 0 (cf_bits r) (17 * c + 1 + k) = gword 4 t (16 * c + k)) /\
  (forall c, K <= c <= n -> zn 0 (cf_bits r) (17 * K + 2 * (c - K)) = u32 (ts t 0 (512 * c))) /\
  (forall c, K <= c < n -> homob t c = false -> exists sl, zn 0 (cf_bits r) (17 * K + 2 * (c - K) + 1) = 17 * sl + 1 /\ 0 <= sl < K /\ in_slot t K c sl /\
      forall k, 0 <= k < 16 -> zn 0 (cf_bits r) (17 * sl + 1 + k) = gword 4 t (16 * c + k)) /\
  (forall k, 15 * K + 2 * n + 1 <= k < 15 * K + 2 * n + 1 + slack32 (m_addr_b m) -> zn 0 (cf_bits r) k = u32 (m_junk_b m k)).

Lemma build_cf_gen32 m t : addresses_ok m -> text_ok t -> zlen t <= 2 ^ 32 - 64 ->
  (nblk t = 0 \/ 1 <= ne t (nblk t) -> exists r, build_cf32 m t = Ok r /\ cfP32 m t r) /\
  (1 <= nblk t -> ne t (nblk t) = 0 -> build_cf32 m t = Ub UB_bounds).
Proof.
  intros (A1 & A2 & A3 & A4) H Hl. unfold build_cf32. rewrite empty_blocks32_ok by (auto; lia). cbn [bind]. rewrite not_empty_ok, block_count32_ok by lia.
  pose proof (nblk32 t Hl) as N0. pose proof (ne_bound t (nblk t) ltac:(lia)) as NB. pose proof (slack32_ok _ A2) as S1. pose proof (slack32_ok _ A4) as S2.
  pose proof (zlen_nonneg t) as L00. assert (NN : nblk t <= 2 ^ 26) by (unfold nblk; lia).
  rewrite border32_ok by lia. set (n := nblk t) in *. set (K := ne t n) in *.
  assert (En : nblk t = n) by reflexivity. assert (EK : ne t n = K) by reflexivity. clearbody K. clearbody n.
  rewrite (wrap_small 32 (2 * n + 1)), (wrap_small 32 (K * 16)) by lia.
  destruct (scan_ok32 4 t (fresh32 (m_junk_r m) (2 * n + 1)) (fresh32 (m_junk_t m) (K * 16)) (or_intror eq_refl) H Hl) as (r1 & temp & -> & L1 & L2 & P1 & P2 & P3 & P4 & P5).
  { rewrite zlen_fresh32 by lia. rewrite ?En. lia. } { rewrite zlen_fresh32 by lia. rewrite ?En. rewrite ?EK. change (64 / 4) with 16. lia. } { rewrite zlen_fresh32; lia. } change (64 / 4) with 16 in *.
  rewrite zlen_fresh32 in L1, L2 by lia. cbn [bind]. rewrite En in P1, P2, P3, P4, P5. rewrite EK in P5. split.
  - intros C. replace (if n =? 0 then 0 else Z.max 1 K) with K by (destruct (n =? 0) eqn:E; zl).
    replace (u32 ((K - 1) * 17 + (n - (K - 1)) * 2 + 16)) with (15 * K + 2 * n + 1) by (rewrite wrap_small; zl).
    set (f := fresh_aligned32 _ _ _). assert (LF : zlen f = 15 * K + 2 * n + 1 + slack32 (m_addr_b m)) by (unfold f; rewrite zlen_aligned32; zl).
    destruct (foldM_inv (left_block32 (flags t) temp) (leftP32 t f K) (Z.to_nat K) 0 (f, K, r1)) as ([[bits rc] ranks] & -> & P).
    { unfold leftP32. rewrite ?En. assert (E0 : ne t 0 = 0) by (unfold ne; apply sumf_empty; zl). split; [reflexivity|]. split; [zl|]. split; [zl|]. split; [zl|]. split; [exact P1|].
      split; [intros; apply P2; zl|]. split; [intros; zl|]. split; [intros; zl|]. split; [intros; zl|]. auto. }
    { intros k s Hk HP. pose proof (left_step32 t temp f k s) as LS. cbv zeta in LS. rewrite En, EK in LS. apply LS; auto; zl. }
    rewrite Z.add_0_l, Z2Nat.id in P by zl. destruct P as (Q1 & Q2 & Q3 & Q4 & Q5 & Q6 & Q7 & Q8 & Q9 & Q10). rewrite En in Q2, Q3, Q5, Q6. cbn [bind].
    destruct (foldM_inv (fun bits i => let* r := geti ranks i in seti bits (17 * K + (i - 2 * K)) r) (fun i bits' => zlen bits' = zlen f /\
      (forall k, 0 <= k -> zn 0 bits' k = if (17 * K <=? k) && (k <? 17 * K + (i - 2 * K)) then zn 0 ranks (2 * K + (k - 17 * K)) else zn 0 bits k)) (Z.to_nat (2 * n + 1 - 2 * K)) (2 * K) bits) as (bits' & -> & LB & PB).
    { split; [exact Q1|]. intros k Hk. replace ((17 * K <=? k) && (k <? 17 * K + (2 * K - 2 * K))) with false by zl. reflexivity. }
    { intros i bs Hi (LB & PB). rewrite geti_ok by zl. cbn [bind]. rewrite seti_ok by zl. eexists. split; [reflexivity|]. rewrite zlen_upd. split; [exact LB|].
      intros k Hk. rewrite zn_upd by zl. rewrite PB by zl. destruct (k =? 17 * K + (i - 2 * K)) eqn:E.
      - replace ((17 * K <=? k) && (k <? 17 * K + (i + 1 - 2 * K))) with true by zl. f_equal. zl.
      - replace ((17 * K <=? k) && (k <? 17 * K + (i + 1 - 2 * K))) with ((17 * K <=? k) && (k <? 17 * K + (i - 2 * K))) by zl. reflexivity. }
    replace (2 * K + Z.of_nat (Z.to_nat (2 * n + 1 - 2 * K)) - 2 * K) with (2 * n + 1 - 2 * K) in PB by zl. cbn [bind].
    eexists. split; [reflexivity|]. unfold cfP32. rewrite ?En. rewrite ?EK. cbn [cf_bits cf_bits_len cf_text_len cf_border cf_block_border].
    assert (LO : forall k, 0 <= k < 17 * K -> zn 0 bits' k = zn 0 bits k).
    { intros k Hk. rewrite PB by zl. replace ((17 * K <=? k) && (k <? 17 * K + (2 * n + 1 - 2 * K))) with false by zl. reflexivity. }
    assert (HI : forall k, 2 * K <= k <= 2 * n -> zn 0 bits' (17 * K + (k - 2 * K)) = zn 0 ranks k).
    { intros k Hk. rewrite PB by zl. replace ((17 * K <=? 17 * K + (k - 2 * K)) && (17 * K + (k - 2 * K) <? 17 * K + (2 * n + 1 - 2 * K))) with true by zl. f_equal. zl. }
    split; [reflexivity|]. split; [zl|]. split; [reflexivity|]. split; [reflexivity|]. split; [rewrite wrap_small; zl|].
    split; [intros c Hc; rewrite LO by zl; apply Q8; zl|]. split; [intros c k Hc Hh Hk; rewrite LO by zl; apply Q9; auto|].
    split. { intros c Hc. replace (17 * K + 2 * (c - K)) with (17 * K + (2 * c - 2 * K)) by zl. rewrite HI by zl. apply Q5. zl. }
    split.
    { intros c Hc Hh. replace (17 * K + 2 * (c - K) + 1) with (17 * K + (2 * c + 1 - 2 * K)) by zl. rewrite HI by zl.
      assert (Hrc : c < rc). { destruct (Z_lt_le_dec c rc); auto. pose proof (ne_lt t c n ltac:(zl) Hh). rewrite EK in H0. pose proof (ne_mono t rc c ltac:(zl)). zl. }
      destruct (Q7 c ltac:(zl) Hh) as (sl & Q70 & Q71 & QS & Q72). exists sl. split; [exact Q70|]. split; [exact Q71|]. split; [exact QS|]. intros k Hk. rewrite LO by zl. apply Q72. exact Hk. }
    intros k Hk. rewrite PB by zl. replace ((17 * K <=? k) && (k <? 17 * K + (2 * n + 1 - 2 * K))) with false by zl. rewrite Q10 by zl. unfold f. apply zn_aligned32; zl.
  - intros Hn HK. replace (if n =? 0 then 0 else Z.max 1 K) with 1 by (destruct (n =? 0) eqn:E; zl).
    change (Z.to_nat 1) with 1%nat. cbn [zrange foldM]. set (f := fresh_aligned32 _ _ _).
    assert (LF : 1 <= zlen f) by (unfold f; rewrite zlen_aligned32; rewrite ?wrap_small; zl).
    unfold left_block32. rewrite geti_ok by zl. cbn [bind]. rewrite seti_ok by zl. cbn [bind]. rewrite geti_ok by (rewrite zlen_flags; rewrite ?En; zl). cbn [bind].
    rewrite zn_flags by (rewrite ?En; zl). pose proof (ne_succ t 0 ltac:(zl)) as NS. pose proof (ne_mono t (0 + 1) n ltac:(zl)) as NM. rewrite EK in NM.
    pose proof (ne_bound t 0 ltac:(zl)). pose proof (ne_bound t (0 + 1) ltac:(zl)).
    destruct (homob t 0); [|zl]. cbn [b2z]. change (1 =? 0) with false. cbv iota.
    rewrite find_right_off; [reflexivity|rewrite ?En; zl| |].
    + pose proof (zlen_flags t) as LFF. unfold zlen in LFF.  zl.
    + rewrite ?En. rewrite ?EK. change 1 with (0 + 1). zl.
Qed.

(** The block has zeros and ones, so a query reads its bits. *)
Definition mixed (t : list Z) (b : Z) : bool := negb ((ts t (512 * b) (512 * (b + 1)) =? 0) || (ts t (512 * b) (512 * (b + 1)) =? 512)).
Lemma mixed_homob t b : mixed t b = true -> homob t b = false.
Proof. unfold mixed, homob. intros H. lia. Qed.

Lemma rank_cf32_in al m t r i : addresses_ok m -> text_ok t -> zlen t <= 2 ^ 32 - 64 -> cfP32 m t r -> 0 <= i < 512 * nblk t -> i < 2 ^ 32 ->
  exists sl, 0 <= sl < nblk t /\ (if i / 512 <? ne t (nblk t) then sl = i / 512 else mixed t (i / 512) = true -> in_slot t (ne t (nblk t)) (i / 512) sl /\ sl < ne t (nblk t)) /\
    rank_of_cf32 al r i = if al && mixed t (i / 512) && Z.even sl then Ub UB_align else Ok (ts t 0 i).
Proof.
  intros (A1 & A2 & A3 & A4) H Hl (_ & L & _ & EB & EBB & Q1 & Q2 & Q3 & Q4 & _) Hi Hi2. unfold rank_of_cf32. rewrite EB, EBB.
  pose proof (slack32_ok _ A4) as S2. pose proof (nblk32 t Hl) as N0. set (n := nblk t) in *. set (K := ne t n) in *. set (b := i / 512). assert (Hb : 0 <= b < n) by lia.
  pose proof (ne_bound t n ltac:(lia)) as NB. fold K in NB.
  assert (PE : forall sl, ((17 * sl + 1) mod 2 =? 1) = Z.even sl).
  { intros sl. rewrite Zmod_odd, Z.odd_add, Z.odd_mul. change (Z.odd 17) with true. change (Z.odd 1) with true. rewrite <- (Z.negb_odd sl). destruct (Z.odd sl); reflexivity. }
  assert (AN : forall k sl, (mixed t b = true -> k = if al && Z.even sl then Ub UB_align else Ok (ts t 0 (512 * b + i mod 512))) ->
    answer32 (ts t 0 (512 * b)) (u32 (ts t 0 (512 * (b + 1)))) (i mod 512) k = if al && mixed t b && Z.even sl then Ub UB_align else Ok (ts t 0 i)).
  { intros k sl Hk. replace (ts t 0 i) with (ts t 0 (512 * b + i mod 512)) by (f_equal; lia). destruct (mixed t b) eqn:Em.
    - rewrite Hk by reflexivity. rewrite andb_true_r. destruct (al && Z.even sl); [|apply answer32_ok; auto; lia].
      unfold answer32. rewrite wrap_sub_l. replace (u32 (ts t 0 (512 * (b + 1)) - ts t 0 (512 * b))) with (ts t (512 * b) (512 * (b + 1))).
      + unfold mixed in Em. pose proof (ts_bound t (512 * b) (512 * (b + 1)) ltac:(lia)) as TB.
        change 511 with (Z.ones 9). rewrite Z.land_ones by lia. change (2 ^ 9) with 512. set (d := ts t (512 * b) (512 * (b + 1))) in *. clearbody d.
        assert (TD : 0 <= d <= 512) by lia. clear - TD Em. destruct (d mod 512 =? 0) eqn:EZ; [lia|reflexivity].
      + rewrite (ts_split t 0 (512 * b) (512 * (b + 1))) by lia. rewrite Z.add_simpl_l. rewrite wrap_small; [reflexivity|]. pose proof (ts_bound t (512 * b) (512 * (b + 1)) ltac:(lia)). lia.
    - rewrite andb_false_r. cbn [andb]. unfold answer32. rewrite wrap_sub_l. pose proof (ts_bound t (512 * b) (512 * (b + 1)) ltac:(lia)) as TB.
      pose proof (answer32_ok t b (i mod 512) (Ok (ts t 0 (512 * b + i mod 512))) ltac:(lia) ltac:(lia) ltac:(lia) (fun _ => eq_refl)) as AO. unfold answer32 in AO. rewrite wrap_sub_l in AO.
      replace (u32 (ts t 0 (512 * (b + 1)) - ts t 0 (512 * b))) with (ts t (512 * b) (512 * (b + 1))) in * by (rewrite (ts_split t 0 (512 * b) (512 * (b + 1))) by lia; rewrite Z.add_simpl_l; rewrite wrap_small; [reflexivity|lia]).
      unfold mixed in Em. set (d := ts t (512 * b) (512 * (b + 1))) in *. assert (ED : d = 0 \/ d = 512) by (clearbody d; clear - Em; lia).
      replace (Z.land d 511 =? 0) with true in * by (destruct ED as [-> | ->]; reflexivity). exact AO. }
  destruct (b <? K) eqn:E.
  - exists b. split; [lia|]. split; [reflexivity|]. rewrite (wrap_small 32 (b * 16 + b)) by lia. replace (b * 16 + b) with (17 * b) by lia. rewrite geti_ok by lia. cbn [bind]. rewrite geti_ok by lia. cbn [bind]. rewrite Q1 by lia.
    assert (EN : zn 0 (cf_bits r) (17 * b + 17) = u32 (ts t 0 (512 * (b + 1)))).
    { destruct (Z.eq_dec (b + 1) K) as [E1|E1].
      - replace (17 * b + 17) with (17 * K + 2 * (K - K)) by lia. rewrite Q3 by lia. rewrite E1. reflexivity.
      - replace (17 * b + 17) with (17 * (b + 1)) by lia. apply Q1. lia. }
    rewrite EN. rewrite (ts_small t (512 * b)) by lia. apply (AN (count_pairs al (cf_bits r) (17 * b + 1) (i mod 512) (ts t 0 (512 * b))) b). intros Em. pose proof (mixed_homob _ _ Em) as Eh.
    rewrite (count_pairs_ok al t); auto; try lia; [rewrite PE; reflexivity|]. intros k Hk. apply Q2; auto; lia.
  - assert (SE : exists sl, 0 <= sl < n /\ (mixed t b = true -> (in_slot t K b sl /\ sl < K) /\ zn 0 (cf_bits r) (17 * K + 2 * (b - K) + 1) = 17 * sl + 1 /\ 0 <= sl < K /\
        forall k, 0 <= k < 16 -> zn 0 (cf_bits r) (17 * sl + 1 + k) = gword 4 t (16 * b + k))).
    { destruct (mixed t b) eqn:Em.
      2:{ exists 0. split; [lia|]. discriminate. }
      pose proof (mixed_homob _ _ Em) as Eh.
      destruct (Q4 b ltac:(lia) Eh) as (sl & Q40 & Q41 & Q42 & Q43). exists sl. split; [lia|]. intros _. split; [split; [exact Q42|lia]|]. auto. }
    destruct SE as (sl & SL & SX). exists sl. split; [exact SL|]. split; [intros Eh; apply SX; exact Eh|].
    rewrite (wrap_small 32 (17 * K + 2 * (b - K))) by lia. rewrite (wrap_small 32 (17 * K + 2 * (b - K) + 1)), (wrap_small 32 (17 * K + 2 * (b - K) + 2)) by lia.
    rewrite geti_ok by lia. cbn [bind]. rewrite geti_ok by lia. cbn [bind]. rewrite Q3 by lia.
    replace (17 * K + 2 * (b - K) + 2) with (17 * K + 2 * (b + 1 - K)) by lia. rewrite Q3 by lia. rewrite (ts_small t (512 * b)) by lia.
    apply (AN (let* p := geti (cf_bits r) (17 * K + 2 * (b - K) + 1) in count_pairs al (cf_bits r) p (i mod 512) (ts t 0 (512 * b))) sl).
    intros Eh. destruct (SX Eh) as (_ & SX1 & SX2 & SX3). rewrite geti_ok by lia. cbn [bind]. rewrite SX1.
    rewrite (count_pairs_ok al t); auto; try lia; rewrite PE; reflexivity.
Qed.

Lemma rank_cf32_end al m t r : addresses_ok m -> text_ok t -> zlen t <= 2 ^ 32 - 64 -> cfP32 m t r -> 512 * nblk t < 2 ^ 32 ->
  let e := 15 * ne t (nblk t) + 2 * nblk t + 1 in let p := u32 (m_junk_b m e) in
  rank_of_cf32 al r (512 * nblk t) =
    if Z.land (u32 (m_junk_b m (e + 1) - ts t 0 (512 * nblk t))) 511 =? 0 then Ok (ts t 0 (512 * nblk t))
    else if al && (p mod 2 =? 1) then Ub UB_align
    else if p + 1 <? e + slack32 (m_addr_b m) then Ok (ts t 0 (512 * nblk t)) else Ub UB_bounds.
Proof.
  intros (A1 & A2 & A3 & A4) H Hl (_ & L & _ & EB & EBB & Q1 & Q2 & Q3 & Q4 & Q5) Hs. cbv zeta. unfold rank_of_cf32. rewrite EB, EBB.
  pose proof (slack32_ok _ A4) as S2. pose proof (nblk32 t Hl) as N0. set (n := nblk t) in *. set (K := ne t n) in *.
  pose proof (ne_bound t n ltac:(lia)) as NB. fold K in NB.
  pose proof (ts_bound t 0 (512 * n) ltac:(lia)) as TB.
  replace (512 * n / 512) with n by lia. replace ((512 * n) mod 512) with 0 by lia. replace (n <? K) with false by lia.
  rewrite (wrap_small 32 (17 * K + 2 * (n - K))) by lia. rewrite (wrap_small 32 (17 * K + 2 * (n - K) + 1)), (wrap_small 32 (17 * K + 2 * (n - K) + 2)) by lia.
  rewrite geti_ok by lia. cbn [bind]. rewrite geti_ok by lia. cbn [bind]. rewrite Q3 by lia. rewrite Q5 by lia.
  replace (17 * K + 2 * (n - K) + 2) with (15 * K + 2 * n + 1 + 1) by lia. rewrite ts_small by lia. rewrite wrap_sub_l.
  destruct (Z.land (u32 (m_junk_b m (15 * K + 2 * n + 1 + 1) - ts t 0 (512 * n))) 511 =? 0) eqn:E.
  - f_equal. rewrite Z.mul_0_l. change (u32 0) with 0. rewrite Z.add_0_r. apply ts_small. lia.
  - rewrite geti_ok by lia. cbn [bind]. rewrite Q5 by lia. replace (17 * K + 2 * (n - K) + 1) with (15 * K + 2 * n + 1) by lia.
    set (p := u32 (m_junk_b m (15 * K + 2 * n + 1))). assert (PB : 0 <= p) by (apply wrap_bound; lia). clearbody p.
    unfold count_pairs. change (0 / 64) with 0. cbn [Z.to_nat zrange foldM bind]. rewrite Z.add_0_r. change (0 - 64 * 0) with 0. unfold pair_at.
    destruct (al && (p mod 2 =? 1)); [reflexivity|]. unfold geti at 1. rewrite L.
    destruct ((0 <=? p) && (p <? 15 * K + 2 * n + 1 + slack32 (m_addr_b m))) eqn:E1.
    + cbn [bind]. unfold geti at 1. rewrite L. replace ((0 <=? p + 1) && (p + 1 <? 15 * K + 2 * n + 1 + slack32 (m_addr_b m))) with (p + 1 <? 15 * K + 2 * n + 1 + slack32 (m_addr_b m)) by lia.
      destruct (p + 1 <? 15 * K + 2 * n + 1 + slack32 (m_addr_b m)); [|reflexivity].
      cbn [bind]. change (geti masks_cf32 0) with (@Ok Z 0). cbn [bind]. rewrite Z.land_0_r. change (popcount 0) with 0. rewrite Z.add_0_r. f_equal. apply ts_small. lia.
    + cbn [bind]. replace (p + 1 <? 15 * K + 2 * n + 1 + slack32 (m_addr_b m)) with false by lia. reflexivity.
Qed.

(** Texts longer than 2^32 - 64 bytes give what the empty text gives. *)
Definition cf_with_len (n : Z) (r : rank_cf) : rank_cf :=
  {| cf_bits := cf_bits r; cf_bits_len := cf_bits_len r; cf_text_len := n; cf_border := cf_border r; cf_block_border := cf_block_border r |}.
Lemma cf32_as_empty m t : 2 ^ 32 - 64 < zlen t < 2 ^ 32 -> build_cf32 m t = let* r := build_cf32 m [] in Ok (cf_with_len (zlen t) r).
Proof.
  intros Hl. unfold build_cf32, empty_blocks32, scan32. rewrite block_count_top by lia. change (block_count32 (zlen [])) with 0. change (Z.to_nat 0) with O. cbn [zrange mapM bind].
  change (not_empty []) with 0. cbn [find_border32]. change (Z.to_nat 0) with O. cbn [zrange foldM bind].
  destruct (seti _ _ _); [|reflexivity|reflexivity]. cbn [bind]. destruct (foldM _ _ _); reflexivity.
Qed.
