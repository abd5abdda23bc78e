(** RankMPE64: counting inside a stored block. *)
From Coq Require Import ZifyBool.
From Verif Require Import Base BaseFacts Words WordFacts BlockFacts NodeFacts Trees TreeBuild Mem MemFacts Spec BitmapFacts KernelFacts SpecPoppy PoppyFacts PoppyFacts2 SpecText MrRank MrRankFacts MrRankFacts2 MrRankFacts3 MrMpe SpecMpe MrMpeFacts MrMpeFacts2.
Ltac Zify.zify_post_hook ::= Z.div_mod_to_equations.

(** ** Bits of a word read from bytes *)
Lemma rd_bit n : forall m off k, byteful m -> 0 <= off -> 0 <= k < 8 * Z.of_nat n -> Z.testbit (rd n m off) k = Z.testbit (zn 0 m (off + k / 8)) (k mod 8).
Proof.
  induction n; intros m off k Hm Ho Hk; [lia|]. cbn [rd]. specialize (Hm off Ho) as Hb. destruct (Z_lt_le_dec k 8) as [K|K].
  - rewrite <- (Z.mod_pow2_bits_low (zn 0 m off + 256 * rd n m (off + 1)) 8 k) by lia. change (2 ^ 8) with 256.
    replace ((zn 0 m off + 256 * rd n m (off + 1)) mod 256) with (zn 0 m off) by lia. f_equal; [f_equal; lia|lia].
  - replace (Z.testbit (zn 0 m off + 256 * rd n m (off + 1)) k) with (Z.testbit ((zn 0 m off + 256 * rd n m (off + 1)) / 2 ^ 8) (k - 8)).
    2:{ rewrite Z.div_pow2_bits by lia. f_equal. lia. }
    change (2 ^ 8) with 256. replace ((zn 0 m off + 256 * rd n m (off + 1)) / 256) with (rd n m (off + 1)) by lia. rewrite IHn by (auto; lia).
    f_equal; [f_equal; lia|lia].
Qed.

Lemma sumf_bytes (g : Z -> Z) n : 0 <= n -> sumf (fun x => g (8 * (x / 8) + 7 - x mod 8)) 0 (8 * n) = sumf g 0 (8 * n).
Proof.
  intros Hn. pattern n. apply natlike_ind; [reflexivity| |exact Hn]. clear n Hn. intros n Hn IH.
  rewrite (sumf_split _ 0 (8 * n) (8 * Z.succ n)) by lia. rewrite (sumf_split g 0 (8 * n) (8 * Z.succ n)) by lia. rewrite IH. f_equal.
  transitivity (sumf (fun x => g (8 * ((x + 8 * n) / 8) + 7 - (x + 8 * n) mod 8)) 0 8).
  { rewrite (sumf_shift (fun x => g (8 * (x / 8) + 7 - x mod 8)) 0 8 (8 * n)). f_equal; lia. }
  transitivity (sumf (fun x => g (x + 8 * n)) 0 8).
  2:{ rewrite (sumf_shift g 0 8 (8 * n)). f_equal; lia. }
  rewrite <- (sumf_rev (fun x => g (x + 8 * n)) 8) by lia. apply sumf_ext. intros x Hx. f_equal. lia.
Qed.

Lemma masks_le_bits : forallb (fun k => forallb (fun j => Bool.eqb (Z.testbit (zn 0 masks_le k) j) (8 * (j / 8) + 7 - j mod 8 <? k)) (zrange 0 64)) (zrange 0 64) = true.
Proof. vm_compute. reflexivity. Qed.
Lemma mask_le_bit k j : 0 <= k < 64 -> 0 <= j < 64 -> Z.testbit (zn 0 masks_le k) j = (8 * (j / 8) + 7 - j mod 8 <? k).
Proof.
  intros Hk Hj. pose proof masks_le_bits as F. rewrite forallb_forall in F. specialize (F k ltac:(apply in_zrange; lia)).
  rewrite forallb_forall in F. specialize (F j ltac:(apply in_zrange; lia)). apply eqb_prop. exact F.
Qed.
Lemma zlen_masks_le : zlen masks_le = 64.
Proof. reflexivity. Qed.
Lemma masks2_all : forallb (fun k => zn 0 masks2 k =? 2 ^ (63 - k)) (zrange 0 64) = true.
Proof. vm_compute. reflexivity. Qed.
Lemma mask2_ok k : 0 <= k < 64 -> zn 0 masks2 k = 2 ^ (63 - k).
Proof. intros Hk. pose proof masks2_all as F. rewrite forallb_forall in F. specialize (F k ltac:(apply in_zrange; lia)). lia. Qed.
Lemma zlen_masks2 : zlen masks2 = 64.
Proof. reflexivity. Qed.
Lemma land_pow2 w k : 0 <= k -> Z.land w (2 ^ k) = if Z.testbit w k then 2 ^ k else 0.
Proof.
  intros Hk. apply Z.bits_inj'. intros j Hj. rewrite Z.land_spec, Z.pow2_bits_eqb by lia. destruct (k =? j) eqn:E.
  - replace j with k by lia. rewrite andb_true_r. destruct (Z.testbit w k) eqn:T; [rewrite Z.pow2_bits_true by lia|rewrite Z.bits_0]; reflexivity.
  - rewrite andb_false_r. destruct (Z.testbit w k); [rewrite Z.pow2_bits_eqb, E by lia|rewrite Z.bits_0]; reflexivity.
Qed.
Lemma land_pos w k : 0 <= k -> (Z.land w (2 ^ k) >? 0) = Z.testbit w k.
Proof. intros Hk. rewrite land_pow2 by lia. pose proof (Z.pow_pos_nonneg 2 k ltac:(lia) Hk). destruct (Z.testbit w k); lia. Qed.

Lemma le_term m p x : byteful m -> 0 <= p -> 0 <= x < 64 -> wbit (rd 8 m p) (8 * (x / 8) + 7 - x mod 8) = tb m (8 * p + x).
Proof.
  intros Hm Hp Hx. unfold wbit, tb, wbit. rewrite rd_bit by (auto; lia). replace (p + (8 * (x / 8) + 7 - x mod 8) / 8) with ((8 * p + x) / 8) by lia.
  replace ((8 * (x / 8) + 7 - x mod 8) mod 8) with (7 - (8 * p + x) mod 8) by lia. reflexivity.
Qed.
Lemma popcount_rd m p : byteful m -> 0 <= p -> popcount (rd 8 m p) = ts m (8 * p) (8 * p + 64).
Proof.
  intros Hm Hp. rewrite popcount_wones. unfold wones. change 64 with (8 * 8). rewrite <- sumf_bytes by lia. unfold ts.
  replace (8 * p) with (0 + 8 * p) at 1 by lia. rewrite (Z.add_comm (8 * p)). rewrite <- sumf_shift. apply sumf_ext. intros x Hx. rewrite le_term by (auto; lia). f_equal. lia.
Qed.
Lemma popcount_mask_le m p k : byteful m -> 0 <= p -> 0 <= k < 64 -> popcount (Z.land (rd 8 m p) (zn 0 masks_le k)) = ts m (8 * p) (8 * p + k).
Proof.
  intros Hm Hp Hk. rewrite popcount_wones. unfold wones. change 64 with (8 * 8). rewrite <- sumf_bytes by lia. change (8 * 8) with 64. unfold ts.
  replace (8 * p) with (0 + 8 * p) at 1 by lia. rewrite (Z.add_comm (8 * p)). rewrite <- sumf_shift. rewrite (sumf_split _ 0 k 64) by lia.
  rewrite (sumf_const0 _ k 64), Z.add_0_r.
  - apply sumf_ext. intros x Hx. rewrite (Z.add_comm x), <- le_term by (auto; lia). unfold wbit. rewrite Z.land_spec, mask_le_bit by lia.
    replace (8 * ((8 * (x / 8) + 7 - x mod 8) / 8) + 7 - (8 * (x / 8) + 7 - x mod 8) mod 8 <? k) with true by lia. rewrite andb_true_r. reflexivity.
  - intros x Hx. unfold wbit. rewrite Z.land_spec, mask_le_bit by lia.
    replace (8 * ((8 * (x / 8) + 7 - x mod 8) / 8) + 7 - (8 * (x / 8) + 7 - x mod 8) mod 8 <? k) with false by lia. rewrite andb_false_r. reflexivity.
Qed.

(** ** Counting bytes *)
Definition bad (strict : bool) (p : Z) : bool := strict && negb (p mod 8 =? 0).
Lemma load_word_ok strict m p : 0 <= p -> p + 8 <= zlen m -> load_word strict m p = if bad strict p then Ub UB_align else Ok (rd 8 m p).
Proof. intros Hp Hl. unfold load_word, bad. destruct (strict && negb (p mod 8 =? 0)); [reflexivity|]. apply load_ok; auto. Qed.
Lemma bad_shift strict p k : bad strict (p + 8 * k) = bad strict p.
Proof. unfold bad. do 3 f_equal. lia. Qed.

Lemma count_bytes_ok strict m p i rank : byteful m -> 0 <= p -> 0 <= i < 1024 -> p + 8 * (i / 64) + 8 <= zlen m -> 0 <= rank < 2 ^ 63 ->
  count_bytes strict m p i rank = if bad strict p then Ub UB_align else Ok (rank + ts m (8 * p) (8 * p + i)).
Proof.
  intros Hm Hp Hi Hl Hr. unfold count_bytes. replace (i / 64 <=? 15) with true by lia. set (k := i / 64) in *. destruct (bad strict p) eqn:Eb.
  - destruct (Z.eq_dec k 0) as [E|E].
    + rewrite E. cbn [Z.to_nat zrange foldM bind]. rewrite load_word_ok by lia. rewrite Z.mul_0_r, Z.add_0_r, Eb. reflexivity.
    + replace (Z.to_nat k) with (S (Z.to_nat (k - 1))) by lia. cbn [zrange foldM]. rewrite load_word_ok by lia. rewrite bad_shift, Eb. reflexivity.
  - destruct (foldM_inv (fun r j => let* w := load_word strict m (p + 8 * j) in Ok (u64 (r + popcount w))) (fun j r => r = rank + ts m (8 * p) (8 * p + 64 * j)) (Z.to_nat k) 0 rank) as (r & -> & R).
    + rewrite Z.mul_0_r, Z.add_0_r, ts_empty. lia.
    + intros j s Hj ->. rewrite load_word_ok by lia. rewrite bad_shift, Eb. cbn [bind]. eexists. split; [reflexivity|].
      rewrite popcount_rd by (auto; lia). pose proof (ts_split m (8 * p) (8 * p + 64 * j) (8 * p + 64 * (j + 1)) ltac:(lia)) as TS.
      pose proof (ts_bound m (8 * p) (8 * p + 64 * (j + 1)) ltac:(lia)) as TB. replace (8 * (p + 8 * j)) with (8 * p + 64 * j) by lia.
      replace (8 * p + 64 * j + 64) with (8 * p + 64 * (j + 1)) by lia. rewrite wrap_small; lia.
    + cbn [bind]. rewrite load_word_ok by lia. rewrite bad_shift, Eb. cbn [bind]. rewrite geti_ok by (rewrite zlen_masks_le; lia). cbn [bind]. f_equal.
      rewrite popcount_mask_le by (auto; lia). subst r. replace (0 + Z.of_nat (Z.to_nat k)) with k by lia.
      pose proof (ts_split m (8 * p) (8 * p + 64 * k) (8 * p + i) ltac:(lia)) as TS. pose proof (ts_bound m (8 * p) (8 * p + i) ltac:(lia)) as TB.
      replace (8 * (p + 8 * k)) with (8 * p + 64 * k) by lia. replace (8 * p + 64 * k + (i - 64 * k)) with (8 * p + i) by lia. rewrite wrap_small; lia.
Qed.

(** ** Leaving pairs out *)
Lemma fw_bit R q : 0 <= q < 64 -> Z.testbit (fw R 64) (63 - q) = R q.
Proof. intros Hq. unfold fw. apply flag_bit; lia. Qed.
Lemma fw_m2 R q : 0 <= q < 64 -> (Z.land (fw R 64) (zn 0 masks2 q) >? 0) = R q.
Proof. intros Hq. rewrite mask2_ok, land_pos by lia. apply fw_bit. lia. Qed.
Lemma fw_m3 R q : 0 <= q < 64 -> popcount (Z.land (fw R 64) (zn 0 masks3 q)) = cnt R q.
Proof. intros Hq. unfold masks3. rewrite mask_count by lia. unfold cnt. apply sumf_ext. intros p Hp. unfold wbit. rewrite fw_bit by lia. reflexivity. Qed.
Lemma cnt_le R q : 0 <= q -> 0 <= cnt R q <= q.
Proof. apply cnt_bound. Qed.

Definition skipped (R F : Z -> bool) (i : Z) : Z := 16 * (i / 16 - cnt R (i / 16)) + (if R (i / 16) then 0 else i mod 16).
Definition gained (R F : Z -> bool) (i : Z) : Z := 16 * cnt F (i / 16) + (if F (i / 16) then i mod 16 else 0).

Ltac trip := match goal with |- Ok (?a, ?b, ?c) = Ok (?x, ?y, ?z) => replace x with a by lia; replace y with b by lia; replace z with c by lia; reflexivity end.
Lemma skip_both_ok strict m p i rank R F : 0 <= p -> p + 16 <= zlen m -> 0 <= i < 1024 -> 0 <= rank < 2 ^ 62 -> rd 8 m p = fw R 64 -> rd 8 m (p + 8) = fw F 64 ->
  (forall j, F j = true -> R j = true) ->
  skip_both strict m p i rank = if bad strict p then Ub UB_align else Ok (p + 16, skipped R F i, rank + gained R F i).
Proof.
  intros Hp Hl Hi Hr W1 W2 FR. unfold skip_both. rewrite !load_word_ok by lia. replace (bad strict (p + 8)) with (bad strict p) by (rewrite <- (bad_shift strict p 1); reflexivity).
  destruct (bad strict p); [reflexivity|]. cbn [bind]. assert (Hq : 0 <= i / 16 < 64) by lia. rewrite !geti_ok by (rewrite ?zlen_masks2, ?zlen_masks; (exact Hq || (unfold masks3; rewrite zlen_masks; exact Hq))). cbn [bind].
  rewrite W1, W2. rewrite !fw_m2, !fw_m3 by lia. pose proof (cnt_le R (i / 16) ltac:(lia)) as C1. pose proof (cnt_le F (i / 16) ltac:(lia)) as C2. unfold skipped, gained.
  specialize (FR (i / 16)). destruct (R (i / 16)) eqn:ER.
  - destruct (F (i / 16)); cbn [andb]; rewrite !(wrap_small 64) by (rewrite ?wrap_small; lia); trip.
  - destruct (F (i / 16)); [specialize (FR eq_refl); discriminate|]. cbn [andb]. rewrite !(wrap_small 64) by lia. trip.
Qed.

Lemma skip_one_ok ones strict m p i rank R F : 0 <= p -> p + 8 <= zlen m -> 0 <= i < 1024 -> 0 <= rank < 2 ^ 62 -> rd 8 m p = fw R 64 ->
  (forall j, F j = ones && R j) ->
  skip_one ones strict m p i rank = if bad strict p then Ub UB_align else Ok (p + 8, skipped R F i, rank + gained R F i).
Proof.
  intros Hp Hl Hi Hr W1 FR. unfold skip_one. rewrite !load_word_ok by lia.
  destruct (bad strict p); [reflexivity|]. cbn [bind]. assert (Hq : 0 <= i / 16 < 64) by lia. rewrite !geti_ok by (rewrite ?zlen_masks2, ?zlen_masks; (exact Hq || (unfold masks3; rewrite zlen_masks; exact Hq))). cbn [bind].
  rewrite W1. rewrite !fw_m2, !fw_m3 by lia. pose proof (cnt_le R (i / 16) ltac:(lia)) as C1. unfold skipped, gained.
  assert (CF : cnt F (i / 16) = if ones then cnt R (i / 16) else 0).
  { unfold cnt. destruct ones; [apply sumf_ext; intros; rewrite FR; reflexivity|apply sumf_const0; intros; rewrite FR; reflexivity]. }
  rewrite CF. rewrite FR. destruct ones; cbn [andb].
  - destruct (R (i / 16)) eqn:ER; rewrite !(wrap_small 64) by (rewrite ?wrap_small; lia); trip.
  - destruct (R (i / 16)) eqn:ER; rewrite !(wrap_small 64) by (rewrite ?wrap_small; lia); trip.
Qed.

Lemma skip_pairs_ok T t b strict m p i rank : 0 <= p -> p + hd (dz T t b) (d1 T t b) <= zlen m -> 0 <= i < 1024 -> 0 <= rank < 2 ^ 62 -> blockOk T t b m p ->
  skip_pairs T (code T (dz T t b) (d1 T t b)) strict m p i rank =
  if bad strict p && (dz T t b || d1 T t b) then Ub UB_align else
  Ok (p + hd (dz T t b) (d1 T t b), skipped (rmv T t b) (ful T t b) i, rank + gained (rmv T t b) (ful T t b) i).
Proof.
  intros Hp Hl Hi Hr (K & W1 & W2).
  assert (Fz : d1 T t b = false -> forall j, ful T t b j = false) by (intros E j; unfold ful; rewrite E; reflexivity).
  assert (Fr : forall j, ful T t b j = true -> rmv T t b j = true) by (intros j; unfold ful, rmv; intros ->; apply orb_true_r).
  assert (Fo : dz T t b = false -> forall j, ful T t b j = rmv T t b j) by (intros E j; unfold ful, rmv; rewrite E; reflexivity).
  assert (N : dz T t b = false -> d1 T t b = false -> Ok (p, i, rank) = Ok (p + hd (dz T t b) (d1 T t b), skipped (rmv T t b) (ful T t b) i, rank + gained (rmv T t b) (ful T t b) i)).
  { intros E0 E1. assert (R0 : forall j, rmv T t b j = false) by (intros j; unfold rmv; rewrite E0, E1; reflexivity).
    assert (C0 : forall q, cnt (rmv T t b) q = 0) by (intros; apply sumf_const0; intros; rewrite R0; reflexivity).
    assert (C1 : forall q, cnt (ful T t b) q = 0) by (intros; apply sumf_const0; intros; rewrite Fz by auto; reflexivity).
    unfold skipped, gained. rewrite C0, C1, R0, Fz by auto. rewrite E0, E1. change (hd false false) with 0. trip. }
  unfold skip_pairs, code, hd in *. destruct T.
  - pose proof (mpe1_same t b) as M. destruct (dz MPE1 t b) eqn:E0; rewrite M in *; cbn [b2z andb orb] in *.
    + change (1 =? 0) with false. cbv iota. rewrite andb_true_r. apply skip_both_ok; auto.
    + change (0 =? 0) with true. cbv iota. rewrite andb_false_r. auto.
  - destruct (dz MPE2 t b) eqn:E0, (d1 MPE2 t b) eqn:E1; cbn [b2z andb orb] in *; rewrite ?andb_true_r, ?andb_false_r.
    + apply skip_both_ok; auto.
    + apply skip_one_ok; auto.
    + apply skip_one_ok; auto; try lia. intros j. apply Fo. reflexivity.
    + auto.
  - destruct (dz MPE3 t b) eqn:E0, (d1 MPE3 t b) eqn:E1; cbn [b2z andb orb] in *; rewrite ?andb_true_r, ?andb_false_r.
    + apply skip_both_ok; auto.
    + apply skip_one_ok; auto.
    + apply skip_one_ok; auto; try lia. intros j. apply Fo. reflexivity.
    + auto.
Qed.

(** ** What the bytes stored count to *)
Lemma tb_same m m' k k' x : 0 <= k -> 0 <= k' -> zn 0 m (k + x / 8) = zn 0 m' (k' + x / 8) -> tb m (8 * k + x) = tb m' (8 * k' + x).
Proof. intros Hk Hk' H. unfold tb. replace ((8 * k + x) / 8) with (k + x / 8) by lia. replace ((8 * k' + x) / 8) with (k' + x / 8) by lia. rewrite H. f_equal. lia. Qed.

Lemma pair_sum T t b m base q r : 0 <= b -> 0 <= base -> 0 <= q < 64 -> 0 <= r <= 16 -> keptAt (rmv T t b) t b m base 64 ->
  ts t (1024 * b + 16 * q) (1024 * b + 16 * q + r) = if ful T t b q then r else if rmv T t b q then 0 else
    ts m (8 * base + 16 * (q - cnt (rmv T t b) q)) (8 * base + 16 * (q - cnt (rmv T t b) q) + r).
Proof.
  intros Hb Hba Hq Hr K. assert (BY : forall v, isp v t b q = true -> forall x, 1024 * b + 16 * q <= x < 1024 * b + 16 * q + 16 -> zn 0 t (x / 8) = v).
  { intros v E x Hx. unfold isp in E. assert (x / 8 = 128 * b + 2 * q \/ x / 8 = 128 * b + 2 * q + 1) as [->| ->] by lia; lia. }
  destruct (ful T t b q) eqn:EF.
  - unfold ful in EF. rewrite ts_all1; [lia|lia|]. intros x Hx. apply bits_of_full; [lia|]. apply BY; [|lia]. destruct (d1 T t b); [exact EF|discriminate].
  - destruct (rmv T t b q) eqn:ER.
    + apply ts_all0. intros x Hx. apply bits_of_zero; [lia|]. apply BY; [|lia]. unfold rmv in ER. unfold ful in EF. rewrite EF in ER. rewrite orb_false_r in ER. destruct (dz T t b); [exact ER|discriminate].
    + destruct (K q Hq ER) as [K1 K2]. set (c := cnt (rmv T t b) q) in *. unfold ts. pose proof (cnt_le (rmv T t b) q ltac:(lia)) as CB. fold c in CB.
      rewrite <- (Z.add_0_l (1024 * b + 16 * q)) at 1. rewrite (Z.add_comm (1024 * b + 16 * q) r). rewrite <- (Z.add_0_l (8 * base + 16 * (q - c))) at 1. rewrite (Z.add_comm _ r).
      rewrite <- !sumf_shift. apply sumf_ext. intros x Hx. replace (x + (1024 * b + 16 * q)) with (8 * (128 * b + 2 * q) + x) by lia.
      replace (x + (8 * base + 16 * (q - c))) with (8 * (base + 2 * (q - c)) + x) by lia. apply tb_same; [lia|lia|].
      destruct (Z_lt_le_dec x 8); [replace (x / 8) with 0 by lia; rewrite !Z.add_0_r|replace (x / 8) with 1 by lia]; auto.
Qed.

Lemma kept_sum T t b m base q : 0 <= b -> 0 <= base -> 0 <= q <= 64 -> keptAt (rmv T t b) t b m base 64 ->
  ts t (1024 * b) (1024 * b + 16 * q) = 16 * cnt (ful T t b) q + ts m (8 * base) (8 * base + 16 * (q - cnt (rmv T t b) q)).
Proof.
  intros Hb Hba [Hq0 Hq] K. revert Hq. pattern q. apply natlike_ind; auto.
  - intros _. change (cnt (ful T t b) 0) with 0. change (cnt (rmv T t b) 0) with 0. rewrite Z.mul_0_r, !Z.add_0_r, !ts_empty. reflexivity.
  - clear q Hq0. intros q Hq0 IH Hq. specialize (IH ltac:(lia)). unfold Z.succ in *. rewrite (ts_split t _ (1024 * b + 16 * q)) by lia. rewrite IH.
    replace (1024 * b + 16 * (q + 1)) with (1024 * b + 16 * q + 16) by lia. rewrite (pair_sum T t b m base q 16) by (auto; lia).
    pose proof (cnt_succ (ful T t b) q ltac:(lia)) as S1. pose proof (cnt_succ (rmv T t b) q ltac:(lia)) as S2. pose proof (cnt_le (rmv T t b) q ltac:(lia)) as CB. rewrite S1, S2.
    destruct (ful T t b q) eqn:EF.
    + assert (ER : rmv T t b q = true) by (unfold rmv; unfold ful in EF; rewrite EF; apply orb_true_r). rewrite ER. cbn [b2z].
      replace (q + 1 - (cnt (rmv T t b) q + 1)) with (q - cnt (rmv T t b) q) by lia. lia.
    + destruct (rmv T t b q); cbn [b2z].
      * replace (q + 1 - (cnt (rmv T t b) q + 1)) with (q - cnt (rmv T t b) q) by lia. lia.
      * set (c := cnt (rmv T t b) q) in *. rewrite (ts_split m (8 * base) (8 * base + 16 * (q - c)) (8 * base + 16 * (q + 1 - (c + 0)))) by lia.
        replace (8 * base + 16 * (q + 1 - (c + 0))) with (8 * base + 16 * (q - c) + 16) by lia. lia.
Qed.

Lemma block_sum T t b m base i : 0 <= b -> 0 <= base -> 0 <= i < 1024 -> keptAt (rmv T t b) t b m base 64 ->
  ts t (1024 * b) (1024 * b + i) = gained (rmv T t b) (ful T t b) i + ts m (8 * base) (8 * base + skipped (rmv T t b) (ful T t b) i).
Proof.
  intros Hb Hba Hi K. rewrite (ts_split t _ (1024 * b + 16 * (i / 16))) by lia. rewrite (kept_sum T t b m base) by (auto; lia).
  replace (1024 * b + i) with (1024 * b + 16 * (i / 16) + i mod 16) by lia. rewrite (pair_sum T t b m base) by (auto; lia). unfold gained, skipped.
  set (q := i / 16) in *. set (r := i mod 16) in *. assert (Hq : 0 <= q < 64) by lia. assert (Hr : 0 <= r < 16) by lia. clearbody q r.
  pose proof (cnt_le (rmv T t b) q ltac:(lia)) as CB. set (c := cnt (rmv T t b) q) in *.
  destruct (ful T t b q) eqn:EF.
  - assert (ER : rmv T t b q = true) by (unfold rmv; unfold ful in EF; rewrite EF; apply orb_true_r). rewrite ER. rewrite Z.add_0_r. lia.
  - destruct (rmv T t b q).
    + rewrite !Z.add_0_r. reflexivity.
    + rewrite (ts_split m (8 * base) (8 * base + 16 * (q - c)) (8 * base + (16 * (q - c) + r))) by lia. replace (8 * base + 16 * (q - c) + r) with (8 * base + (16 * (q - c) + r)) by lia. lia.
Qed.

(** A query inside a stored block. *)
Lemma in_block T t b strict m p i rank : byteful m -> 0 <= b -> 0 <= p -> p + blen T t b + 8 <= zlen m -> 0 <= i < 1024 -> 0 <= rank < 2 ^ 62 -> blockOk T t b m p ->
  (let* '(p, i, rank) := skip_pairs T (code T (dz T t b) (d1 T t b)) strict m p i rank in count_bytes strict m p i rank) =
  if bad strict p then Ub UB_align else Ok (rank + ts t (1024 * b) (1024 * b + i)).
Proof.
  intros Hm Hb Hp Hl Hi Hr B. unfold blen in Hl. set (h := hd (dz T t b) (d1 T t b)) in *. change (nrm T t b 64) with (cnt (rmv T t b) 64) in Hl.
  assert (Hh : h = 0 \/ h = 8 \/ h = 16) by (unfold h, hd; destruct (dz T t b), (d1 T t b); auto).
  pose proof (cnt_le (rmv T t b) 64 ltac:(lia)) as C64. pose proof (cnt_le (rmv T t b) (i / 16) ltac:(lia)) as Cq. pose proof (cnt_le (ful T t b) (i / 16) ltac:(lia)) as Cf.
  pose proof (cnt_succ (rmv T t b) (i / 16) ltac:(lia)) as Cs. pose proof (cnt_diff (rmv T t b) (i / 16 + 1) 64 ltac:(lia)) as Cd.
  rewrite skip_pairs_ok by (auto; lia). fold h. destruct (bad strict p && (dz T t b || d1 T t b)) eqn:E.
  - apply andb_true_iff in E. destruct E as [-> _]. reflexivity.
  - cbn [bind]. rewrite (block_sum T t b m (p + h)) by (auto; try lia; apply B).
    assert (HS : 0 <= skipped (rmv T t b) (ful T t b) i < 1024 /\ 8 * (skipped (rmv T t b) (ful T t b) i / 64) <= 2 * (64 - cnt (rmv T t b) 64)) by (clear Hh E Hl Hr B; unfold skipped; destruct (rmv T t b (i / 16)); cbn [b2z] in Cs; lia).
    assert (HG : 0 <= gained (rmv T t b) (ful T t b) i <= 2048) by (clear Hh E Hl Hr B; unfold gained; destruct (ful T t b (i / 16)); lia).
    rewrite count_bytes_ok by (auto; lia).
    replace (bad strict (p + h)) with (bad strict p); [destruct (bad strict p); [reflexivity|f_equal; lia]|].
    destruct Hh as [->|[->| ->]]; [rewrite <- (bad_shift strict p 0)|rewrite <- (bad_shift strict p 1)|rewrite <- (bad_shift strict p 2)]; f_equal; lia.
Qed.
