(** RankMPE32: queries. *)
From Coq Require Import ZifyBool.
From Verif Require Import Base BaseFacts Words WordFacts BlockFacts NodeFacts Trees TreeBuild Mem MemFacts Spec BitmapFacts KernelFacts SpecPoppy PoppyFacts PoppyFacts2 SpecText MrRank MrRankFacts MrRankFacts2 MrRankFacts3 MrRank32 MrRank32Facts2 MrRank32Facts3 MrMpe SpecMpe MrMpeFacts MrMpeFacts2 MrMpeFacts3 MrMpeFacts4 MrMpeFacts5 MrMpe32 MrMpe32Facts.
Ltac Zify.zify_post_hook ::= Z.div_mod_to_equations.

(** ** Counting inside a stored block *)
Lemma count_bytes32_ok strict m p i rank : byteful m -> 0 <= p -> 0 <= i < 1024 -> p + 8 * (i / 64) + 8 <= zlen m -> 0 <= rank < 2 ^ 32 ->
  count_bytes32 strict m p i rank = if bad strict p then Ub UB_align else Ok (u32 (rank + ts m (8 * p) (8 * p + i))).
Proof.
  intros Hm Hp Hi Hl Hr. unfold count_bytes32. replace (i / 64 <=? 15) with true by lia. set (k := i / 64) in *. destruct (bad strict p) eqn:Eb.
  - destruct (Z.eq_dec k 0) as [E|E].
    + rewrite E. cbn [Z.to_nat zrange foldM bind]. rewrite load_word_ok by lia. rewrite Z.mul_0_r, Z.add_0_r, Eb. reflexivity.
    + replace (Z.to_nat k) with (S (Z.to_nat (k - 1))) by lia. cbn [zrange foldM]. rewrite load_word_ok by lia. rewrite bad_shift, Eb. reflexivity.
  - destruct (foldM_inv (fun r j => let* w := load_word strict m (p + 8 * j) in Ok (u32 (r + popcount w))) (fun j r => r = u32 (rank + ts m (8 * p) (8 * p + 64 * j))) (Z.to_nat k) 0 rank) as (r & -> & R).
    + rewrite Z.mul_0_r, Z.add_0_r, ts_empty. rewrite wrap_small; lia.
    + intros j s Hj ->. rewrite load_word_ok by lia. rewrite bad_shift, Eb. cbn [bind]. eexists. split; [reflexivity|].
      rewrite popcount_rd by (auto; lia). pose proof (ts_split m (8 * p) (8 * p + 64 * j) (8 * p + 64 * (j + 1)) ltac:(lia)) as TS.
      replace (8 * (p + 8 * j)) with (8 * p + 64 * j) by lia.
      replace (8 * p + 64 * j + 64) with (8 * p + 64 * (j + 1)) by lia. rewrite BaseFacts.wrap_add_l. f_equal. lia.
    + cbn [bind]. rewrite load_word_ok by lia. rewrite bad_shift, Eb. cbn [bind]. rewrite geti_ok by (rewrite zlen_masks_le; lia). cbn [bind]. f_equal.
      rewrite popcount_mask_le by (auto; lia). subst r. replace (0 + Z.of_nat (Z.to_nat k)) with k by lia.
      pose proof (ts_split m (8 * p) (8 * p + 64 * k) (8 * p + i) ltac:(lia)) as TS.
      replace (8 * (p + 8 * k)) with (8 * p + 64 * k) by lia. replace (8 * p + 64 * k + (i - 64 * k)) with (8 * p + i) by lia. rewrite BaseFacts.wrap_add_l. f_equal. lia.
Qed.

Ltac trip32 := match goal with |- Ok (?a, ?b, wrap ?w ?c) = Ok (?x, ?y, wrap ?w ?z) => replace x with a by lia; replace y with b by lia; replace z with c by lia; reflexivity end.
Lemma skip_both32_ok strict m p i rank R F : 0 <= p -> p + 16 <= zlen m -> 0 <= i < 1024 -> rd 8 m p = fw R 64 -> rd 8 m (p + 8) = fw F 64 ->
  (forall j, F j = true -> R j = true) ->
  skip_both32 strict m p i rank = if bad strict p then Ub UB_align else Ok (p + 16, skipped R F i, u32 (rank + gained R F i)).
Proof.
  intros Hp Hl Hi W1 W2 FR. unfold skip_both32. rewrite !load_word_ok by lia. replace (bad strict (p + 8)) with (bad strict p) by (rewrite <- (bad_shift strict p 1); reflexivity).
  destruct (bad strict p); [reflexivity|]. cbn [bind]. assert (Hq : 0 <= i / 16 < 64) by lia. rewrite !geti_ok by (rewrite ?zlen_masks2, ?zlen_masks; (exact Hq || (unfold masks3; rewrite zlen_masks; exact Hq))). cbn [bind].
  rewrite W1, W2. rewrite !fw_m2, !fw_m3 by lia. pose proof (cnt_le R (i / 16) ltac:(lia)) as C1. pose proof (cnt_le F (i / 16) ltac:(lia)) as C2. unfold skipped, gained.
  specialize (FR (i / 16)). destruct (R (i / 16)) eqn:ER.
  - rewrite (wrap_small 32 (i - i mod 16)) by lia. rewrite (wrap_small 32 (i - i mod 16 - 16 * cnt R (i / 16))) by lia.
    destruct (F (i / 16)); cbn [andb]; rewrite ?BaseFacts.wrap_add_l; trip32.
  - destruct (F (i / 16)); [specialize (FR eq_refl); discriminate|]. cbn [andb]. rewrite (wrap_small 32 (i - 16 * cnt R (i / 16))) by lia. trip32.
Qed.

Lemma skip_one32_ok ones strict m p i rank R F : 0 <= p -> p + 8 <= zlen m -> 0 <= i < 1024 -> 0 <= rank < 2 ^ 32 -> rd 8 m p = fw R 64 ->
  (forall j, F j = ones && R j) ->
  skip_one32 ones strict m p i rank = if bad strict p then Ub UB_align else Ok (p + 8, skipped R F i, u32 (rank + gained R F i)).
Proof.
  intros Hp Hl Hi Hr W1 FR. unfold skip_one32. rewrite !load_word_ok by lia.
  destruct (bad strict p); [reflexivity|]. cbn [bind]. assert (Hq : 0 <= i / 16 < 64) by lia. rewrite !geti_ok by (rewrite ?zlen_masks2, ?zlen_masks; (exact Hq || (unfold masks3; rewrite zlen_masks; exact Hq))). cbn [bind].
  rewrite W1. rewrite !fw_m2, !fw_m3 by lia. pose proof (cnt_le R (i / 16) ltac:(lia)) as C1. unfold skipped, gained.
  assert (CF : cnt F (i / 16) = if ones then cnt R (i / 16) else 0).
  { unfold cnt. destruct ones; [apply sumf_ext; intros; rewrite FR; reflexivity|apply sumf_const0; intros; rewrite FR; reflexivity]. }
  rewrite CF. rewrite FR. destruct (R (i / 16)) eqn:ER.
  - rewrite (wrap_small 32 (i - i mod 16)) by lia. rewrite (wrap_small 32 (i - i mod 16 - 16 * cnt R (i / 16))) by lia. destruct ones; cbn [andb].
    + rewrite BaseFacts.wrap_add_l. trip32.
    + rewrite (wrap_small 32 (rank + _)) by lia. trip.
  - rewrite (wrap_small 32 (i - 16 * cnt R (i / 16))) by lia. destruct ones; cbn [andb].
    + trip32.
    + rewrite (wrap_small 32 (rank + _)) by lia. trip.
Qed.

Lemma skip_pairs32_ok T t b strict m p i rank : 0 <= p -> p + hd (dz T t b) (d1 T t b) <= zlen m -> 0 <= i < 1024 -> 0 <= rank < 2 ^ 32 -> blockOk T t b m p ->
  skip_pairs32 T (code T (dz T t b) (d1 T t b)) strict m p i rank =
  if bad strict p && (dz T t b || d1 T t b) then Ub UB_align else
  Ok (p + hd (dz T t b) (d1 T t b), skipped (rmv T t b) (ful T t b) i, u32 (rank + gained (rmv T t b) (ful T t b) i)).
Proof.
  intros Hp Hl Hi Hr (K & W1 & W2).
  assert (Fz : d1 T t b = false -> forall j, ful T t b j = false) by (intros E j; unfold ful; rewrite E; reflexivity).
  assert (Fr : forall j, ful T t b j = true -> rmv T t b j = true) by (intros j; unfold ful, rmv; intros ->; apply orb_true_r).
  assert (Fo : dz T t b = false -> forall j, ful T t b j = rmv T t b j) by (intros E j; unfold ful, rmv; rewrite E; reflexivity).
  assert (N : dz T t b = false -> d1 T t b = false -> Ok (p, i, rank) = Ok (p + hd (dz T t b) (d1 T t b), skipped (rmv T t b) (ful T t b) i, u32 (rank + gained (rmv T t b) (ful T t b) i))).
  { intros E0 E1. assert (R0 : forall j, rmv T t b j = false) by (intros j; unfold rmv; rewrite E0, E1; reflexivity).
    assert (C0 : forall q, cnt (rmv T t b) q = 0) by (intros; apply sumf_const0; intros; rewrite R0; reflexivity).
    assert (C1 : forall q, cnt (ful T t b) q = 0) by (intros; apply sumf_const0; intros; rewrite Fz by auto; reflexivity).
    unfold skipped, gained. rewrite C0, C1, R0, Fz by auto. rewrite E0, E1. change (hd false false) with 0. rewrite (wrap_small 32) by lia. trip. }
  unfold skip_pairs32, code, hd in *. destruct T.
  - pose proof (mpe1_same t b) as M. destruct (dz MPE1 t b) eqn:E0; rewrite M in *; cbn [b2z andb orb] in *.
    + change (1 =? 0) with false. cbv iota. rewrite andb_true_r. apply skip_both32_ok; auto.
    + change (0 =? 0) with true. cbv iota. rewrite andb_false_r. auto.
  - destruct (dz MPE2 t b) eqn:E0, (d1 MPE2 t b) eqn:E1; cbn [b2z andb orb] in *; rewrite ?andb_true_r, ?andb_false_r.
    + apply skip_both32_ok; auto.
    + apply skip_one32_ok; auto.
    + apply skip_one32_ok; auto; try lia. intros j. apply Fo. reflexivity.
    + auto.
  - destruct (dz MPE3 t b) eqn:E0, (d1 MPE3 t b) eqn:E1; cbn [b2z andb orb] in *; rewrite ?andb_true_r, ?andb_false_r.
    + apply skip_both32_ok; auto.
    + apply skip_one32_ok; auto.
    + apply skip_one32_ok; auto; try lia. intros j. apply Fo. reflexivity.
    + auto.
Qed.

Lemma in_block32 T t b strict m p i rank : byteful m -> 0 <= b -> 0 <= p -> p + blen T t b + 8 <= zlen m -> 0 <= i < 1024 -> 0 <= rank < 2 ^ 32 -> blockOk T t b m p ->
  (let* '(p, i, rank) := skip_pairs32 T (code T (dz T t b) (d1 T t b)) strict m p i rank in count_bytes32 strict m p i rank) =
  if bad strict p then Ub UB_align else Ok (u32 (rank + ts t (1024 * b) (1024 * b + i))).
Proof.
  intros Hm Hb Hp Hl Hi Hr B. unfold blen in Hl. set (h := hd (dz T t b) (d1 T t b)) in *. change (nrm T t b 64) with (cnt (rmv T t b) 64) in Hl.
  assert (Hh : h = 0 \/ h = 8 \/ h = 16) by (unfold h, hd; destruct (dz T t b), (d1 T t b); auto).
  pose proof (cnt_le (rmv T t b) 64 ltac:(lia)) as C64. pose proof (cnt_le (rmv T t b) (i / 16) ltac:(lia)) as Cq. pose proof (cnt_le (ful T t b) (i / 16) ltac:(lia)) as Cf.
  pose proof (cnt_succ (rmv T t b) (i / 16) ltac:(lia)) as Cs. pose proof (cnt_diff (rmv T t b) (i / 16 + 1) 64 ltac:(lia)) as Cd.
  rewrite skip_pairs32_ok by (auto; lia). fold h. destruct (bad strict p && (dz T t b || d1 T t b)) eqn:E.
  - apply andb_true_iff in E. destruct E as [-> _]. reflexivity.
  - cbn [bind]. rewrite (block_sum T t b m (p + h)) by (auto; try lia; apply B).
    assert (HS : 0 <= skipped (rmv T t b) (ful T t b) i < 1024 /\ 8 * (skipped (rmv T t b) (ful T t b) i / 64) <= 2 * (64 - cnt (rmv T t b) 64)) by (clear Hh E Hl Hr B; unfold skipped; destruct (rmv T t b (i / 16)); cbn [b2z] in Cs; lia).
    pose proof (wrap_bound 32 (rank + gained (rmv T t b) (ful T t b) i) ltac:(lia)) as WB.
    rewrite count_bytes32_ok by (auto; lia). rewrite BaseFacts.wrap_add_l.
    replace (bad strict (p + h)) with (bad strict p); [destruct (bad strict p); [reflexivity|do 2 f_equal; lia]|].
    destruct Hh as [->|[->| ->]]; [rewrite <- (bad_shift strict p 0)|rewrite <- (bad_shift strict p 1)|rewrite <- (bad_shift strict p 2)]; f_equal; lia.
Qed.

(** ** Fields *)
Lemma lw32_two d k : (forall j, 0 <= d j) -> exists V1, 0 <= V1 /\ (k <> 7 -> V1 = d (2 * k + 1)) /\ (k = 7 -> V1 = 0) /\
  lw32 d k = (d (2 * k) + V1 * 2 ^ 16) mod 2 ^ 32.
Proof.
  intros Hd. unfold lw32, wrap. destruct (k =? 7) eqn:E; [exists 0|exists (d (2 * k + 1))]; (split; [auto; lia|]); (split; [auto; lia|]); (split; [auto; lia|]).
  - replace (sumf _ 0 1) with (d (2 * k + 0) * 2 ^ (16 * 0) + 0) by reflexivity. rewrite !Z.add_0_r. f_equal. change (16 * 0) with 0. ring.
  - replace (sumf _ 0 2) with (d (2 * k + 0) * 2 ^ (16 * 0) + (d (2 * k + 1) * 2 ^ (16 * 1) + 0)) by reflexivity.
    rewrite !Z.add_0_r. f_equal. change (16 * 0) with 0. change (16 * 1) with 16. ring.
Qed.

Lemma get_lw32 d j : (forall j, 0 <= d j) -> 0 <= j <= 14 -> (forall i, 0 <= i <= j -> d i < 65536) -> get_lane32 (lw32 d (j / 2)) (j mod 2) = d j.
Proof.
  intros Hd Hj Hb. set (k := j / 2). destruct (lw32_two d k Hd) as (V1 & V10 & V1e & _ & ->). unfold get_lane32.
  pose proof (Hd (2 * k)) as A0. pose proof (Hb (2 * k) ltac:(lia)) as B0.
  change 0xFFFF with (Z.ones 16). rewrite Z.land_ones, !Z.shiftr_div_pow2 by lia.
  assert (C : j mod 2 = 0 \/ j mod 2 = 1) by lia. destruct C as [C|C]; rewrite C.
  - change (0 =? 0) with true. cbv iota. replace (d j) with (d (2 * k)) by (f_equal; lia).
    set (a := d (2 * k)) in *. clearbody a. clear - A0 B0 V10. lia.
  - change (1 =? 0) with false. cbv iota. pose proof (Hb (2 * k + 1) ltac:(lia)) as B1.
    specialize (V1e ltac:(lia)). replace (d j) with (d (2 * k + 1)) by (f_equal; lia). rewrite <- V1e in B1 |- *.
    set (a := d (2 * k)) in *. clearbody a. clear - A0 B0 B1 V10. lia.
Qed.

(** The int of two offsets [D] with flags [G] and, in the first, that of the first block [H]. *)
Definition offw32 (D G : Z -> Z) (k H : Z) : Z :=
  (D (2 * k) + 2 ^ 14 * G (2 * k) + (if k =? 7 then 0 else D (2 * k + 1) + 2 ^ 14 * G (2 * k + 1)) * 2 ^ 16 + 2 ^ 28 * H) mod 2 ^ 32.
Lemma hof_in32 T f : flag_of_first32 T f = 2 ^ 28 * hof T f.
Proof. destruct T; unfold flag_of_first32, hof; [destruct (f =? 0); reflexivity|..]; rewrite Z.shiftl_mul_pow2 by lia; unfold wrap; lia. Qed.

Lemma offw_field32 T D G k H num : 0 <= k <= 7 -> 1 <= num <= 15 -> k = (num - 1) / 2 ->
  (forall j, 0 <= j < 15 -> 0 <= D j <= 1920 /\ 0 <= G j) -> (forall j, 0 <= j < num - 1 -> G j <= 3) -> 0 <= H -> (T = MPE1 -> H mod 4 = 0 /\ forall j, 0 <= j < 15 -> G j mod 2 = 0) ->
  fst (offset_field32 T (offw32 D G k H) num) = D (num - 1) /\
  0 <= snd (offset_field32 T (offw32 D G k H) num) <= 3 /\
  (G (num - 1) <= 3 -> (T = MPE1 -> H <= 4 /\ G (num - 1) <= 2 ) -> (T <> MPE1 -> H <= 3) -> snd (offset_field32 T (offw32 D G k H) num) = G (num - 1) / unit_of T).
Proof.
  intros Hk Hn Ek HD HG HH H1. unfold offset_field32. set (j := num - 1) in *.
  pose proof (HD (2 * k) ltac:(lia)) as [D0 G0].
  assert (D1 : k <> 7 -> 0 <= D (2 * k + 1) <= 1920 /\ 0 <= G (2 * k + 1)) by (intros; apply HD; lia).
  assert (P : T = MPE1 -> H mod 4 = 0 /\ G (2 * k) mod 2 = 0 /\ (k <> 7 -> G (2 * k + 1) mod 2 = 0)).
  { intros E. destruct (H1 E) as [Q1 Q2]. split; [exact Q1|]. split; [|intros]; apply Q2; lia. }
  assert (C : num mod 2 = 1 /\ j = 2 * k \/ num mod 2 = 0 /\ j = 2 * k + 1 /\ k <> 7) by lia.
  assert (L0 : 2 * k < j -> G (2 * k) <= 3) by (intros; apply HG; lia).
  unfold offw32. set (V1 := if k =? 7 then 0 else D (2 * k + 1) + 2 ^ 14 * G (2 * k + 1)).
  change 0x3FFF with (Z.ones 14). change 0x0FFF with (Z.ones 12).
  assert (LA : forall x, Z.land x 1 = x mod 2) by (intros x; change 1 with (Z.ones 1); rewrite Z.land_ones by lia; reflexivity).
  assert (LB : forall x, Z.land x 3 = x mod 4) by (intros x; change 3 with (Z.ones 2); rewrite Z.land_ones by lia; reflexivity).
  assert (V10 : 0 <= V1) by (unfold V1; destruct (k =? 7) eqn:E3; [lia|specialize (D1 ltac:(lia)); lia]).
  destruct C as [[C Ej]|[C [Ej K3]]]; rewrite Ej in *; rewrite C.
  - change (1 =? 1) with true. cbv iota. clearbody V1. set (a := D (2 * k)) in *. set (e := G (2 * k)) in *. clearbody a e.
    destruct T; cbn [fst snd unit_of]; rewrite ?LA, ?LB; rewrite ?Z.land_ones, ?Z.shiftr_div_pow2 by lia.
    + destruct (P eq_refl) as (P0 & P1 & _). clear - D0 G0 HH V10 P0 P1. split; [lia|split; [lia|intros; lia]].
    + clear - D0 G0 HH V10. split; [lia|split; [lia|intros; lia]].
    + clear - D0 G0 HH V10. split; [lia|split; [lia|intros; lia]].
  - change (0 =? 1) with false. cbv iota. specialize (L0 ltac:(lia)). specialize (D1 K3). unfold V1 in *. replace (k =? 7) with false in * by lia. clear V1 V10.
    set (a := D (2 * k)) in *. set (b := D (2 * k + 1)) in *. set (e := G (2 * k)) in *. set (f := G (2 * k + 1)) in *. clearbody a b e f.
    destruct T; cbn [fst snd unit_of]; rewrite ?LA, ?LB; rewrite ?Z.land_ones, ?Z.shiftr_div_pow2 by lia.
    + destruct (P eq_refl) as (P0 & P1 & P2). specialize (P2 K3). split; [clear - D0 D1 G0 L0 HH P0 P1 P2; lia|split; [clear - D0 D1 G0 L0 HH; lia|]].
      intros Q1 Q2 _. destruct (Q2 eq_refl) as [Q3 Q4]. clear - D0 D1 G0 L0 HH P0 P2 Q3 Q4. lia.
    + split; [clear - D0 D1 G0 L0 HH; lia|split; [clear - D0 D1 G0 L0 HH; lia|]].
      intros Q1 _ Q2. specialize (Q2 ltac:(discriminate)). clear - D0 D1 G0 L0 HH Q1 Q2. lia.
    + split; [clear - D0 D1 G0 L0 HH; lia|split; [clear - D0 D1 G0 L0 HH; lia|]].
      intros Q1 _ Q2. specialize (Q2 ltac:(discriminate)). clear - D0 D1 G0 L0 HH Q1 Q2. lia.
Qed.

Lemma offw_first32 T D G H : (forall j, 0 <= j < 2 -> 0 <= D j <= 1920 /\ 0 <= G j <= 255) -> 0 <= H -> (T = MPE1 -> H mod 4 = 0 /\ forall j, 0 <= j < 2 -> G j mod 2 = 0) ->
  0 <= first_flag32 T (offw32 D G 0 H) <= 3 /\ first_flag32 T (offw32 D G 0 H) = match T with MPE1 => (H / 4) mod 2 | _ => H mod 4 end.
Proof.
  intros HD HH H1. unfold first_flag32, offw32. change (2 * 0) with 0. rewrite !Z.add_0_l. change (0 =? 7) with false. cbv iota.
  pose proof (HD 0 ltac:(lia)) as D0. pose proof (HD 1 ltac:(lia)) as D1.
  assert (LA : forall x, Z.land x 1 = x mod 2) by (intros x; change 1 with (Z.ones 1); rewrite Z.land_ones by lia; reflexivity).
  assert (LB : forall x, Z.land x 3 = x mod 4) by (intros x; change 3 with (Z.ones 2); rewrite Z.land_ones by lia; reflexivity).
  assert (P : T = MPE1 -> H mod 4 = 0 /\ G 1 mod 2 = 0) by (intros E; destruct (H1 E) as [Q1 Q2]; split; [exact Q1|apply Q2; lia]).
  set (a := D 0) in *. set (b := D 1) in *. set (e := G 0) in *. set (f := G 1) in *. clearbody a b e f.
  destruct T; rewrite ?LA, ?LB, ?Z.shiftr_div_pow2 by lia.
  - destruct (P eq_refl) as [P1 P2]. clear - D0 D1 HH P1 P2. split; lia.
  - clear - D0 D1 HH. split; lia.
  - clear - D0 D1 HH. split; lia.
Qed.

(** ** The header of a superblock *)
Lemma odiff32_ok T jf t temp btc s j : 0 < nbig t -> tempM32 T t temp -> byteful btc -> 0 <= s <= nbig t / 16 -> 0 <= j < 15 ->
  odiff32 T jf temp btc s j = dof T t s j + 2 ^ 14 * gat T jf btc s j.
Proof.
  intros Hn (L & T1 & T2) HB Hs Hj. unfold odiff32. rewrite !T2 by lia. fold (dof T t s j). rewrite gof_in. fold (gat T jf btc s j).
  pose proof (po_mono T t (16 * s) (16 * s + j + 1) Hn ltac:(lia)) as M. pose proof (gof_bound T _ (btcv_byte jf btc (16 * s + j + 1) HB)) as G. fold (gat T jf btc s j) in G.
  fold (dof T t s j) in M. assert (D : 0 <= dof T t s j <= 1920) by (unfold dof; lia). rewrite (wrap_small 32 (dof T t s j)) by lia. apply wrap_small. lia.
Qed.

Lemma off_int T jf t temp btc s k : 0 < nbig t -> tempM32 T t temp -> byteful btc -> 0 <= s <= nbig t / 16 -> 0 <= k <= 7 ->
  mp_int T jf temp btc s (10 + k) = offw32 (dof T t s) (gat T jf btc s) k (if k =? 0 then hat T jf btc s else 0).
Proof.
  intros Hn TM HB Hs Hk. assert (OD : forall j, 0 <= j < 15 -> odiff32 T jf temp btc s j = dof T t s j + 2 ^ 14 * gat T jf btc s j) by (intros; apply odiff32_ok; auto).
  assert (LW : lw32 (odiff32 T jf temp btc s) k = offw32 (dof T t s) (gat T jf btc s) k 0).
  { destruct (lw32_two (odiff32 T jf temp btc s) k) as (V3 & V30 & V3a & V3b & ->). { intros j. apply wrap_bound. lia. }
    unfold offw32. rewrite !OD by lia. replace V3 with (if k =? 7 then 0 else dof T t s (2 * k + 1) + 2 ^ 14 * gat T jf btc s (2 * k + 1)).
    - rewrite Z.mul_0_r, Z.add_0_r. reflexivity.
    - destruct (k =? 7) eqn:E; [symmetry; apply V3b; lia|]. rewrite V3a by lia. symmetry. apply OD. lia. }
  unfold mp_int. replace (10 + k =? 0) with false by lia. replace (10 + k <=? 8) with false by lia. replace (10 + k =? 9) with false by lia.
  destruct (k =? 0) eqn:E.
  - replace (10 + k =? 10) with true by lia. replace 0 with k at 1 by lia. rewrite LW. rewrite hof_in32. fold (hat T jf btc s). unfold offw32, wrap. rewrite Z.mul_0_r, Z.add_0_r. apply Zplus_mod_idemp_l.
  - replace (10 + k =? 10) with false by lia. replace (10 + k - 10) with k by lia. exact LW.
Qed.

(** ** The reads of a query *)
Definition mpe_first32 (r : rank_mpe) (p2 num first : Z) : res Z :=
  if num >? 0 then
      let* w := geti (mp_ranks r) (p2 + (num + 1) / 2) in
      Ok (u32 (first + (if num mod 2 =? 1 then Z.land w 0xFFFF else Z.shiftr w 16)))
    else Ok first.
Definition mpe_second32 (r : rank_mpe) (p2 num first : Z) : res Z :=
  if num =? 15 then geti (mp_ranks r) (p2 + 18) else
      let* w := geti (mp_ranks r) (p2 + (num + 2) / 2) in
      Ok (u32 (first + (if num mod 2 =? 0 then Z.land w 0xFFFF else Z.shiftr w 16))).
Definition mpe_ptr32 (T : mpe_type) (r : rank_mpe) (p2 num : Z) : res (Z * Z) :=
  let* o := geti (mp_ranks r) (p2 + 9) in
  if num >? 0
    then let* w := geti (mp_ranks r) (p2 + 9 + (num + 1) / 2) in
         let '(d, f) := offset_field32 T w num in Ok (o + d, f)
    else let* w := geti (mp_ranks r) (p2 + 10) in Ok (o, first_flag32 T w).
Definition answer232 (rank next i : Z) (k : res Z) : res Z :=
  let diff := u32 (next - rank) in
  if Z.land diff 1023 =? 0 then Ok (u32 (rank + u32 (i * Z.shiftr diff 10))) else k.

Lemma rank_mpe_form32 T strict r i : rank_of_mpe32 T strict r i =
  let p2 := 18 * (i / 1024 / 16) in let num := i / 1024 mod 16 in
  let* first := geti (mp_ranks r) p2 in
  let* rank := mpe_first32 r p2 num first in
  let* rank2 := mpe_second32 r p2 num first in
  answer232 rank rank2 (i mod 1024) (let* '(p, f) := mpe_ptr32 T r p2 num in
    let* '(p, i, rank) := skip_pairs32 T f strict (mp_bits r) p (i mod 1024) rank in count_bytes32 strict (mp_bits r) p i rank).
Proof.
  unfold rank_of_mpe32, mpe_first32, mpe_second32, mpe_ptr32, answer232. cbv zeta.
  destruct (geti (mp_ranks r) (18 * (i / 1024 / 16))); [|reflexivity..]. cbn [bind].
  match goal with |- bind ?a _ = bind ?a _ => destruct a; [|reflexivity..] end. cbn [bind].
  match goal with |- bind ?a _ = bind ?a _ => destruct a; [|reflexivity..] end. cbn [bind].
  match goal with |- (if ?c then _ else _) = _ => destruct c; [reflexivity|] end.
  destruct (geti (mp_ranks r) (18 * (i / 1024 / 16) + 9)); reflexivity.
Qed.

Lemma answer232_ok t b i k : 0 <= b -> 1024 * b + i < 2 ^ 32 -> 0 <= i < 1024 ->
  answer232 (ts t 0 (1024 * b)) (u32 (ts t 0 (1024 * (b + 1)))) i k = if bsum t b mod 1024 =? 0 then Ok (ts t 0 (1024 * b + i)) else k.
Proof.
  intros Hb Hbi Hi. unfold answer232.
  pose proof (ts_split t 0 (1024 * b) (1024 * (b + 1)) ltac:(lia)) as S1. pose proof (ts_bound t (1024 * b) (1024 * (b + 1)) ltac:(lia)) as B1.
  pose proof (ts_bound t 0 (1024 * b) ltac:(lia)) as B0. pose proof (ts_split t 0 (1024 * b) (1024 * b + i) ltac:(lia)) as S2.
  pose proof (ts_bound t (1024 * b) (1024 * b + i) ltac:(lia)) as B2. unfold bsum.
  set (d := ts t (1024 * b) (1024 * (b + 1))) in *. rewrite wrap_sub_l.
  replace (u32 (ts t 0 (1024 * (b + 1)) - ts t 0 (1024 * b))) with d by (rewrite wrap_small; lia).
  change 1023 with (Z.ones 10). rewrite Z.land_ones, Z.shiftr_div_pow2 by lia. change (2 ^ 10) with 1024.
  destruct (d mod 1024 =? 0) eqn:E; [|reflexivity].
  f_equal. destruct (Z.eq_dec d 0) as [E0|E0].
  - rewrite E0. change (0 / 1024) with 0. rewrite Z.mul_0_r. change (u32 0) with 0. rewrite Z.add_0_r.
    assert (G : ts t (1024 * b) (1024 * b + i) = 0) by (apply ts_all0; intros; apply (ts_zero t (1024 * b) (1024 * (b + 1))); fold d; lia).
    rewrite wrap_small; lia.
  - assert (E1 : d = 1024) by lia. rewrite E1. change (1024 / 1024) with 1. rewrite Z.mul_1_r.
    assert (G : ts t (1024 * b) (1024 * b + i) = i).
    { rewrite ts_all1; [lia|lia|]. intros; apply (ts_full t (1024 * b) (1024 * (b + 1))); fold d; lia. }
    rewrite (wrap_small 32 i) by lia. rewrite wrap_small; lia.
Qed.

(** What a query needs of the arrays. *)
Definition mpeQ32 (T : mpe_type) (jf : Z -> Z) (t temp btc : list Z) (r : rank_mpe) : Prop :=
  tempM32 T t temp /\ btcP T t btc /\ 18 * (nbig t / 16 + 1) + 1 <= zlen (mp_ranks r) /\ moff T t (nbig t) + 8 <= zlen (mp_bits r) /\ byteful (mp_bits r) /\
  (forall s k, 0 <= s <= nbig t / 16 -> 0 <= k < 18 -> zn 0 (mp_ranks r) (18 * s + k) = mp_int T jf temp btc s k) /\
  (forall c, 0 <= c < nbig t -> homob2 t c = false -> blockOk T t c (mp_bits r) (moff T t c)).

Lemma rlane32_ok jf T t temp btc s j : tempM32 T t temp -> 0 <= s -> 0 <= j <= 14 -> 16 * s + j + 1 <= nbig t ->
  get_lane32 (mp_int T jf temp btc s (j / 2 + 1)) (j mod 2) = ts t (16384 * s) (1024 * (16 * s + j + 1)).
Proof.
  intros (L & T1 & T2) Hs Hj Hn. unfold mp_int. replace (j / 2 + 1 =? 0) with false by lia. replace (j / 2 + 1 <=? 8) with true by lia. replace (j / 2 + 1 - 1) with (j / 2) by lia.
  assert (V : forall i, 0 <= i <= j -> rdiff32 temp s i = ts t (16384 * s) (1024 * (16 * s + i + 1)) /\ rdiff32 temp s i < 65536).
  { intros i Hi. unfold rdiff32. rewrite !T1 by lia. rewrite wrap32_sub. rewrite (ts_split t 0 (1024 * (16 * s)) (1024 * (16 * s + i + 1))) by lia. replace (1024 * (16 * s)) with (16384 * s) by lia.
    rewrite Z.add_simpl_l. pose proof (ts_bound t (16384 * s) (1024 * (16 * s + i + 1)) ltac:(lia)). rewrite wrap_small by lia. lia. }
  rewrite get_lw32; [apply V; lia| |lia|intros; apply V; lia]. intros i. apply wrap_bound. lia.
Qed.

Lemma mpe_ptr32_ok T jf t temp btc r b : 0 < nbig t -> mpeQ32 T jf t temp btc r -> 0 <= b <= nbig t ->
  exists f, mpe_ptr32 T r (18 * (b / 16)) (b mod 16) = Ok (po T t b, f) /\ 0 <= f <= 3 /\ (b < nbig t -> homob2 t b = false -> f = code T (dz T t b) (d1 T t b)).
Proof.
  intros Hn (TM & BP & L1 & L2 & L3 & P1 & P2) Hb. pose proof TM as (T0 & T1 & T2). pose proof BP as (B0 & B1 & B2). set (n := nbig t) in *.
  set (s := b / 16). set (num := b mod 16). assert (Hs : 0 <= s <= n / 16) by lia. assert (Hnum : 0 <= num < 16) by lia. assert (Eb : b = 16 * s + num) by lia.
  assert (E16 : 16 * s + (num - 1) + 1 = b) by (clear - Eb; lia). clearbody s num.
  unfold mpe_ptr32. rewrite geti_ok by lia. cbn [bind]. rewrite P1 by lia. replace (mp_int T jf temp btc s 9) with (po T t (16 * s)) by (unfold mp_int; cbn [Z.eqb Pos.eqb Z.leb Z.compare Pos.compare Pos.compare_cont]; rewrite T2 by lia; reflexivity).
  assert (HD : forall j, 0 <= j < 15 -> 0 <= dof T t s j <= 1920 /\ 0 <= gat T jf btc s j <= 255).
  { intros j Hj. pose proof (po_mono T t (16 * s) (16 * s + j + 1) Hn ltac:(lia)). split; [unfold dof; lia|]. apply gof_bound. apply btcv_byte. exact B1. }
  destruct (num >? 0) eqn:E.
  - rewrite geti_ok by lia. cbn [bind]. replace (18 * s + 9 + (num + 1) / 2) with (18 * s + (10 + (num - 1) / 2)) by lia. rewrite P1 by lia. set (k := (num - 1) / 2). assert (Hk : 0 <= k <= 7) by (clear - Hnum E; lia).
    rewrite (off_int T jf t temp btc s k Hn TM B1 Hs ltac:(lia)). set (H := if k =? 0 then hat T jf btc s else 0).
    assert (HH : 0 <= H) by (unfold H; destruct (k =? 0); [apply hof_bound|lia]).
    destruct (offw_field32 T (dof T t s) (gat T jf btc s) k H num) as (F1 & F2 & F3); try lia.
    + intros j Hj. specialize (HD j Hj). lia.
    + intros j Hj. apply (gof_real T jf t btc (16 * s + j + 1) BP). fold n. clear - Hs Hj Eb Hb; lia.
    + intros ->. split; [unfold H; destruct (k =? 0); [apply hof_four|reflexivity]|]. intros j Hj. apply gof_even.
    + destruct (offset_field32 T (offw32 (dof T t s) (gat T jf btc s) k H) num) as [d f]. cbn [fst snd] in F1, F2, F3. exists f. split; [|split; [exact F2|]].
      * rewrite F1. unfold dof. rewrite E16. do 2 f_equal. clear; lia.
      * intros Hbn Hh. destruct (gof_real T jf t btc b BP ltac:(fold n; clear - Hb Hbn; lia)) as (G1 & G2 & G3). destruct (hof_real T jf t btc (16 * s) BP ltac:(fold n; clear - Hs Hnum Eb Hbn; lia)) as (H1 & H2 & _).
        unfold gat in F3. rewrite E16 in F3. rewrite <- G3 by exact Hh. apply F3; [apply G1|..].
        -- intros ET. split; [unfold H; destruct (k =? 0); [apply H1; exact ET|lia]|apply G2; exact ET].
        -- intros ET. unfold H; destruct (k =? 0); [apply H2; exact ET|lia].
  - rewrite geti_ok by lia. cbn [bind]. rewrite P1 by lia. change 10 with (10 + 0). rewrite (off_int T jf t temp btc s 0 Hn TM B1 Hs ltac:(lia)). change (0 =? 0) with true. cbv iota.
    destruct (offw_first32 T (dof T t s) (gat T jf btc s) (hat T jf btc s)) as (F1 & F2).
    + intros j Hj. apply HD. lia.
    + apply hof_bound.
    + intros ->. split; [apply hof_four|]. intros j Hj. apply gof_even.
    + assert (E0 : 16 * s = b) by (clear - Hnum Eb E; lia). exists (first_flag32 T (offw32 (dof T t s) (gat T jf btc s) 0 (hat T jf btc s))). rewrite E0. split; [reflexivity|]. split; [exact F1|].
      intros Hbn Hh. rewrite F2. unfold hat. rewrite E0. apply hof_real; auto. fold n. clear - Hb Hbn; lia.
Qed.

Lemma rank_mpe32_gen T strict jf t temp btc r i : 0 < nbig t -> mpeQ32 T jf t temp btc r -> 0 <= i <= 1024 * nbig t -> i < 2 ^ 32 -> let b := i / 1024 in
  (b < nbig t -> rank_of_mpe32 T strict r i = if bad strict (moff T t b) && negb (bsum t b mod 1024 =? 0) then Ub UB_align else Ok (ts t 0 i)) /\
  (b = nbig t -> strict = false -> moff T t (nbig t) + 24 <= zlen (mp_bits r) -> rank_of_mpe32 T strict r i = Ok (ts t 0 i)).
Proof.
  intros Hn Q Hi Hi32 b. rewrite rank_mpe_form32. cbv zeta. fold b.
  pose proof Q as (TM & BP & L1 & L2 & L3 & P1 & P2). pose proof TM as (T0 & T1 & T2). pose proof (zlen_nonneg t). set (n := nbig t) in *.
  assert (Hb : 0 <= b <= n) by lia. assert (Hb22 : b < 2 ^ 22) by lia. destruct (mpe_ptr32_ok T jf t temp btc r b Hn Q Hb) as (f & EP & Hf & Hfc). rewrite EP. cbn [bind]. clear EP.
  set (s := b / 16). set (num := b mod 16).
  assert (Hs : 0 <= s <= n / 16) by lia. assert (Hnum : 0 <= num < 16) by lia. assert (Eb : b = 16 * s + num) by lia.
  rewrite geti_ok by lia. cbn [bind]. replace (18 * s) with (18 * s + 0) by lia. rewrite P1 by lia. rewrite Z.add_0_r.
  pose proof (ts_bound t 0 (16384 * s) ltac:(lia)) as B0.
  replace (mp_int T jf temp btc s 0) with (ts t 0 (16384 * s)).
  2:{ unfold mp_int. cbn [Z.eqb]. rewrite T1 by lia. replace (1024 * (16 * s)) with (16384 * s) by lia. symmetry. apply wrap_small. lia. }
  assert (R1 : mpe_first32 r (18 * s) num (ts t 0 (16384 * s)) = Ok (ts t 0 (1024 * b))).
  { unfold mpe_first32. destruct (num >? 0) eqn:E; [|do 2 f_equal; lia].
    rewrite geti_ok by lia. cbn [bind]. rewrite P1 by lia. f_equal.
    pose proof (rlane32_ok jf T t temp btc s (num - 1) TM ltac:(lia) ltac:(lia) ltac:(fold n; lia)) as G.
    replace ((num - 1) / 2 + 1) with ((num + 1) / 2) in G by lia. replace (16 * s + (num - 1) + 1) with b in G by lia.
    pose proof (ts_split t 0 (16384 * s) (1024 * b) ltac:(lia)) as TS. pose proof (ts_bound t 0 (1024 * b) ltac:(lia)) as TB.
    set (w := mp_int _ _ _ _ _ _) in *. clearbody w. unfold get_lane32 in G.
    assert (C : num mod 2 = 0 \/ num mod 2 = 1) by lia.
    destruct C as [C|C]; rewrite C; [replace ((num - 1) mod 2) with 1 in G by lia; change (0 =? 1) with false; change (1 =? 0) with false in G|replace ((num - 1) mod 2) with 0 in G by lia; change (1 =? 1) with true; change (0 =? 0) with true in G];
      cbv iota in G |- *; rewrite G; rewrite <- TS; apply wrap_small; lia. }
  rewrite R1. cbn [bind].
  assert (R2 : exists x, mpe_second32 r (18 * s) num (ts t 0 (16384 * s)) = Ok x /\ (b < n -> x = u32 (ts t 0 (1024 * (b + 1))))).
  { unfold mpe_second32. destruct (num =? 15) eqn:E.
    - rewrite geti_ok by lia. eexists. split; [reflexivity|]. intros Hbn. replace (18 * s + 18) with (18 * (s + 1) + 0) by lia. rewrite P1 by lia.
      unfold mp_int. cbn [Z.eqb]. rewrite T1 by lia. do 2 f_equal. lia.
    - rewrite geti_ok by lia. cbn [bind]. eexists. split; [reflexivity|]. intros Hbn.
      replace ((num + 2) / 2) with (num / 2 + 1) by lia. rewrite P1 by lia.
      pose proof (rlane32_ok jf T t temp btc s num TM ltac:(lia) ltac:(lia) ltac:(fold n; lia)) as G.
      replace (16 * s + num + 1) with (b + 1) in G by lia.
      pose proof (ts_split t 0 (16384 * s) (1024 * (b + 1)) ltac:(lia)) as TS.
      set (w := mp_int _ _ _ _ _ _) in *. clearbody w. unfold get_lane32 in G. rewrite G, TS. reflexivity. }
  destruct R2 as (x & -> & Hx). cbn [bind]. clear R1. pose proof (ts_bound t 0 (1024 * b) ltac:(lia)) as TB. pose proof (moff_mono T t 0 b ltac:(lia)) as M0. rewrite moff_0 in M0. split.
  - intros Hbn. rewrite Hx by lia. rewrite answer232_ok by lia. replace (po T t b) with (moff T t b) by (unfold po; fold n; f_equal; lia).
    destruct (bsum t b mod 1024 =? 0) eqn:Es.
    { rewrite andb_false_r. do 2 f_equal. lia. }
    assert (Hh : homob2 t b = false) by (unfold homob2; lia). rewrite (Hfc Hbn Hh). rewrite andb_true_r.
    pose proof (moff_succ T t b ltac:(lia)) as MS. unfold stored in MS. rewrite Hh in MS. pose proof (moff_mono T t (b + 1) n ltac:(lia)) as MM.
    rewrite (in_block32 T t b strict (mp_bits r) (moff T t b) (i mod 1024) (ts t 0 (1024 * b)) L3 ltac:(lia) ltac:(lia) ltac:(unfold blen; lia) ltac:(lia) ltac:(lia) (P2 b ltac:(lia) Hh)). destruct (bad strict (moff T t b)); [reflexivity|]. f_equal. replace i with (1024 * b + i mod 1024) at 2 by lia. rewrite <- ts_split by lia.
    pose proof (ts_bound t 0 (1024 * b + i mod 1024) ltac:(lia)). apply wrap_small. lia.
  - intros En -> Hbl. assert (Ei : i = 1024 * n) by lia. replace (i mod 1024) with 0 by lia. rewrite En in TB |- *. rewrite <- Ei in TB |- *. unfold answer232.
    assert (WR : u32 (ts t 0 i) = ts t 0 i) by (apply wrap_small; lia).
    destruct (Z.land (u32 (x - ts t 0 i)) 1023 =? 0).
    { f_equal. rewrite Z.mul_0_l. change (u32 0) with 0. rewrite Z.add_0_r. exact WR. }
    pose proof (moff_mono T t 0 (n - 1) ltac:(lia)) as Mn. rewrite moff_0 in Mn. pose proof (moff_mono T t (n - 1) n ltac:(lia)) as Mn1.
    replace (po T t n) with (moff T t (n - 1)) by (unfold po; fold n; f_equal; lia). set (p := moff T t (n - 1)) in *.
    assert (CB : forall q, p <= q <= p + 16 -> count_bytes32 false (mp_bits r) q 0 (ts t 0 i) = Ok (ts t 0 i)).
    { intros q Hq. rewrite count_bytes32_ok by (auto; try lia; change (0 / 64) with 0; lia). cbn [bad andb]. rewrite Z.add_0_r, ts_empty, Z.add_0_r. f_equal. exact WR. }
    assert (SB : exists q, skip_pairs32 T f false (mp_bits r) p 0 (ts t 0 i) = Ok (q, 0, ts t 0 i) /\ p <= q <= p + 16).
    { assert (LW : forall k, p <= k <= p + 8 -> load_word false (mp_bits r) k = Ok (rd 8 (mp_bits r) k)) by (intros; rewrite load_word_ok by lia; reflexivity).
      assert (M3 : forall w, popcount (Z.land w 0) = 0) by (intros w; rewrite Z.land_0_r; reflexivity).
      assert (S1 : forall o, skip_one32 o false (mp_bits r) p 0 (ts t 0 i) = Ok (p + 8, 0, ts t 0 i)).
      { intros o. unfold skip_one32. rewrite LW by lia. cbn [bind]. change (0 / 16) with 0. change (0 mod 16) with 0. change (geti MrMpe.masks2 0) with (@Ok Z (2 ^ 63)). change (geti masks3 0) with (@Ok Z 0). cbn [bind]. rewrite !M3.
        destruct (Z.land (rd 8 (mp_bits r) p) (2 ^ 63) >? 0), o; cbn [andb]; rewrite ?Z.add_0_r, ?Z.mul_0_r, ?WR; rewrite ?Z.add_0_r, ?Z.mul_0_r, ?WR; reflexivity. }
      assert (S2 : skip_both32 false (mp_bits r) p 0 (ts t 0 i) = Ok (p + 16, 0, ts t 0 i)).
      { unfold skip_both32. rewrite !LW by lia. cbn [bind]. change (0 / 16) with 0. change (0 mod 16) with 0. change (geti MrMpe.masks2 0) with (@Ok Z (2 ^ 63)). change (geti masks3 0) with (@Ok Z 0). cbn [bind]. rewrite !M3.
        destruct (Z.land (rd 8 (mp_bits r) p) (2 ^ 63) >? 0), (Z.land (rd 8 (mp_bits r) (p + 8)) (2 ^ 63) >? 0); cbn [andb]; rewrite ?Z.add_0_r, ?Z.mul_0_r, ?WR; rewrite ?Z.add_0_r, ?Z.mul_0_r, ?WR; reflexivity. }
      unfold skip_pairs32. destruct T.
      - destruct (f =? 0); eexists; (split; [first [reflexivity|exact S2]|lia]).
      - destruct (f =? 1); [eexists; split; [apply S1|lia]|]. destruct (f =? 2); [eexists; split; [apply S1|lia]|]. destruct (f =? 3); eexists; (split; [first [reflexivity|exact S2]|lia]).
      - destruct (f =? 1); [eexists; split; [apply S1|lia]|]. destruct (f =? 2); [eexists; split; [apply S1|lia]|]. destruct (f =? 3); eexists; (split; [first [reflexivity|exact S2]|lia]). }
    destruct SB as (q & -> & Hq). cbn [bind]. apply CB. exact Hq.
Qed.
