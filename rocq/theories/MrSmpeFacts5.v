(** The headers of SelectMPE64. *)
From Coq Require Import ZifyBool.
From Verif Require Import Base BaseFacts Mem MemFacts Words WordFacts BlockFacts NodeFacts Trees TreeBuild Spec BitmapFacts KernelFacts SpecPoppy PoppyFacts PoppyFacts2 SpecText MrRank MrRankFacts MrRankFacts2 MrRankFacts3 MrSelect MrSelectFacts MrSelectFacts6 MrMpe MrMpeFacts2 MrMpeFacts3 MrMpeFacts5 MrSmpe MrSmpeFacts2.
Ltac Zify.zify_post_hook ::= Z.div_mod_to_equations.

(** ** Fields *)
Definition lane16 (w l : Z) : Z := (w / 2 ^ (16 * l)) mod 2 ^ 16.

Definition near_mask (M : mpe_type) : Z := match M with MPE1 => 2 ^ 14 | _ => 2 ^ 12 end.
Definition far_mask (M : mpe_type) : Z := match M with MPE1 => 2 ^ 15 | _ => 2 ^ 14 end.
Definition flag_unit (M : mpe_type) : Z := match M with MPE1 => 2 ^ 15 | _ => 2 ^ 14 end.

Ltac four from := assert (CC : from mod 4 = 0 \/ from mod 4 = 1 \/ from mod 4 = 2 \/ from mod 4 = 3) by lia; destruct CC as [CC|[CC|[CC|CC]]].

Lemma sparse_lane M w from : 0 <= w < 2 ^ 64 -> 1 <= from <= 15 -> sparse_offset M w from = lane16 w ((from - 1) mod 4) mod (if from <=? 4 then near_mask M else 2 ^ 16).
Proof.
  intros Hw Hf. unfold sparse_offset, lane16, near_mask.
  assert (LA : forall x, Z.land x 0x3FFF = x mod 2 ^ 14) by (intros x; change 0x3FFF with (Z.ones 14); apply Z.land_ones; lia).
  assert (LB : forall x, Z.land x 0x0FFF = x mod 2 ^ 12) by (intros x; change 0x0FFF with (Z.ones 12); apply Z.land_ones; lia).
  assert (LC : forall x, Z.land x 0xFFFF = x mod 2 ^ 16) by (intros x; change 0xFFFF with (Z.ones 16); apply Z.land_ones; lia).
  assert (MM : forall x, (x mod 2 ^ 16) mod 2 ^ 16 = x mod 2 ^ 16 /\ (x mod 2 ^ 16) mod 2 ^ 14 = x mod 2 ^ 14 /\ (x mod 2 ^ 16) mod 2 ^ 12 = x mod 2 ^ 12) by (clear; intros x; lia).
  four from; rewrite CC.
  - replace ((from - 1) mod 4) with 3 by (clear - CC; lia). change (16 * 3) with 48. rewrite Z.shiftr_div_pow2 by lia.
    destruct (MM (w / 2 ^ 48)) as (M1 & M2 & M3). destruct (from <=? 4), M; rewrite ?LA, ?LB; rewrite ?M1, ?M2, ?M3; try reflexivity; clear - Hw; lia.
  - replace ((from - 1) mod 4) with 0 by (clear - CC; lia). change (16 * 0) with 0. change (2 ^ 0) with 1. rewrite Z.div_1_r.
    destruct (MM w) as (M1 & M2 & M3). destruct (from <=? 4), M; rewrite ?LA, ?LB, ?LC; rewrite ?M1, ?M2, ?M3; reflexivity.
  - replace ((from - 1) mod 4) with 1 by (clear - CC; lia). change (16 * 1) with 16. rewrite Z.shiftr_div_pow2 by lia.
    destruct (MM (w / 2 ^ 16)) as (M1 & M2 & M3). destruct (from <=? 4), M; rewrite ?LA, ?LB, ?LC; rewrite ?M1, ?M2, ?M3; reflexivity.
  - replace ((from - 1) mod 4) with 2 by (clear - CC; lia). change (16 * 2) with 32. rewrite Z.shiftr_div_pow2 by lia.
    destruct (MM (w / 2 ^ 32)) as (M1 & M2 & M3). destruct (from <=? 4), M; rewrite ?LA, ?LB, ?LC; rewrite ?M1, ?M2, ?M3; reflexivity.
Qed.

Lemma dense_lane M w from : 0 <= w < 2 ^ 64 -> 1 <= from <= 15 ->
  dense_offset M w from = (lane16 w ((from - 1) mod 4) mod (if from <=? 4 then near_mask M else far_mask M), lane16 w ((from - 1) mod 4) / flag_unit M).
Proof.
  intros Hw Hf. unfold dense_offset, lane16, near_mask, far_mask, flag_unit.
  assert (LA : forall x, Z.land x 0x3FFF = x mod 2 ^ 14) by (intros x; change 0x3FFF with (Z.ones 14); apply Z.land_ones; lia).
  assert (LB : forall x, Z.land x 0x0FFF = x mod 2 ^ 12) by (intros x; change 0x0FFF with (Z.ones 12); apply Z.land_ones; lia).
  assert (LC : forall x, Z.land x 0x7FFF = x mod 2 ^ 15) by (intros x; change 0x7FFF with (Z.ones 15); apply Z.land_ones; lia).
  assert (LD : forall x, Z.land x 1 = x mod 2) by (intros x; change 1 with (Z.ones 1); rewrite Z.land_ones by lia; reflexivity).
  assert (LE : forall x, Z.land x 3 = x mod 4) by (intros x; change 3 with (Z.ones 2); rewrite Z.land_ones by lia; reflexivity).
  assert (MM : forall x, (x mod 2 ^ 16) mod 2 ^ 14 = x mod 2 ^ 14 /\ (x mod 2 ^ 16) mod 2 ^ 12 = x mod 2 ^ 12 /\ (x mod 2 ^ 16) mod 2 ^ 15 = x mod 2 ^ 15) by (clear; intros x; lia).
  four from; rewrite CC.
  - replace ((from - 1) mod 4) with 3 by (clear - CC; lia). change (16 * 3) with 48. rewrite !Z.shiftr_div_pow2 by lia.
    destruct (MM (w / 2 ^ 48)) as (M1 & M2 & M3). destruct (from <=? 4), M; rewrite ?LA, ?LB, ?LC; rewrite ?M1, ?M2, ?M3; f_equal; clear - Hw; lia.
  - replace ((from - 1) mod 4) with 0 by (clear - CC; lia). change (16 * 0) with 0. change (2 ^ 0) with 1. rewrite Z.div_1_r. rewrite !Z.shiftr_div_pow2 by lia.
    destruct (MM w) as (M1 & M2 & M3). destruct (from <=? 4), M; rewrite ?LA, ?LB, ?LC, ?LD, ?LE; rewrite ?M1, ?M2, ?M3; f_equal; clear - Hw; lia.
  - replace ((from - 1) mod 4) with 1 by (clear - CC; lia). change (16 * 1) with 16. rewrite !Z.shiftr_div_pow2 by lia.
    destruct (MM (w / 2 ^ 16)) as (M1 & M2 & M3). destruct (from <=? 4), M; rewrite ?LA, ?LB, ?LC, ?LD, ?LE; rewrite ?M1, ?M2, ?M3; f_equal; clear - Hw; lia.
  - replace ((from - 1) mod 4) with 2 by (clear - CC; lia). change (16 * 2) with 32. rewrite !Z.shiftr_div_pow2 by lia.
    destruct (MM (w / 2 ^ 32)) as (M1 & M2 & M3). destruct (from <=? 4), M; rewrite ?LA, ?LB, ?LC, ?LD, ?LE; rewrite ?M1, ?M2, ?M3; f_equal; clear - Hw; lia.
Qed.

(** The word of four fields [X] and what is added to the first word. *)
Definition fieldw (X : Z -> Z) (k H : Z) : Z := u64 (lw X k + 2 ^ 60 * H).

Lemma fieldw_bound X k H : 0 <= fieldw X k H < 2 ^ 64.
Proof. apply (wrap_bound 64). lia. Qed.

Lemma field_lane X k H j : (forall j, 0 <= X j) -> 0 <= k <= 3 -> 0 <= j < 15 -> k = j / 4 -> 0 <= H -> (H = 0 \/ k = 0) -> (forall i, 0 <= i < j -> X i < 2 ^ 16) ->
  lane16 (fieldw X k H) (j mod 4) = (X j + (if j mod 4 =? 3 then 2 ^ 12 * H else 0)) mod 2 ^ 16.
Proof.
  intros HX Hk Hj Ek HH _ Hb. unfold fieldw, wrap, lane16. destruct (lw_four X k HX) as (V3 & V30 & V3a & V3b & ->). rewrite Zplus_mod_idemp_l.
  pose proof (HX (4 * k)) as A0. pose proof (HX (4 * k + 1)) as A1. pose proof (HX (4 * k + 2)) as A2.
  four j; rewrite CC.
  - replace (0 =? 3) with false by reflexivity. change (16 * 0) with 0. replace (X j) with (X (4 * k)) by (f_equal; clear - Ek CC; lia).
    set (a := X (4 * k)) in *. set (b := X (4 * k + 1)) in *. set (c := X (4 * k + 2)) in *. clearbody a b c. clear - A0 A1 A2 V30 HH. lia.
  - replace (1 =? 3) with false by reflexivity. change (16 * 1) with 16. replace (X j) with (X (4 * k + 1)) by (f_equal; clear - Ek CC; lia). pose proof (Hb (4 * k) ltac:(clear - Ek CC Hk Hj; lia)) as B0.
    set (a := X (4 * k)) in *. set (b := X (4 * k + 1)) in *. set (c := X (4 * k + 2)) in *. clearbody a b c. clear - A0 A1 A2 B0 V30 HH. lia.
  - replace (2 =? 3) with false by reflexivity. change (16 * 2) with 32. replace (X j) with (X (4 * k + 2)) by (f_equal; clear - Ek CC; lia). pose proof (Hb (4 * k) ltac:(clear - Ek CC Hk Hj; lia)) as B0. pose proof (Hb (4 * k + 1) ltac:(clear - Ek CC Hk Hj; lia)) as B1.
    set (a := X (4 * k)) in *. set (b := X (4 * k + 1)) in *. set (c := X (4 * k + 2)) in *. clearbody a b c. clear - A0 A1 A2 B0 B1 V30 HH. lia.
  - replace (3 =? 3) with true by reflexivity. change (16 * 3) with 48. replace (X j) with (X (4 * k + 3)) by (f_equal; clear - Ek CC; lia).
    pose proof (Hb (4 * k) ltac:(clear - Ek CC Hk Hj; lia)) as B0. pose proof (Hb (4 * k + 1) ltac:(clear - Ek CC Hk Hj; lia)) as B1. pose proof (Hb (4 * k + 2) ltac:(clear - Ek CC Hk Hj; lia)) as B2.
    rewrite <- V3a by (clear - Ek CC Hj; lia).
    set (a := X (4 * k)) in *. set (b := X (4 * k + 1)) in *. set (c := X (4 * k + 2)) in *. clearbody a b c. clear - A0 A1 A2 B0 B1 B2 V30 HH. lia.
Qed.

(** The flag of the first block of a superblock. *)
Lemma field_first M X D G H : (forall j, 0 <= j < 4 -> X j = D j + 2 ^ 14 * G j /\ 0 <= D j <= 15000 /\ 0 <= G j <= 255) -> (M <> MPE1 -> D 3 <= 4000 \/ (D 3 <= 4095 /\ forall j, 0 <= j < 3 -> D j <= 4095 /\ G j <= 3)) -> 0 <= H ->
  (forall j, 0 <= X j) -> (M = MPE1 -> H mod 4 = 0 /\ G 3 mod 2 = 0) ->
  first_flag M (fieldw X 0 H) = match M with MPE1 => (H / 4) mod 2 | _ => H mod 4 end.
Proof.
  intros HD HS HH HN H1. unfold first_flag, fieldw, wrap. destruct (lw_four X 0 HN) as (V3 & V30 & V3a & _ & ->). rewrite Zplus_mod_idemp_l.
  specialize (V3a ltac:(lia)). change (4 * 0) with 0 in *. rewrite Z.add_0_l in *.
  pose proof (HD 0 ltac:(lia)) as [E0 D0]. pose proof (HD 1 ltac:(lia)) as [E1 D1]. pose proof (HD 2 ltac:(lia)) as [E2 D2]. pose proof (HD 3 ltac:(lia)) as [E3 D3].
  assert (LA : forall x, Z.land x 1 = x mod 2) by (intros x; change 1 with (Z.ones 1); rewrite Z.land_ones by lia; reflexivity).
  assert (LB : forall x, Z.land x 3 = x mod 4) by (intros x; change 3 with (Z.ones 2); rewrite Z.land_ones by lia; reflexivity).
  assert (SS2 : M <> MPE1 -> D 3 <= 4000 \/ (D 3 <= 4095 /\ (D 0 <= 4095 /\ G 0 <= 3) /\ (D 1 <= 4095 /\ G 1 <= 3) /\ (D 2 <= 4095 /\ G 2 <= 3))).
  { intros E. destruct (HS E) as [Q|[Q1 Q2]]; [left; exact Q|right]. pose proof (Q2 0 ltac:(lia)). pose proof (Q2 1 ltac:(lia)). pose proof (Q2 2 ltac:(lia)). auto. }
  change (0 + 1) with 1 in *. change (0 + 2) with 2 in *. change (0 + 3) with 3 in *. rewrite E0, E1, E2, V3a, E3.
  set (a := D 0) in *. set (b := D 1) in *. set (c := D 2) in *. set (d := D 3) in *. set (e := G 0) in *. set (f := G 1) in *. set (g := G 2) in *. set (h := G 3) in *. clearbody a b c d e f g h. clear HD HS HN E0 E1 E2 E3 V3a V30.
  destruct M; rewrite ?LA, ?LB, ?Z.shiftr_div_pow2 by lia.
  - destruct (H1 eq_refl) as [P1 P2]. clear - D0 D1 D2 D3 HH P1 P2. lia.
  - specialize (SS2 ltac:(discriminate)). clear - D0 D1 D2 D3 HH SS2. lia.
  - specialize (SS2 ltac:(discriminate)). clear - D0 D1 D2 D3 HH SS2. lia.
Qed.

(** ** A superblock *)
Definition xat (M : mpe_type) (jf : Z -> Z) (temp btc : list Z) (s j : Z) : Z :=
  u64 (u64 (zn 0 temp (2 * (16 * s + j + 1) + 1) - zn 0 temp (32 * s + 1)) + flag_in_offset M (btcv jf btc (16 * s + j + 1))).
Definition super3P (M : mpe_type) (jf : Z -> Z) (temp btc : list Z) (s : Z) (v : list Z) : Prop :=
  zlen v = 21 /\ (forall k, 0 <= k < 16 -> zn 0 v k = zn 0 temp (2 * (16 * s + k))) /\ zn 0 v 16 = zn 0 temp (32 * s + 1) /\
  forall w, 0 <= w < 4 -> zn 0 v (17 + w) = fieldw (xat M jf temp btc s) w (if w =? 0 then hof M (btcv jf btc (16 * s)) else 0).

Lemma super3_ok M strict jf temp btc s : (strict = true -> 16 * s + 16 <= zlen btc) -> 0 <= s -> 32 * (s + 1) <= zlen temp ->
  exists v, super3 M strict jf temp btc s = Ok v /\ super3P M jf temp btc s v.
Proof.
  intros HB Hs Ht. unfold super3.
  assert (Z0 : forall k, 0 <= k < 21 -> zn 0 (repeat 0 21) k = 0) by (intros k Hk; unfold zn; rewrite nth_repeat; reflexivity).
  match goal with |- context [foldM ?g (zrange 0 16) ?v0] => destruct (foldM_inv g (fun j v => zlen v = 21 /\ forall k, 0 <= k < 21 -> zn 0 v k = if k <? j then zn 0 temp (2 * (16 * s + k)) else 0) 16 0 v0) as (v1 & E1 & L1 & P1) end.
  - split; [reflexivity|]. intros k Hk. rewrite Z0 by lia. replace (k <? 0) with false by lia. reflexivity.
  - intros j v Hj (L & V). change (0 + Z.of_nat 16) with 16 in Hj. rewrite geti_ok by lia. cbn [bind]. rewrite seti_ok by lia. eexists. split; [reflexivity|].
    rewrite zlen_upd. split; [exact L|]. intros k Hk. rewrite zn_upd by lia. destruct (k =? j) eqn:E.
    + replace (k <? j + 1) with true by lia. do 3 f_equal. lia.
    + rewrite V by lia. replace (k <? j + 1) with (k <? j) by lia. reflexivity.
  - rewrite E1. change (0 + Z.of_nat 16) with 16 in P1. cbn [bind]. rewrite geti_ok by lia. cbn [bind]. replace (2 * (16 * s) + 1) with (32 * s + 1) by lia.
    rewrite seti_ok by lia. cbn [bind].
    match goal with |- context [foldM ?g (zrange 0 15) ?v0] => destruct (foldM_inv g (fun j v => zlen v = 21 /\ (forall k, 0 <= k < 16 -> zn 0 v k = zn 0 temp (2 * (16 * s + k))) /\ zn 0 v 16 = zn 0 temp (32 * s + 1) /\
        forall w, 0 <= w < 4 -> zn 0 v (17 + w) = u64 (sumf (fun l => xat M jf temp btc s (4 * w + l) * 2 ^ (16 * l)) 0 (clamp (j - 4 * w)))) 15 0 v0) as (v2 & E2 & L2 & Q1 & Q2 & Q3) end.
    + rewrite zlen_upd. split; [exact L1|]. split; [|split].
      * intros k Hk. rewrite zn_upd by lia. replace (k =? 16) with false by lia. rewrite P1 by lia. replace (k <? 16) with true by lia. reflexivity.
      * rewrite zn_upd by lia. reflexivity.
      * intros w Hw. rewrite zn_upd by lia. replace (17 + w =? 16) with false by lia. rewrite P1 by lia. replace (17 + w <? 16) with false by lia.
        rewrite sumf_empty; [reflexivity|unfold clamp; lia].
    + intros j v Hj (L & V1 & V2 & V3). change (0 + Z.of_nat 15) with 15 in Hj. rewrite geti_ok by lia. cbn [bind]. rewrite read_btc_ok by (first [lia|intros Q; specialize (HB Q); lia]). cbn [bind]. rewrite geti_ok by lia. cbn [bind]. rewrite seti_ok by lia.
      eexists. split; [reflexivity|]. rewrite zlen_upd. split; [exact L|]. split; [|split].
      * intros k Hk. rewrite zn_upd by lia. replace (k =? 17 + j / 4) with false by lia. apply V1. lia.
      * rewrite zn_upd by lia. replace (16 =? 17 + j / 4) with false by lia. exact V2.
      * intros w Hw. rewrite zn_upd by lia. destruct (17 + w =? 17 + j / 4) eqn:E; [|rewrite V3 by lia; f_equal; f_equal; unfold clamp; lia].
        replace (j / 4) with w by lia. rewrite V3 by lia. rewrite wrap_add_l.
        replace (clamp (j - 4 * w)) with (j mod 4) by (unfold clamp; lia). replace (clamp (j + 1 - 4 * w)) with (j mod 4 + 1) by (unfold clamp; lia).
        rewrite sumf_succ by lia. f_equal. f_equal. rewrite Z.shiftl_mul_pow2 by lia. replace (4 * w + j mod 4) with j by lia. reflexivity.
    + change (0 + Z.of_nat 15) with 15 in *. rewrite E2. cbn [bind]. rewrite read_btc_ok by (first [lia|intros Q; specialize (HB Q); lia]). cbn [bind]. rewrite geti_ok by lia. cbn [bind]. rewrite seti_ok by lia.
      eexists. split; [reflexivity|]. unfold super3P. rewrite zlen_upd. split; [exact L2|]. split; [|split].
      * intros k Hk. rewrite zn_upd by lia. replace (k =? 17) with false by lia. auto.
      * rewrite zn_upd by lia. replace (16 =? 17) with false by lia. exact Q2.
      * intros w Hw. rewrite zn_upd by lia. unfold fieldw. assert (LW : lw (xat M jf temp btc s) w = u64 (sumf (fun l => xat M jf temp btc s (4 * w + l) * 2 ^ (16 * l)) 0 (clamp (15 - 4 * w)))).
        { unfold lw. do 2 f_equal. unfold clamp. destruct (w =? 3) eqn:E; lia. }
        destruct (w =? 0) eqn:EW.
        -- assert (w = 0) by lia. subst w. replace (17 + 0 =? 17) with true by lia. rewrite <- hof_in. f_equal. rewrite LW. rewrite <- Q3 by lia. reflexivity.
        -- replace (17 + w =? 17) with false by lia. rewrite Q3 by lia. rewrite LW, Z.mul_0_r, Z.add_0_r. unfold wrap. rewrite Zmod_mod. reflexivity.
Qed.

Definition super3arr (M : mpe_type) (jf : Z -> Z) (temp btc arr : list Z) (n : Z) : Prop :=
  forall s, 0 <= s < n -> exists v, super3P M jf temp btc s v /\ forall k, 0 <= k < 21 -> zn 0 arr (21 * s + k) = zn 0 v k.

Lemma supers3_ok M strict jf temp btc arr0 n : (strict = true -> 16 * n <= zlen btc) -> 0 <= n -> 32 * n <= zlen temp -> 21 * n <= zlen arr0 ->
  exists arr, foldM (fun arr s => let* v := super3 M strict jf temp btc s in put_words arr (21 * s) v) (zrange 0 (Z.to_nat n)) arr0 = Ok arr /\ zlen arr = zlen arr0 /\ super3arr M jf temp btc arr n.
Proof.
  intros HB Hn Ht Ha. destruct (foldM_inv (fun arr s => let* v := super3 M strict jf temp btc s in put_words arr (21 * s) v) (fun j arr => zlen arr = zlen arr0 /\ super3arr M jf temp btc arr j) (Z.to_nat n) 0 arr0) as (arr & E & L & Q).
  - split; [reflexivity|]. intros s Hs. lia.
  - intros j arr Hj (L & Q). destruct (super3_ok M strict jf temp btc j) as (v & -> & PV); [intros Q0; specialize (HB Q0); lia|lia|lia|]. cbn [bind]. pose proof PV as (LV & _).
    destruct (put_words_ok arr (21 * j) v ltac:(lia) ltac:(lia)) as (arr' & -> & L' & Q'). exists arr'. split; [reflexivity|]. split; [lia|].
    intros s Hs. destruct (Z.eq_dec s j) as [->|NE].
    + exists v. split; [exact PV|]. intros k Hk. rewrite Q' by lia. replace ((21 * j <=? 21 * j + k) && (21 * j + k <? 21 * j + zlen v)) with true by lia. f_equal. lia.
    + destruct (Q s ltac:(lia)) as (v' & PV' & W). exists v'. split; [exact PV'|]. intros k Hk. rewrite Q' by lia.
      replace ((21 * j <=? 21 * s + k) && (21 * s + k <? 21 * j + zlen v)) with false by lia. apply W. lia.
  - exists arr. split; [exact E|]. split; [exact L|]. replace (0 + Z.of_nat (Z.to_nat n)) with n in Q by lia. exact Q.
Qed.
