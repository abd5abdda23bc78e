(** RankMPE64: queries. *)
From Coq Require Import ZifyBool.
From Verif Require Import Base BaseFacts Words WordFacts BlockFacts NodeFacts Trees TreeBuild Mem MemFacts Spec BitmapFacts KernelFacts SpecPoppy PoppyFacts PoppyFacts2 SpecText MrRank MrRankFacts MrRankFacts2 MrRankFacts3 MrMpe SpecMpe MrMpeFacts MrMpeFacts2 MrMpeFacts3 MrMpeFacts4.
Ltac Zify.zify_post_hook ::= Z.div_mod_to_equations.

(** ** Fields *)
Lemma lw_four d k : (forall j, 0 <= d j) -> exists V3, 0 <= V3 /\ (k <> 3 -> V3 = d (4 * k + 3)) /\ (k = 3 -> V3 = 0) /\
  lw d k = (d (4 * k) + d (4 * k + 1) * 2 ^ 16 + d (4 * k + 2) * 2 ^ 32 + V3 * 2 ^ 48) mod 2 ^ 64.
Proof.
  intros Hd. unfold lw, wrap. destruct (k =? 3) eqn:E; [exists 0|exists (d (4 * k + 3))]; (split; [auto; lia|]); (split; [auto; lia|]); (split; [auto; lia|]).
  - replace (sumf _ 0 3) with (d (4 * k + 0) * 2 ^ (16 * 0) + (d (4 * k + 1) * 2 ^ (16 * 1) + (d (4 * k + 2) * 2 ^ (16 * 2) + 0))) by reflexivity.
    rewrite !Z.add_0_r. f_equal. change (16 * 0) with 0. change (16 * 1) with 16. change (16 * 2) with 32. ring.
  - replace (sumf _ 0 4) with (d (4 * k + 0) * 2 ^ (16 * 0) + (d (4 * k + 1) * 2 ^ (16 * 1) + (d (4 * k + 2) * 2 ^ (16 * 2) + (d (4 * k + 3) * 2 ^ (16 * 3) + 0)))) by reflexivity.
    rewrite !Z.add_0_r. f_equal. change (16 * 0) with 0. change (16 * 1) with 16. change (16 * 2) with 32. change (16 * 3) with 48. ring.
Qed.

Lemma get_lw d j : (forall j, 0 <= d j) -> 0 <= j <= 14 -> (forall i, 0 <= i <= j -> d i < 65536) -> get_lane (lw d (j / 4)) (j mod 4) = d j.
Proof.
  intros Hd Hj Hb. set (k := j / 4). destruct (lw_four d k Hd) as (V3 & V30 & V3e & _ & ->). unfold get_lane.
  pose proof (Hd (4 * k)) as A0. pose proof (Hd (4 * k + 1)) as A1. pose proof (Hd (4 * k + 2)) as A2. pose proof (Hb (4 * k) ltac:(lia)) as B0.
  change 0xFFFF with (Z.ones 16). rewrite Z.land_ones, !Z.shiftr_div_pow2 by lia.
  assert (C : j mod 4 = 0 \/ j mod 4 = 1 \/ j mod 4 = 2 \/ j mod 4 = 3) by lia.
  destruct C as [C|[C|[C|C]]]; rewrite C.
  - change (0 =? 3) with false. cbv iota. replace (d j) with (d (4 * k)) by (f_equal; lia).
    set (a := d (4 * k)) in *. set (b := d (4 * k + 1)) in *. set (c := d (4 * k + 2)) in *. clearbody a b c. clear - A0 A1 A2 B0 V30. lia.
  - change (1 =? 3) with false. cbv iota. pose proof (Hb (4 * k + 1) ltac:(lia)) as B1. replace (d j) with (d (4 * k + 1)) by (f_equal; lia).
    set (a := d (4 * k)) in *. set (b := d (4 * k + 1)) in *. set (c := d (4 * k + 2)) in *. clearbody a b c. clear - A0 A1 A2 B0 B1 V30. lia.
  - change (2 =? 3) with false. cbv iota. pose proof (Hb (4 * k + 1) ltac:(lia)) as B1. pose proof (Hb (4 * k + 2) ltac:(lia)) as B2. replace (d j) with (d (4 * k + 2)) by (f_equal; lia).
    set (a := d (4 * k)) in *. set (b := d (4 * k + 1)) in *. set (c := d (4 * k + 2)) in *. clearbody a b c. clear - A0 A1 A2 B0 B1 B2 V30. lia.
  - change (3 =? 3) with true. cbv iota. pose proof (Hb (4 * k + 1) ltac:(lia)) as B1. pose proof (Hb (4 * k + 2) ltac:(lia)) as B2. pose proof (Hb (4 * k + 3) ltac:(lia)) as B3.
    specialize (V3e ltac:(lia)). replace (d j) with (d (4 * k + 3)) by (f_equal; lia). rewrite <- V3e in B3 |- *.
    set (a := d (4 * k)) in *. set (b := d (4 * k + 1)) in *. set (c := d (4 * k + 2)) in *. clearbody a b c. clear - A0 A1 A2 B0 B1 B2 B3 V30. lia.
Qed.

(** The word of four offsets [D] with flags [G] and, in the first, that of the first block [H]. *)
Definition offw (D G : Z -> Z) (k H : Z) : Z :=
  (D (4 * k) + 2 ^ 14 * G (4 * k) + (D (4 * k + 1) + 2 ^ 14 * G (4 * k + 1)) * 2 ^ 16 + (D (4 * k + 2) + 2 ^ 14 * G (4 * k + 2)) * 2 ^ 32
   + (if k =? 3 then 0 else D (4 * k + 3) + 2 ^ 14 * G (4 * k + 3)) * 2 ^ 48 + 2 ^ 60 * H) mod 2 ^ 64.
Definition unit_of (T : mpe_type) : Z := match T with MPE1 => 2 | _ => 1 end.
(** A block's flag, as the fields hold it. *)
Definition gof (T : mpe_type) (f : Z) : Z := match T with MPE1 => if f =? 0 then 0 else 2 | _ => f end.
Definition hof (T : mpe_type) (f : Z) : Z := match T with MPE1 => if f =? 0 then 0 else 4 | _ => f mod 16 end.
Lemma gof_in T f : flag_in_offset T f = 2 ^ 14 * gof T f.
Proof. destruct T; unfold flag_in_offset, gof; [destruct (f =? 0); reflexivity|..]; rewrite Z.shiftl_mul_pow2 by lia; lia. Qed.
Lemma hof_in T f : flag_of_first T f = 2 ^ 60 * hof T f.
Proof. destruct T; unfold flag_of_first, hof; [destruct (f =? 0); reflexivity|..]; rewrite Z.shiftl_mul_pow2 by lia; unfold wrap; lia. Qed.

Lemma offw_field T D G k H num : 0 <= k <= 3 -> 1 <= num <= 15 -> k = (num - 1) / 4 ->
  (forall j, 0 <= j < 15 -> 0 <= D j <= 1920 /\ 0 <= G j) -> (forall j, 0 <= j < num - 1 -> G j <= 3) -> 0 <= H -> (T = MPE1 -> H mod 4 = 0 /\ forall j, 0 <= j < 15 -> G j mod 2 = 0) ->
  fst (offset_field T (offw D G k H) num) = D (num - 1) /\
  0 <= snd (offset_field T (offw D G k H) num) <= 3 /\
  (G (num - 1) <= 3 -> (T = MPE1 -> H <= 4 /\ G (num - 1) <= 2 ) -> (T <> MPE1 -> H <= 3) -> snd (offset_field T (offw D G k H) num) = G (num - 1) / unit_of T).
Proof.
  intros Hk Hn Ek HD HG HH H1. unfold offset_field. set (j := num - 1) in *.
  pose proof (HD (4 * k) ltac:(lia)) as [D0 G0]. pose proof (HD (4 * k + 1) ltac:(lia)) as [D1 G1]. pose proof (HD (4 * k + 2) ltac:(lia)) as [D2 G2].
  assert (D3 : k <> 3 -> 0 <= D (4 * k + 3) <= 1920 /\ 0 <= G (4 * k + 3)) by (intros; apply HD; lia).
  assert (P : T = MPE1 -> H mod 4 = 0 /\ G (4 * k) mod 2 = 0 /\ G (4 * k + 1) mod 2 = 0 /\ G (4 * k + 2) mod 2 = 0 /\ (k <> 3 -> G (4 * k + 3) mod 2 = 0)).
  { intros E. destruct (H1 E) as [Q1 Q2]. split; [exact Q1|]. repeat split; [..|intros]; apply Q2; lia. }
  assert (C : num mod 4 = 1 /\ j = 4 * k \/ num mod 4 = 2 /\ j = 4 * k + 1 \/ num mod 4 = 3 /\ j = 4 * k + 2 \/ num mod 4 = 0 /\ j = 4 * k + 3 /\ k <> 3) by lia.
  assert (L0 : 4 * k < j -> G (4 * k) <= 3) by (intros; apply HG; lia). assert (L1 : 4 * k + 1 < j -> G (4 * k + 1) <= 3) by (intros; apply HG; lia). assert (L2 : 4 * k + 2 < j -> G (4 * k + 2) <= 3) by (intros; apply HG; lia).
  unfold offw. set (V3 := if k =? 3 then 0 else D (4 * k + 3) + 2 ^ 14 * G (4 * k + 3)).
  change 0x3FFF with (Z.ones 14). change 0x0FFF with (Z.ones 12).
  assert (LA : forall x, Z.land x 1 = x mod 2) by (intros x; change 1 with (Z.ones 1); rewrite Z.land_ones by lia; reflexivity).
  assert (LB : forall x, Z.land x 3 = x mod 4) by (intros x; change 3 with (Z.ones 2); rewrite Z.land_ones by lia; reflexivity).
  assert (V30 : 0 <= V3) by (unfold V3; destruct (k =? 3) eqn:E3; [lia|specialize (D3 ltac:(lia)); lia]).
  destruct C as [[C Ej]|[[C Ej]|[[C Ej]|[C [Ej K3]]]]]; rewrite Ej in *; rewrite C.
  - clearbody V3. set (a := D (4 * k)) in *. set (b := D (4 * k + 1)) in *. set (c := D (4 * k + 2)) in *. set (e := G (4 * k)) in *. set (f := G (4 * k + 1)) in *. set (g := G (4 * k + 2)) in *. clearbody a b c e f g.
    destruct T; cbn [fst snd unit_of]; rewrite ?LA, ?LB; rewrite ?Z.land_ones, ?Z.shiftr_div_pow2 by lia; [specialize (P eq_refl)|clear P|clear P]; clear - D0 D1 D2 G0 G1 G2 L0 L1 L2 HH V30 P || clear - D0 D1 D2 G0 G1 G2 L0 L1 L2 HH V30; (split; [lia|split; [lia|intros; lia]]).
  - specialize (L0 ltac:(lia)). clearbody V3. set (a := D (4 * k)) in *. set (b := D (4 * k + 1)) in *. set (c := D (4 * k + 2)) in *. set (e := G (4 * k)) in *. set (f := G (4 * k + 1)) in *. set (g := G (4 * k + 2)) in *. clearbody a b c e f g.
    destruct T; cbn [fst snd unit_of]; rewrite ?LA, ?LB; rewrite ?Z.land_ones, ?Z.shiftr_div_pow2 by lia; [specialize (P eq_refl)|clear P|clear P]; clear - D0 D1 D2 G0 G1 G2 L0 L1 L2 HH V30 P || clear - D0 D1 D2 G0 G1 G2 L0 L1 L2 HH V30; (split; [lia|split; [lia|intros; lia]]).
  - specialize (L0 ltac:(lia)). specialize (L1 ltac:(lia)). clearbody V3. set (a := D (4 * k)) in *. set (b := D (4 * k + 1)) in *. set (c := D (4 * k + 2)) in *. set (e := G (4 * k)) in *. set (f := G (4 * k + 1)) in *. set (g := G (4 * k + 2)) in *. clearbody a b c e f g.
    destruct T; cbn [fst snd unit_of]; rewrite ?LA, ?LB; rewrite ?Z.land_ones, ?Z.shiftr_div_pow2 by lia; [specialize (P eq_refl)|clear P|clear P]; clear - D0 D1 D2 G0 G1 G2 L0 L1 L2 HH V30 P || clear - D0 D1 D2 G0 G1 G2 L0 L1 L2 HH V30; (split; [lia|split; [lia|intros; lia]]).
  - specialize (L0 ltac:(lia)). specialize (L1 ltac:(lia)). specialize (L2 ltac:(lia)). specialize (D3 K3). unfold V3 in *. replace (k =? 3) with false in * by lia. clear V3 V30.
    set (a := D (4 * k)) in *. set (b := D (4 * k + 1)) in *. set (c := D (4 * k + 2)) in *. set (d := D (4 * k + 3)) in *. set (e := G (4 * k)) in *. set (f := G (4 * k + 1)) in *. set (g := G (4 * k + 2)) in *. set (h := G (4 * k + 3)) in *. clearbody a b c d e f g h.
    destruct T; cbn [fst snd unit_of]; rewrite ?LA, ?LB; rewrite ?Z.land_ones, ?Z.shiftr_div_pow2 by lia.
    + destruct (P eq_refl) as (P0 & P1 & P2 & P3 & P4). specialize (P4 K3). split; [clear - D0 D1 D2 D3 G0 G1 G2 L0 L1 L2 HH P0 P1 P2 P3 P4; lia|split; [clear - D0 D1 D2 D3 G0 G1 G2 L0 L1 L2 HH; lia|]].
      intros Q1 Q2 _. destruct (Q2 eq_refl) as [Q3 Q4]. clear - D0 D1 D2 D3 G0 G1 G2 L0 L1 L2 HH P0 P4 Q3 Q4. lia.
    + split; [clear - D0 D1 D2 D3 G0 G1 G2 L0 L1 L2 HH; lia|split; [clear - D0 D1 D2 D3 G0 G1 G2 L0 L1 L2 HH; lia|]].
      intros Q1 _ Q2. specialize (Q2 ltac:(discriminate)). clear - D0 D1 D2 D3 G0 G1 G2 L0 L1 L2 HH Q1 Q2. lia.
    + split; [clear - D0 D1 D2 D3 G0 G1 G2 L0 L1 L2 HH; lia|split; [clear - D0 D1 D2 D3 G0 G1 G2 L0 L1 L2 HH; lia|]].
      intros Q1 _ Q2. specialize (Q2 ltac:(discriminate)). clear - D0 D1 D2 D3 G0 G1 G2 L0 L1 L2 HH Q1 Q2. lia.
Qed.

Lemma offw_first T D G H : (forall j, 0 <= j < 4 -> 0 <= D j <= 1920 /\ 0 <= G j <= 255) -> 0 <= H -> (T = MPE1 -> H mod 4 = 0 /\ forall j, 0 <= j < 4 -> G j mod 2 = 0) ->
  0 <= first_flag T (offw D G 0 H) <= 3 /\ first_flag T (offw D G 0 H) = match T with MPE1 => (H / 4) mod 2 | _ => H mod 4 end.
Proof.
  intros HD HH H1. unfold first_flag, offw. change (4 * 0) with 0. rewrite !Z.add_0_l. change (0 =? 3) with false. cbv iota.
  pose proof (HD 0 ltac:(lia)) as D0. pose proof (HD 1 ltac:(lia)) as D1. pose proof (HD 2 ltac:(lia)) as D2. pose proof (HD 3 ltac:(lia)) as D3.
  assert (LA : forall x, Z.land x 1 = x mod 2) by (intros x; change 1 with (Z.ones 1); rewrite Z.land_ones by lia; reflexivity).
  assert (LB : forall x, Z.land x 3 = x mod 4) by (intros x; change 3 with (Z.ones 2); rewrite Z.land_ones by lia; reflexivity).
  assert (P : T = MPE1 -> H mod 4 = 0 /\ G 3 mod 2 = 0) by (intros E; destruct (H1 E) as [Q1 Q2]; split; [exact Q1|apply Q2; lia]).
  set (a := D 0) in *. set (b := D 1) in *. set (c := D 2) in *. set (d := D 3) in *. set (e := G 0) in *. set (f := G 1) in *. set (g := G 2) in *. set (h := G 3) in *. clearbody a b c d e f g h.
  destruct T; rewrite ?LA, ?LB, ?Z.shiftr_div_pow2 by lia.
  - destruct (P eq_refl) as [P1 P2]. clear - D0 D1 D2 D3 HH P1 P2. split; lia.
  - clear - D0 D1 D2 D3 HH. split; lia.
  - clear - D0 D1 D2 D3 HH. split; lia.
Qed.

(** ** The header of a superblock *)
Definition dof (T : mpe_type) (t : list Z) (s j : Z) : Z := po T t (16 * s + j + 1) - po T t (16 * s).
Definition gat (T : mpe_type) (jf : Z -> Z) (btc : list Z) (s j : Z) : Z := gof T (btcv jf btc (16 * s + j + 1)).
Definition hat (T : mpe_type) (jf : Z -> Z) (btc : list Z) (s : Z) : Z := hof T (btcv jf btc (16 * s)).

Lemma btcv_byte jf btc k : byteful btc -> 0 <= btcv jf btc k < 256.
Proof. intros H. unfold btcv. destruct ((0 <=? k) && (k <? zlen btc)) eqn:E; [apply H; lia|]. apply (wrap_bound 8). lia. Qed.
Lemma gof_bound T f : 0 <= f < 256 -> 0 <= gof T f <= 255.
Proof. intros H. unfold gof. destruct T; [destruct (f =? 0)|..]; lia. Qed.
Lemma gof_even f : gof MPE1 f mod 2 = 0.
Proof. unfold gof. destruct (f =? 0); reflexivity. Qed.
Lemma hof_bound T f : 0 <= hof T f <= 15.
Proof. unfold hof. destruct T; [destruct (f =? 0)|..]; lia. Qed.
Lemma hof_four f : hof MPE1 f mod 4 = 0.
Proof. unfold hof. destruct (f =? 0); reflexivity. Qed.
Lemma code_bound T z o : 0 <= code T z o <= 3 /\ (T = MPE1 -> code T z o <= 1).
Proof. destruct T, z, o; cbn; split; intros; try lia; discriminate. Qed.

Lemma odiff_ok T jf t temp btc s j : zlen t < 2 ^ 58 -> 0 < nbig t -> tempM T t temp -> byteful btc -> 0 <= s <= nbig t / 16 -> 0 <= j < 15 ->
  odiff T jf temp btc s j = dof T t s j + 2 ^ 14 * gat T jf btc s j.
Proof.
  intros Hl Hn (L & T1 & T2) HB Hs Hj. unfold odiff. rewrite !T2 by lia. fold (dof T t s j). rewrite gof_in. fold (gat T jf btc s j).
  pose proof (po_mono T t (16 * s) (16 * s + j + 1) Hn ltac:(lia)) as M. pose proof (gof_bound T _ (btcv_byte jf btc (16 * s + j + 1) HB)) as G. fold (gat T jf btc s j) in G.
  fold (dof T t s j) in M. assert (D : 0 <= dof T t s j <= 1920) by (unfold dof; lia). rewrite (wrap_small 64 (dof T t s j)) by lia. apply wrap_small. lia.
Qed.

Lemma off_word T jf t temp btc s k : zlen t < 2 ^ 58 -> 0 < nbig t -> tempM T t temp -> byteful btc -> 0 <= s <= nbig t / 16 -> 0 <= k <= 3 ->
  mp_word T jf temp btc s (6 + k) = offw (dof T t s) (gat T jf btc s) k (if k =? 0 then hat T jf btc s else 0).
Proof.
  intros Hl Hn TM HB Hs Hk. assert (OD : forall j, 0 <= j < 15 -> odiff T jf temp btc s j = dof T t s j + 2 ^ 14 * gat T jf btc s j) by (intros; apply odiff_ok; auto).
  assert (LW : lw (odiff T jf temp btc s) k = offw (dof T t s) (gat T jf btc s) k 0).
  { destruct (lw_four (odiff T jf temp btc s) k) as (V3 & V30 & V3a & V3b & ->). { intros j. apply wrap_bound. lia. }
    unfold offw. rewrite !OD by lia. replace V3 with (if k =? 3 then 0 else dof T t s (4 * k + 3) + 2 ^ 14 * gat T jf btc s (4 * k + 3)).
    - rewrite Z.mul_0_r, Z.add_0_r. reflexivity.
    - destruct (k =? 3) eqn:E; [symmetry; apply V3b; lia|]. rewrite V3a by lia. symmetry. apply OD. lia. }
  unfold mp_word. replace (6 + k =? 0) with false by lia. replace (6 + k <=? 4) with false by lia. replace (6 + k =? 5) with false by lia.
  destruct (k =? 0) eqn:E.
  - replace (6 + k =? 6) with true by lia. replace 0 with k at 1 by lia. rewrite LW. rewrite hof_in. fold (hat T jf btc s). unfold offw, wrap. rewrite Z.mul_0_r, Z.add_0_r. apply Zplus_mod_idemp_l.
  - replace (6 + k =? 6) with false by lia. replace (6 + k - 6) with k by lia. exact LW.
Qed.

Lemma btcv_real T jf t btc c : btcP T t btc -> 0 <= c < nbig t -> btcv jf btc c = if homob2 t c then 0 else code T (dz T t c) (d1 T t c).
Proof. intros (L & _ & B) Hc. unfold btcv. replace ((0 <=? c) && (c <? zlen btc)) with true by lia. apply B. exact Hc. Qed.
Lemma gof_real T jf t btc c : btcP T t btc -> 0 <= c < nbig t -> 0 <= gof T (btcv jf btc c) <= 3 /\ (T = MPE1 -> gof T (btcv jf btc c) <= 2) /\
  (homob2 t c = false -> gof T (btcv jf btc c) / unit_of T = code T (dz T t c) (d1 T t c)).
Proof.
  intros B Hc. rewrite (btcv_real T jf t btc c B Hc). destruct (homob2 t c).
  - split; [destruct T; cbn; lia|]. split; [intros ->; cbn; lia|discriminate].
  - generalize (dz T t c), (d1 T t c). intros z o. destruct T, z, o; cbn; repeat split; intros; try reflexivity; try lia; discriminate.
Qed.
Lemma hof_real T jf t btc c : btcP T t btc -> 0 <= c < nbig t -> (T = MPE1 -> hof T (btcv jf btc c) <= 4) /\ (T <> MPE1 -> hof T (btcv jf btc c) <= 3) /\
  (homob2 t c = false -> match T with MPE1 => (hof T (btcv jf btc c) / 4) mod 2 | _ => hof T (btcv jf btc c) mod 4 end = code T (dz T t c) (d1 T t c)).
Proof.
  intros B Hc. rewrite (btcv_real T jf t btc c B Hc). destruct (homob2 t c).
  - split; [intros ->; cbn; lia|]. split; [intros; destruct T; cbn; try lia; congruence|discriminate].
  - generalize (dz T t c), (d1 T t c). intros z o. destruct T, z, o; cbn; repeat split; intros; try reflexivity; try lia; congruence.
Qed.

(** ** The reads of a query *)
Definition mpe_first (r : rank_mpe) (p2 num first : Z) : res Z :=
  if num >? 0 then
      let* w := geti (mp_ranks r) (p2 + (num + 3) / 4) in
      Ok (u64 (first + (match num mod 4 with
                        | 3 => Z.land (Z.shiftr w 32) 0xFFFF
                        | 2 => Z.land (Z.shiftr w 16) 0xFFFF
                        | 1 => Z.land w 0xFFFF
                        | _ => Z.shiftr w 48
                        end)))
    else Ok first.
Definition mpe_second (r : rank_mpe) (p2 num first : Z) : res Z :=
  if num =? 15 then geti (mp_ranks r) (p2 + 10) else
      let* w := geti (mp_ranks r) (p2 + (if num mod 4 =? 0 then num + 4 else num + 3) / 4) in
      Ok (u64 (first + (match num mod 4 with
                        | 3 => Z.shiftr w 48
                        | 2 => Z.land (Z.shiftr w 32) 0xFFFF
                        | 1 => Z.land (Z.shiftr w 16) 0xFFFF
                        | _ => Z.land w 0xFFFF
                        end))).
Definition mpe_ptr (T : mpe_type) (r : rank_mpe) (p2 num : Z) : res (Z * Z) :=
  let* o := geti (mp_ranks r) (p2 + 5) in
  if num >? 0
    then let* w := geti (mp_ranks r) (p2 + 5 + (num + 3) / 4) in
         let '(d, f) := offset_field T w num in Ok (o + d, f)
    else let* w := geti (mp_ranks r) (p2 + 6) in Ok (o, first_flag T w).
Definition answer2 (rank next i : Z) (k : res Z) : res Z :=
  let diff := u64 (next - rank) in
  if Z.land diff 1023 =? 0 then Ok (u64 (rank + u64 (i * Z.shiftr diff 10))) else k.

Lemma rank_mpe_form T strict r i : rank_of_mpe T strict r i =
  let p2 := 10 * (i / 1024 / 16) in let num := i / 1024 mod 16 in
  let* first := geti (mp_ranks r) p2 in
  let* rank := mpe_first r p2 num first in
  let* rank2 := mpe_second r p2 num first in
  answer2 rank rank2 (i mod 1024) (let* '(p, f) := mpe_ptr T r p2 num in
    let* '(p, i, rank) := skip_pairs T f strict (mp_bits r) p (i mod 1024) rank in count_bytes strict (mp_bits r) p i rank).
Proof.
  unfold rank_of_mpe, mpe_first, mpe_second, mpe_ptr, answer2. cbv zeta.
  destruct (geti (mp_ranks r) (10 * (i / 1024 / 16))); [|reflexivity..]. cbn [bind].
  match goal with |- bind ?a _ = bind ?a _ => destruct a; [|reflexivity..] end. cbn [bind].
  match goal with |- bind ?a _ = bind ?a _ => destruct a; [|reflexivity..] end. cbn [bind].
  match goal with |- (if ?c then _ else _) = _ => destruct c; [reflexivity|] end.
  destruct (geti (mp_ranks r) (10 * (i / 1024 / 16) + 5)); reflexivity.
Qed.

Lemma answer2_ok t b i k : text_ok t -> zlen t < 2 ^ 58 -> 0 <= b < nbig t -> 0 <= i < 1024 ->
  answer2 (ts t 0 (1024 * b)) (ts t 0 (1024 * (b + 1))) i k = if bsum t b mod 1024 =? 0 then Ok (ts t 0 (1024 * b + i)) else k.
Proof.
  intros H Hl Hb Hi. unfold answer2. pose proof (zlen_nonneg t). assert (NB : nbig t <= 2 ^ 52) by (unfold nbig; lia).
  pose proof (ts_split t 0 (1024 * b) (1024 * (b + 1)) ltac:(lia)) as S1. pose proof (ts_bound t (1024 * b) (1024 * (b + 1)) ltac:(lia)) as B1.
  pose proof (ts_bound t 0 (1024 * b) ltac:(lia)) as B0. pose proof (ts_split t 0 (1024 * b) (1024 * b + i) ltac:(lia)) as S2.
  pose proof (ts_bound t (1024 * b) (1024 * b + i) ltac:(lia)) as B2. unfold bsum.
  set (d := ts t (1024 * b) (1024 * (b + 1))) in *.
  replace (u64 (ts t 0 (1024 * (b + 1)) - ts t 0 (1024 * b))) with d by (rewrite wrap_small; lia).
  change 1023 with (Z.ones 10). rewrite Z.land_ones, Z.shiftr_div_pow2 by lia. change (2 ^ 10) with 1024.
  destruct (d mod 1024 =? 0) eqn:E; [|reflexivity].
  f_equal. destruct (Z.eq_dec d 0) as [E0|E0].
  - rewrite E0. change (0 / 1024) with 0. rewrite Z.mul_0_r. change (u64 0) with 0. rewrite Z.add_0_r.
    assert (G : ts t (1024 * b) (1024 * b + i) = 0) by (apply ts_all0; intros; apply (ts_zero t (1024 * b) (1024 * (b + 1))); fold d; lia).
    rewrite wrap_small; lia.
  - assert (E1 : d = 1024) by lia. rewrite E1. change (1024 / 1024) with 1. rewrite Z.mul_1_r.
    assert (G : ts t (1024 * b) (1024 * b + i) = i).
    { rewrite ts_all1; [lia|lia|]. intros; apply (ts_full t (1024 * b) (1024 * (b + 1))); fold d; lia. }
    rewrite (wrap_small 64 i) by lia. rewrite wrap_small; lia.
Qed.

(** What a query needs of the arrays. *)
Definition mpeQ (T : mpe_type) (jf : Z -> Z) (t temp btc : list Z) (r : rank_mpe) : Prop :=
  tempM T t temp /\ btcP T t btc /\ 10 * (nbig t / 16 + 1) + 1 <= zlen (mp_ranks r) /\ moff T t (nbig t) + 8 <= zlen (mp_bits r) /\ byteful (mp_bits r) /\
  (forall s k, 0 <= s <= nbig t / 16 -> 0 <= k < 10 -> zn 0 (mp_ranks r) (10 * s + k) = mp_word T jf temp btc s k) /\
  (forall c, 0 <= c < nbig t -> homob2 t c = false -> blockOk T t c (mp_bits r) (moff T t c)).

Lemma rlane_ok jf T t temp btc s j : zlen t < 2 ^ 58 -> tempM T t temp -> 0 <= s -> 0 <= j <= 14 -> 16 * s + j + 1 <= nbig t ->
  get_lane (mp_word T jf temp btc s (j / 4 + 1)) (j mod 4) = ts t (16384 * s) (1024 * (16 * s + j + 1)).
Proof.
  intros Hl (L & T1 & T2) Hs Hj Hn. unfold mp_word. replace (j / 4 + 1 =? 0) with false by lia. replace (j / 4 + 1 <=? 4) with true by lia. replace (j / 4 + 1 - 1) with (j / 4) by lia.
  pose proof (zlen_nonneg t). assert (NB : nbig t <= 2 ^ 52) by (unfold nbig; lia).
  assert (V : forall i, 0 <= i <= j -> rdiff temp s i = ts t (16384 * s) (1024 * (16 * s + i + 1)) /\ rdiff temp s i < 65536).
  { intros i Hi. unfold rdiff. rewrite !T1 by lia. rewrite (ts_split t 0 (1024 * (16 * s)) (1024 * (16 * s + i + 1))) by lia. replace (1024 * (16 * s)) with (16384 * s) by lia.
    rewrite Z.add_simpl_l. pose proof (ts_bound t (16384 * s) (1024 * (16 * s + i + 1)) ltac:(lia)). rewrite wrap_small by lia. lia. }
  rewrite get_lw; [apply V; lia| |lia|intros; apply V; lia]. intros i. apply wrap_bound. lia.
Qed.

Lemma mpe_ptr_ok T jf t temp btc r b : zlen t < 2 ^ 58 -> 0 < nbig t -> mpeQ T jf t temp btc r -> 0 <= b <= nbig t ->
  exists f, mpe_ptr T r (10 * (b / 16)) (b mod 16) = Ok (po T t b, f) /\ 0 <= f <= 3 /\ (b < nbig t -> homob2 t b = false -> f = code T (dz T t b) (d1 T t b)).
Proof.
  intros Hl Hn (TM & BP & L1 & L2 & L3 & P1 & P2) Hb. pose proof TM as (T0 & T1 & T2). pose proof BP as (B0 & B1 & B2). set (n := nbig t) in *.
  set (s := b / 16). set (num := b mod 16). assert (Hs : 0 <= s <= n / 16) by lia. assert (Hnum : 0 <= num < 16) by lia. assert (Eb : b = 16 * s + num) by lia.
  assert (E16 : 16 * s + (num - 1) + 1 = b) by (clear - Eb; lia). clearbody s num.
  unfold mpe_ptr. rewrite geti_ok by lia. cbn [bind]. rewrite P1 by lia. replace (mp_word T jf temp btc s 5) with (po T t (16 * s)) by (unfold mp_word; cbn [Z.eqb Pos.eqb Z.leb Z.compare Pos.compare Pos.compare_cont]; rewrite T2 by lia; reflexivity).
  assert (HD : forall j, 0 <= j < 15 -> 0 <= dof T t s j <= 1920 /\ 0 <= gat T jf btc s j <= 255).
  { intros j Hj. pose proof (po_mono T t (16 * s) (16 * s + j + 1) Hn ltac:(lia)). split; [unfold dof; lia|]. apply gof_bound. apply btcv_byte. exact B1. }
  destruct (num >? 0) eqn:E.
  - rewrite geti_ok by lia. cbn [bind]. replace (10 * s + 5 + (num + 3) / 4) with (10 * s + (6 + (num - 1) / 4)) by lia. rewrite P1 by lia. set (k := (num - 1) / 4). assert (Hk : 0 <= k <= 3) by (clear - Hnum E; lia).
    rewrite (off_word T jf t temp btc s k Hl Hn TM B1 Hs ltac:(lia)). set (H := if k =? 0 then hat T jf btc s else 0).
    assert (HH : 0 <= H) by (unfold H; destruct (k =? 0); [apply hof_bound|lia]).
    destruct (offw_field T (dof T t s) (gat T jf btc s) k H num) as (F1 & F2 & F3); try lia.
    + intros j Hj. specialize (HD j Hj). lia.
    + intros j Hj. apply (gof_real T jf t btc (16 * s + j + 1) BP). fold n. clear - Hs Hj Eb Hb; lia.
    + intros ->. split; [unfold H; destruct (k =? 0); [apply hof_four|reflexivity]|]. intros j Hj. apply gof_even.
    + destruct (offset_field T (offw (dof T t s) (gat T jf btc s) k H) num) as [d f]. cbn [fst snd] in F1, F2, F3. exists f. split; [|split; [exact F2|]].
      * rewrite F1. unfold dof. rewrite E16. do 2 f_equal. clear; lia.
      * intros Hbn Hh. destruct (gof_real T jf t btc b BP ltac:(fold n; clear - Hb Hbn; lia)) as (G1 & G2 & G3). destruct (hof_real T jf t btc (16 * s) BP ltac:(fold n; clear - Hs Hnum Eb Hbn; lia)) as (H1 & H2 & _).
        unfold gat in F3. rewrite E16 in F3. rewrite <- G3 by exact Hh. apply F3; [apply G1|..].
        -- intros ET. split; [unfold H; destruct (k =? 0); [apply H1; exact ET|lia]|apply G2; exact ET].
        -- intros ET. unfold H; destruct (k =? 0); [apply H2; exact ET|lia].
  - rewrite geti_ok by lia. cbn [bind]. rewrite P1 by lia. change 6 with (6 + 0). rewrite (off_word T jf t temp btc s 0 Hl Hn TM B1 Hs ltac:(lia)). change (0 =? 0) with true. cbv iota.
    destruct (offw_first T (dof T t s) (gat T jf btc s) (hat T jf btc s)) as (F1 & F2).
    + intros j Hj. apply HD. lia.
    + apply hof_bound.
    + intros ->. split; [apply hof_four|]. intros j Hj. apply gof_even.
    + assert (E0 : 16 * s = b) by (clear - Hnum Eb E; lia). exists (first_flag T (offw (dof T t s) (gat T jf btc s) 0 (hat T jf btc s))). rewrite E0. split; [reflexivity|]. split; [exact F1|].
      intros Hbn Hh. rewrite F2. unfold hat. rewrite E0. apply hof_real; auto. fold n. clear - Hb Hbn; lia.
Qed.

Lemma rank_mpe_gen T strict jf t temp btc r i : text_ok t -> zlen t < 2 ^ 58 -> 0 < nbig t -> mpeQ T jf t temp btc r -> 0 <= i <= 1024 * nbig t -> let b := i / 1024 in
  (b < nbig t -> rank_of_mpe T strict r i = if bad strict (moff T t b) && negb (bsum t b mod 1024 =? 0) then Ub UB_align else Ok (ts t 0 i)) /\
  (b = nbig t -> strict = false -> moff T t (nbig t) + 24 <= zlen (mp_bits r) -> rank_of_mpe T strict r i = Ok (ts t 0 i)).
Proof.
  intros H Hl Hn Q Hi b. rewrite rank_mpe_form. cbv zeta. fold b.
  pose proof Q as (TM & BP & L1 & L2 & L3 & P1 & P2). pose proof TM as (T0 & T1 & T2). pose proof (zlen_nonneg t). set (n := nbig t) in *. assert (NB : n <= 2 ^ 52) by (unfold n, nbig; lia).
  assert (Hb : 0 <= b <= n) by lia. destruct (mpe_ptr_ok T jf t temp btc r b Hl Hn Q Hb) as (f & EP & Hf & Hfc). rewrite EP. cbn [bind]. clear EP.
  set (s := b / 16). set (num := b mod 16).
  assert (Hs : 0 <= s <= n / 16) by lia. assert (Hnum : 0 <= num < 16) by lia. assert (Eb : b = 16 * s + num) by lia.
  rewrite geti_ok by lia. cbn [bind]. replace (10 * s) with (10 * s + 0) by lia. rewrite P1 by lia. rewrite Z.add_0_r.
  replace (mp_word T jf temp btc s 0) with (ts t 0 (16384 * s)).
  2:{ unfold mp_word. cbn [Z.eqb]. rewrite T1 by lia. f_equal. lia. }
  pose proof (ts_bound t 0 (16384 * s) ltac:(lia)) as B0.
  assert (R1 : mpe_first r (10 * s) num (ts t 0 (16384 * s)) = Ok (ts t 0 (1024 * b))).
  { unfold mpe_first. destruct (num >? 0) eqn:E; [|do 2 f_equal; lia].
    rewrite geti_ok by lia. cbn [bind]. rewrite P1 by lia. f_equal.
    pose proof (rlane_ok jf T t temp btc s (num - 1) Hl TM ltac:(lia) ltac:(lia) ltac:(fold n; lia)) as G.
    replace ((num - 1) / 4 + 1) with ((num + 3) / 4) in G by lia. replace (16 * s + (num - 1) + 1) with b in G by lia.
    pose proof (ts_split t 0 (16384 * s) (1024 * b) ltac:(lia)) as TS. pose proof (ts_bound t (16384 * s) (1024 * b) ltac:(lia)) as TB.
    set (w := mp_word _ _ _ _ _ _) in *. clearbody w. unfold get_lane in G.
    assert (C : num mod 4 = 0 \/ num mod 4 = 1 \/ num mod 4 = 2 \/ num mod 4 = 3) by lia.
    destruct C as [C|[C|[C|C]]]; rewrite C; [replace ((num - 1) mod 4) with 3 in G by lia|replace ((num - 1) mod 4) with 0 in G by lia|replace ((num - 1) mod 4) with 1 in G by lia|replace ((num - 1) mod 4) with 2 in G by lia];
      change (16 * 0) with 0 in G; change (16 * 1) with 16 in G; change (16 * 2) with 32 in G; cbn [Z.eqb Pos.eqb] in G; rewrite ?Z.shiftr_0_r in G; rewrite G, TS; apply wrap_small; lia. }
  rewrite R1. cbn [bind].
  assert (R2 : exists x, mpe_second r (10 * s) num (ts t 0 (16384 * s)) = Ok x /\ (b < n -> x = ts t 0 (1024 * (b + 1)))).
  { unfold mpe_second. destruct (num =? 15) eqn:E.
    - rewrite geti_ok by lia. eexists. split; [reflexivity|]. intros Hbn. replace (10 * s + 10) with (10 * (s + 1) + 0) by lia. rewrite P1 by lia.
      unfold mp_word. cbn [Z.eqb]. rewrite T1 by lia. f_equal. lia.
    - rewrite geti_ok by (destruct (num mod 4 =? 0); lia). cbn [bind]. eexists. split; [reflexivity|]. intros Hbn.
      replace ((if num mod 4 =? 0 then num + 4 else num + 3) / 4) with (num / 4 + 1) by (destruct (num mod 4 =? 0) eqn:E4; lia). rewrite P1 by lia.
      pose proof (rlane_ok jf T t temp btc s num Hl TM ltac:(lia) ltac:(lia) ltac:(fold n; lia)) as G.
      replace (16 * s + num + 1) with (b + 1) in G by lia.
      pose proof (ts_split t 0 (16384 * s) (1024 * (b + 1)) ltac:(lia)) as TS. pose proof (ts_bound t (16384 * s) (1024 * (b + 1)) ltac:(lia)) as TB.
      set (w := mp_word _ _ _ _ _ _) in *. clearbody w. unfold get_lane in G.
      assert (C : num mod 4 = 0 \/ num mod 4 = 1 \/ num mod 4 = 2 \/ num mod 4 = 3) by lia.
      destruct C as [C|[C|[C|C]]]; rewrite C in *; change (16 * 0) with 0 in G; change (16 * 1) with 16 in G; change (16 * 2) with 32 in G; cbn [Z.eqb Pos.eqb] in G; rewrite ?Z.shiftr_0_r in G; rewrite G, TS; apply wrap_small; lia. }
  destruct R2 as (x & -> & Hx). cbn [bind]. clear R1. pose proof (ts_bound t 0 (1024 * b) ltac:(lia)) as TB. pose proof (moff_mono T t 0 b ltac:(lia)) as M0. rewrite moff_0 in M0. split.
  - intros Hbn. rewrite Hx by lia. rewrite answer2_ok by (auto; lia). replace (po T t b) with (moff T t b) by (unfold po; fold n; f_equal; lia).
    destruct (bsum t b mod 1024 =? 0) eqn:Es.
    { rewrite andb_false_r. do 2 f_equal. lia. }
    assert (Hh : homob2 t b = false) by (unfold homob2; lia). rewrite (Hfc Hbn Hh). rewrite andb_true_r.
    pose proof (moff_succ T t b ltac:(lia)) as MS. unfold stored in MS. rewrite Hh in MS. pose proof (moff_mono T t (b + 1) n ltac:(lia)) as MM.
    rewrite (in_block T t b strict (mp_bits r) (moff T t b) (i mod 1024) (ts t 0 (1024 * b)) L3 ltac:(lia) ltac:(lia) ltac:(unfold blen; lia) ltac:(lia) ltac:(lia) (P2 b ltac:(lia) Hh)). destruct (bad strict (moff T t b)); [reflexivity|]. f_equal. replace i with (1024 * b + i mod 1024) at 2 by lia. rewrite <- ts_split by lia. reflexivity.
  - intros En -> Hbl. assert (Ei : i = 1024 * n) by lia. replace (i mod 1024) with 0 by lia. rewrite En in TB |- *. rewrite <- Ei in TB |- *. unfold answer2.
    destruct (Z.land (u64 (x - ts t 0 i)) 1023 =? 0).
    { f_equal. rewrite Z.mul_0_l. change (u64 0) with 0. rewrite Z.add_0_r. apply wrap_small. lia. }
    pose proof (moff_mono T t 0 (n - 1) ltac:(lia)) as Mn. rewrite moff_0 in Mn. pose proof (moff_mono T t (n - 1) n ltac:(lia)) as Mn1.
    replace (po T t n) with (moff T t (n - 1)) by (unfold po; fold n; f_equal; lia). set (p := moff T t (n - 1)) in *.
    assert (CB : forall q, p <= q <= p + 16 -> count_bytes false (mp_bits r) q 0 (ts t 0 i) = Ok (ts t 0 i)).
    { intros q Hq. rewrite count_bytes_ok by (auto; try lia; change (0 / 64) with 0; lia). cbn [bad andb]. rewrite Z.add_0_r, ts_empty. f_equal. lia. }
    assert (SB : exists q, skip_pairs T f false (mp_bits r) p 0 (ts t 0 i) = Ok (q, 0, ts t 0 i) /\ p <= q <= p + 16).
    { assert (LW : forall k, p <= k <= p + 8 -> load_word false (mp_bits r) k = Ok (rd 8 (mp_bits r) k)) by (intros; rewrite load_word_ok by lia; reflexivity).
      assert (M3 : forall w, popcount (Z.land w 0) = 0) by (intros w; rewrite Z.land_0_r; reflexivity).
      assert (S1 : forall o, skip_one o false (mp_bits r) p 0 (ts t 0 i) = Ok (p + 8, 0, ts t 0 i)).
      { intros o. unfold skip_one. rewrite LW by lia. cbn [bind]. change (0 / 16) with 0. change (0 mod 16) with 0. change (geti masks2 0) with (@Ok Z (2 ^ 63)). change (geti masks3 0) with (@Ok Z 0). cbn [bind]. rewrite !M3.
        destruct (Z.land (rd 8 (mp_bits r) p) (2 ^ 63) >? 0), o; cbn [andb]; rewrite ?Z.add_0_r, ?Z.mul_0_r; rewrite ?(wrap_small 64 (ts t 0 i)) by lia; rewrite ?Z.add_0_r, ?Z.mul_0_r; rewrite ?(wrap_small 64 (ts t 0 i)) by lia; reflexivity. }
      assert (S2 : skip_both false (mp_bits r) p 0 (ts t 0 i) = Ok (p + 16, 0, ts t 0 i)).
      { unfold skip_both. rewrite !LW by lia. cbn [bind]. change (0 / 16) with 0. change (0 mod 16) with 0. change (geti masks2 0) with (@Ok Z (2 ^ 63)). change (geti masks3 0) with (@Ok Z 0). cbn [bind]. rewrite !M3.
        destruct (Z.land (rd 8 (mp_bits r) p) (2 ^ 63) >? 0), (Z.land (rd 8 (mp_bits r) (p + 8)) (2 ^ 63) >? 0); cbn [andb]; rewrite ?Z.add_0_r, ?Z.mul_0_r; rewrite ?(wrap_small 64 (ts t 0 i)) by lia; rewrite ?Z.add_0_r, ?Z.mul_0_r; rewrite ?(wrap_small 64 (ts t 0 i)) by lia; reflexivity. }
      unfold skip_pairs. destruct T.
      - destruct (f =? 0); eexists; (split; [first [reflexivity|exact S2]|lia]).
      - destruct (f =? 1); [eexists; split; [apply S1|lia]|]. destruct (f =? 2); [eexists; split; [apply S1|lia]|]. destruct (f =? 3); eexists; (split; [first [reflexivity|exact S2]|lia]).
      - destruct (f =? 1); [eexists; split; [apply S1|lia]|]. destruct (f =? 2); [eexists; split; [apply S1|lia]|]. destruct (f =? 3); eexists; (split; [first [reflexivity|exact S2]|lia]). }
    destruct SB as (q & -> & Hq). cbn [bind]. apply CB. exact Hq.
Qed.
