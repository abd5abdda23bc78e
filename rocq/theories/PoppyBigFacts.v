(** Facts about the poppy index of bitmaps of 2^32 bits and more. *)
From Coq Require Import ZifyBool.
From Verif Require Import Base BaseFacts Words WordFacts BlockFacts NodeFacts Spec BitmapFacts ProgramFacts SpecPoppy Poppy PoppyFacts PoppyFacts2.
Ltac Zify.zify_post_hook ::= Z.div_mod_to_equations.

(** ** Pass 1: the L2 entries of one L1 entry; B is its first bit. *)
Definition big_entry (ws : list Z) (B G : Z) : Z :=
  ms ws B (2048 * G) + 2 ^ 32 * (blk ws (4 * G) + 1024 * (blk ws (4 * G + 1) + 1024 * blk ws (4 * G + 2))).

Lemma l2_step_big ws l2 B G : words ws -> 64 * zlen ws < 2 ^ 49 -> 0 <= B <= 2048 * G -> 2048 * G < B + 2 ^ 32 -> G < zlen l2 ->
  2048 * (G + 1) <= B + 2 ^ 32 -> 2048 * (G + 1) <= 64 * zlen ws ->
  l2_step ws (l2, G, 4 * G, ms ws B (2048 * G)) =
    Ok (upd l2 G (big_entry ws B G), G + 1, 4 * (G + 1), u32 (ms ws B (2048 * (G + 1)))).
Proof.
  intros W Hl HB Hg2 Hg Hb Hin. unfold l2_step. rewrite seti_ok by lia. cbn [bind]. cbn [foldM].
  assert (PL : forall b, 4 * G <= b < 4 * G + 4 -> popcount_linear ws (u64 (b * 8)) 512 = Ok (blk ws b)).
  { intros b Hc. rewrite wrap_small by lia. rewrite popcount_linear_ok by (auto; lia). unfold blk. f_equal. f_equal; lia. }
  pose proof (ms_bound ws B (2048 * G) ltac:(lia)) as B0.
  pose proof (blk_bound ws (4 * G)). pose proof (blk_bound ws (4 * G + 1)). pose proof (blk_bound ws (4 * G + 2)).
  pose proof (blk_bound ws (4 * G + 3)).
  rewrite PL by lia. cbn [bind]. rewrite (wrap_small 64 (4 * G + 1)) by lia.
  rewrite PL by lia. cbn [bind]. rewrite (wrap_small 64 (4 * G + 1 + 1)) by lia. replace (4 * G + 1 + 1) with (4 * G + 2) by lia.
  rewrite PL by lia. cbn [bind]. rewrite (wrap_small 64 (4 * G + 2 + 1)) by lia. replace (4 * G + 2 + 1) with (4 * G + 3) by lia.
  rewrite seti_ok by (rewrite zlen_upd; lia). cbn [bind]. rewrite PL by lia. cbn [bind].
  assert (E : Z.lor (Z.lor (Z.lor (ms ws B (2048 * G)) (u64 (Z.shiftl (blk ws (4 * G)) (32 + 0))))
     (u64 (Z.shiftl (blk ws (4 * G + 1)) (32 + 10)))) (u64 (Z.shiftl (blk ws (4 * G + 2)) (32 + 20))) = big_entry ws B G).
  { rewrite !(wrap_small 64) by (rewrite Z.shiftl_mul_pow2 by lia; lia). unfold big_entry.
    change (32 + 0) with 32. change (32 + 10) with 42. change (32 + 20) with 52.
    rewrite (lor_high _ _ 32) by lia. rewrite (lor_high _ _ 42) by lia. rewrite (lor_high _ _ 52) by lia. lia. }
  rewrite E.
  assert (EU : upd (upd l2 G (ms ws B (2048 * G))) G (big_entry ws B G) = upd l2 G (big_entry ws B G)).
  { apply (list_ext 0); [rewrite !zlen_upd; reflexivity|]. intros i Hi. rewrite !zlen_upd in Hi.
    rewrite !zn_upd by (rewrite ?zlen_upd; lia). destruct (i =? G); reflexivity. }
  rewrite EU. rewrite !(wrap_small 64) by lia.
  rewrite (wrap_small 32 (ms ws B (2048 * G) + blk ws (4 * G))) by lia.
  rewrite (wrap_small 32 (ms ws B (2048 * G) + blk ws (4 * G) + blk ws (4 * G + 1))) by lia.
  rewrite (wrap_small 32 (ms ws B (2048 * G) + blk ws (4 * G) + blk ws (4 * G + 1) + blk ws (4 * G + 2))) by lia.
  unfold blk in *.
  replace (ms ws B (2048 * G) + ms ws (512 * (4 * G)) (512 * (4 * G + 1)) + ms ws (512 * (4 * G + 1)) (512 * (4 * G + 1 + 1)) +
           ms ws (512 * (4 * G + 2)) (512 * (4 * G + 2 + 1)) + ms ws (512 * (4 * G + 3)) (512 * (4 * G + 3 + 1)))
    with (ms ws B (2048 * (G + 1))).
  2:{ rewrite (ms_split ws B (2048 * G) (2048 * (G + 1))) by lia.
      rewrite (ms_split ws (2048 * G) (512 * (4 * G + 1)) (2048 * (G + 1))) by lia.
      rewrite (ms_split ws (512 * (4 * G + 1)) (512 * (4 * G + 2)) (2048 * (G + 1))) by lia.
      rewrite (ms_split ws (512 * (4 * G + 2)) (512 * (4 * G + 3)) (2048 * (G + 1))) by lia.
      replace (512 * (4 * G)) with (2048 * G) by lia. replace (512 * (4 * G + 1 + 1)) with (512 * (4 * G + 2)) by lia.
      replace (512 * (4 * G + 2 + 1)) with (512 * (4 * G + 3)) by lia. replace (512 * (4 * G + 3 + 1)) with (2048 * (G + 1)) by lia. lia. }
  replace (4 * G + 3 + 1) with (4 * (G + 1)) by lia. reflexivity.
Qed.

(** Ones of the i-th piece of 2^32 bits. *)
Definition piece (ws : list Z) (i : Z) : Z := ms ws (2 ^ 32 * i) (2 ^ 32 * (i + 1)).
Lemma piece_bound ws i : 0 <= piece ws i <= 2 ^ 32.
Proof. unfold piece. pose proof (ms_bound ws (2 ^ 32 * i) (2 ^ 32 * (i + 1)) ltac:(lia)). lia. Qed.

Lemma pass1_big ws l2 i : words ws -> 64 * zlen ws < 2 ^ 49 -> 0 <= i -> 2 ^ 32 * (i + 1) <= 64 * zlen ws -> zlen l2 = 64 * zlen ws / 2048 ->
  exists l2', foldM (fun s _ => l2_step ws s) (zrange 0 (trips (2 ^ 21) (64 * zlen ws / 2048) (2 ^ 21 * i))) (l2, 2 ^ 21 * i, 2 ^ 23 * i, 0) =
      Ok (l2', 2 ^ 21 * (i + 1), 2 ^ 23 * (i + 1), u32 (piece ws i)) /\
    zlen l2' = zlen l2 /\ (forall g, 0 <= g < zlen l2 -> zn 0 l2' g =
       if (2 ^ 21 * i <=? g) && (g <? 2 ^ 21 * (i + 1)) then big_entry ws (2 ^ 32 * i) g else zn 0 l2 g).
Proof.
  intros W Hn Hi Hin Hl.
  assert (ET : trips (2 ^ 21) (64 * zlen ws / 2048) (2 ^ 21 * i) = Z.to_nat (2 ^ 21)) by (unfold trips; f_equal; lia).
  rewrite ET. clear ET. set (G0 := 2 ^ 21 * i). set (B := 2 ^ 32 * i). assert (EB : B = 2048 * G0) by (unfold B, G0; lia).
  replace (2 ^ 23 * i) with (4 * G0) by (unfold G0; lia). replace (2 ^ 21 * (i + 1)) with (G0 + 2 ^ 21) by (unfold G0; lia).
  replace (2 ^ 23 * (i + 1)) with (4 * (G0 + 2 ^ 21)) by (unfold G0; lia).
  unfold piece. fold B. replace (2 ^ 32 * (i + 1)) with (2048 * (G0 + 2 ^ 21)) in * by (unfold G0; lia).
  assert (HG0 : 0 <= G0) by (unfold G0; lia). clearbody G0 B. clear i Hi.
  destruct (foldM_inv (fun (s : list Z * Z * Z * Z) (_ : Z) => l2_step ws s)
    (fun g st => let '(l2', id, b, cum) := st in id = G0 + g /\ b = 4 * (G0 + g) /\ cum = u32 (ms ws B (2048 * (G0 + g))) /\
       zlen l2' = zlen l2 /\ forall j, 0 <= j < zlen l2 -> zn 0 l2' j = if (G0 <=? j) && (j <? G0 + g) then big_entry ws B j else zn 0 l2 j)
    (Z.to_nat (2 ^ 21)) 0 (l2, G0, 4 * G0, 0)) as (st & E & P).
  - rewrite Z.add_0_r. rewrite <- EB, ms_empty. repeat split. intros j Hj.
    replace ((G0 <=? j) && (j <? G0)) with false by lia. reflexivity.
  - intros g [[[l id] b] cum] Hg (-> & -> & -> & L & P).
    pose proof (ms_bound ws B (2048 * (G0 + g)) ltac:(lia)). rewrite (wrap_small 32) by lia.
    rewrite l2_step_big by (auto; lia). eexists. split; [reflexivity|]. cbv beta iota.
    split; [lia|]. split; [lia|]. split; [f_equal; f_equal; lia|]. split; [rewrite zlen_upd; auto|].
    intros j Hj. rewrite zn_upd by lia.
    destruct (Z.eqb_spec j (G0 + g)) as [->|]; [replace ((_ <=? _) && _) with true by lia; reflexivity|]. rewrite P by lia.
    replace ((G0 <=? j) && (j <? G0 + (g + 1))) with ((G0 <=? j) && (j <? G0 + g)) by lia. reflexivity.
  - destruct st as [[[l id] b] cum]. destruct P as (-> & -> & -> & L & P).
    assert (EG : 0 + Z.of_nat (Z.to_nat (2 ^ 21)) = 2 ^ 21) by lia.
    rewrite EG in *. exists l. auto.
Qed.

(** What pass 1 leaves after the first m L1 entries. *)
Definition cum_ones (ws : list Z) (i : Z) : Z := sumf (fun j => u32 (piece ws j)) 0 i.
Definition cap_of (ws : list Z) (i : Z) : Z := u32 (u32 (piece ws i) + 8192 - 1) / 8192.

Lemma cum_bound ws i : 0 <= i -> 0 <= cum_ones ws i <= 2 ^ 32 * i.
Proof.
  intros Hi. unfold cum_ones. pattern i. apply natlike_ind; [cbn; lia| |exact Hi]. intros m Hm IH. unfold Z.succ.
  rewrite sumf_succ by lia. assert (0 <= u32 (piece ws m) < 2 ^ 32) by (unfold wrap; apply Z.mod_pos_bound; lia). lia.
Qed.

Lemma map_zrange_snoc {A} (f : Z -> A) n : map f (zrange 0 n) ++ [f (Z.of_nat n)] = map f (zrange 0 (S n)).
Proof.
  assert (H : forall k lo, zrange lo (S k) = zrange lo k ++ [lo + Z.of_nat k]).
  { induction k as [|k IH]; intros lo; [cbn; rewrite Z.add_0_r; reflexivity|]. change (zrange lo (S (S k))) with (lo :: zrange (lo + 1) (S k)).
    rewrite IH. cbn [zrange app]. do 3 f_equal. lia. }
  rewrite H, map_app. reflexivity.
Qed.

Definition pass1_inv (junk : Z -> Z) (ws : list Z) (m : Z) (st : list Z * list Z * Z * Z * list Z * Z) : Prop :=
  let '(l1, l2, id, b, caps, p) := st in
  zlen l1 = 64 * zlen ws / 2 ^ 32 /\ zlen l2 = 64 * zlen ws / 2048 /\ id = 2 ^ 21 * m /\ b = 2 ^ 23 * m /\
  caps = map (cap_of ws) (zrange 0 (Z.to_nat m)) /\ p = cum_ones ws m /\
  (forall j, 0 <= j < m -> zn 0 l1 j = cum_ones ws j) /\
  (forall g, 0 <= g < 2 ^ 21 * m -> zn 0 l2 g = big_entry ws (2 ^ 32 * (g / 2 ^ 21)) g) /\
  (forall g, 2 ^ 21 * m <= g < zlen l2 -> zn 0 l2 g = junk g).

Lemma l1_step_big junk ws m st : words ws -> 64 * zlen ws < 2 ^ 49 -> 0 <= m < 64 * zlen ws / 2 ^ 32 -> pass1_inv junk ws m st ->
  exists st', l1_step ws (64 * zlen ws / 2048) st m = Ok st' /\ pass1_inv junk ws (m + 1) st'.
Proof.
  intros W Hn Hm. destruct st as [[[[[l1 l2] id] b] caps] p]. intros (L1 & L2 & -> & -> & -> & -> & P1 & P2 & P3).
  unfold l1_step. rewrite seti_ok by lia. cbn [bind].
  destruct (pass1_big ws l2 m W Hn ltac:(lia) ltac:(lia) L2) as (l2' & E & L2' & P2'). rewrite E. cbn [bind].
  eexists. split; [reflexivity|]. unfold pass1_inv. pose proof (cum_bound ws m ltac:(lia)) as CB.
  assert (PB : 0 <= u32 (piece ws m) < 2 ^ 32) by (unfold wrap; apply Z.mod_pos_bound; lia).
  split; [rewrite zlen_upd; exact L1|]. split; [lia|]. split; [reflexivity|]. split; [reflexivity|]. split.
  { replace (Z.to_nat (m + 1)) with (S (Z.to_nat m)) by lia. rewrite <- map_zrange_snoc. rewrite Z2Nat.id by lia. reflexivity. }
  split. { rewrite wrap_small by lia. unfold cum_ones. rewrite sumf_succ by lia. reflexivity. }
  split.
  - intros j Hj. rewrite zn_upd by lia. destruct (Z.eqb_spec j m) as [->|]; [reflexivity|]. apply P1. lia.
  - split.
    + intros g Hg. rewrite P2' by lia. destruct ((2 ^ 21 * m <=? g) && (g <? 2 ^ 21 * (m + 1))) eqn:Q.
      * replace (g / 2 ^ 21) with m by lia. reflexivity.
      * apply P2. lia.
    + intros g Hg. rewrite P2' by lia. replace ((2 ^ 21 * m <=? g) && (g <? 2 ^ 21 * (m + 1))) with false by lia. apply P3. lia.
Qed.

(** ** Pass 2: the locations of one L1 entry, p bits into it. *)
Definition bloc_ok (ws : list Z) (B cap p : Z) (st : Z * list Z * Z) : Prop :=
  let '(ones, loc, cnt) := st in
  ones = u32 (ms ws B (B + p)) /\ cnt = cdiv (ms ws B (B + p)) 8192 /\ zlen loc = cap /\ cnt <= cap /\
  forall j, 0 <= j < cnt -> 0 <= zn 0 loc j < p /\ mb ws (B + zn 0 loc j) = 1 /\ ms ws B (B + zn 0 loc j) = 8192 * j.
Definition bloc_over (ws : list Z) (B cap p : Z) : Prop := cap < cdiv (ms ws B (B + Z.max 0 p)) 8192.

Lemma bloc_over_mono ws B cap a b : a <= b -> bloc_over ws B cap a -> bloc_over ws B cap b.
Proof.
  unfold bloc_over, cdiv. intros H O. pose proof (ms_mono ws B (B + Z.max 0 a) (B + Z.max 0 b) ltac:(lia)). lia.
Qed.

Lemma bloc_bit_ok ws B cap p s : B mod 64 = 0 -> 0 <= p < 2 ^ 32 -> bloc_ok ws B cap p s -> cap < 2 ^ 32 ->
  (exists s', loc_bit (zn 0 ws ((B + p) / 64)) p (p mod 64) s = Ok s' /\ bloc_ok ws B cap (p + 1) s') \/
  (loc_bit (zn 0 ws ((B + p) / 64)) p (p mod 64) s = Ub UB_bounds /\ bloc_over ws B cap (p + 1)).
Proof.
  intros HB Hp H Hc. destruct s as [[ones loc] cnt]. destruct H as (-> & Ec & L & Lc & P). unfold loc_bit.
  pose proof (ms_succ ws B (B + p) ltac:(lia)) as S. pose proof (ms_bound ws B (B + p) ltac:(lia)) as Bd.
  assert (EM : mb ws (B + p) = b2z (Z.testbit (zn 0 ws ((B + p) / 64)) (63 - p mod 64))).
  { unfold mb, wbit. replace ((B + p) mod 64) with (p mod 64) by lia. reflexivity. }
  replace (B + p + 1) with (B + (p + 1)) in S by lia.
  destruct (Z.testbit (zn 0 ws ((B + p) / 64)) (63 - p mod 64)); cbn [b2z] in EM.
  - cbv zeta. rewrite wrap_add_l. assert (EL : Z.land (u32 (ms ws B (B + p) + 1)) 8191 = (ms ws B (B + p) + 1) mod 8192).
    { change 8191 with (Z.ones 13). rewrite Z.land_ones by lia. unfold wrap. change (2 ^ 13) with 8192. clear - Bd. lia. }
    rewrite EL. destruct (Z.eqb_spec ((ms ws B (B + p) + 1) mod 8192) 1) as [E1|E1].
    + assert (EC : cdiv (ms ws B (B + (p + 1))) 8192 = cnt + 1) by (unfold cdiv in *; clear - S EM E1 Ec; lia).
      assert (Cn : 0 <= cnt) by (unfold cdiv in Ec; clear - Ec Bd; lia).
      destruct (Z_lt_le_dec cnt cap) as [H|H].
      * left. rewrite seti_ok by lia. cbn [bind]. eexists. split; [reflexivity|]. cbv beta iota delta [bloc_ok].
        rewrite EC, (wrap_small 32 (cnt + 1)) by lia. rewrite S, EM. split; [reflexivity|]. split; [reflexivity|].
        split; [rewrite zlen_upd; exact L|]. split; [lia|].
        intros j Hj.
        rewrite zn_upd by lia. destruct (Z.eqb_spec j cnt) as [->|].
        -- rewrite (wrap_small 32 p) by lia. split; [lia|]. split; [exact EM|]. unfold cdiv in Ec. clear - Ec E1. lia.
        -- destruct (P j ltac:(lia)) as (? & ? & ?). split; [lia|]. auto.
      * right. split; [|unfold bloc_over; rewrite Z.max_r by lia; lia]. unfold seti.
        replace ((0 <=? cnt) && (cnt <? zlen loc)) with false by lia. reflexivity.
    + assert (EC : cdiv (ms ws B (B + (p + 1))) 8192 = cnt) by (unfold cdiv in *; clear - S EM E1 Ec; lia).
      left. eexists. split; [reflexivity|]. cbv beta iota delta [bloc_ok]. rewrite EC, S, EM. repeat split; try lia; auto;
        destruct (P j ltac:(lia)) as (? & ? & ?); auto; lia.
  - left. eexists. split; [reflexivity|]. cbv beta iota delta [bloc_ok]. rewrite S, EM, Z.add_0_r. repeat split; try lia; auto;
      destruct (P j ltac:(lia)) as (? & ? & ?); auto; lia.
Qed.

Lemma pass2_big ws i cap loc : words ws -> 64 * zlen ws < 2 ^ 49 -> 0 <= i -> 2 ^ 32 * (i + 1) <= 64 * zlen ws -> zlen loc = cap -> 0 <= cap < 2 ^ 32 ->
  (exists s, foldM (loc_block ws) (zrange 0 (trips (2 ^ 23) (64 * zlen ws / 512) (2 ^ 23 * i))) (2 ^ 23 * i, (0, loc, 0)) = Ok (2 ^ 23 * (i + 1), s) /\
     bloc_ok ws (2 ^ 32 * i) cap (2 ^ 32) s) \/
  (foldM (loc_block ws) (zrange 0 (trips (2 ^ 23) (64 * zlen ws / 512) (2 ^ 23 * i))) (2 ^ 23 * i, (0, loc, 0)) = Ub UB_bounds /\
     cap < cdiv (piece ws i) 8192).
Proof.
  intros W Hn Hi Hin Hl Hc.
  assert (ET : trips (2 ^ 23) (64 * zlen ws / 512) (2 ^ 23 * i) = Z.to_nat (2 ^ 23)) by (unfold trips; f_equal; lia).
  rewrite ET. clear ET. unfold piece. replace (2 ^ 32 * (i + 1)) with (2 ^ 32 * i + Z.max 0 (2 ^ 32)) in * by lia.
  change (cap < cdiv (ms ws (2 ^ 32 * i) (2 ^ 32 * i + Z.max 0 (2 ^ 32))) 8192) with (bloc_over ws (2 ^ 32 * i) cap (2 ^ 32)).
  set (b0 := 2 ^ 23 * i). set (B := 2 ^ 32 * i) in *. assert (EB : B = 512 * b0) by (unfold B, b0; lia).
  replace (2 ^ 23 * (i + 1)) with (b0 + 2 ^ 23) by (unfold b0; lia). assert (Hb0 : 0 <= b0) by (unfold b0; lia). clearbody b0 B. clear i Hi.
  assert (EN : 0 + Z.of_nat (Z.to_nat (2 ^ 23)) = 2 ^ 23) by lia.
  destruct (fold_fail (loc_block ws) (fun k st => fst st = b0 + k /\ bloc_ok ws B cap (512 * k) (snd st)) (fun k => bloc_over ws B cap (512 * k))
    (Z.to_nat (2 ^ 23)) ltac:(intros a b H; apply bloc_over_mono; lia) 0 (b0, (0, loc, 0))) as [(st & E & P)|(E & P)].
  - cbn [fst snd]. split; [lia|]. cbv beta iota delta [bloc_ok]. change (512 * 0) with 0. rewrite Z.add_0_r, ms_empty. unfold cdiv.
    change ((0 + 8192 - 1) / 8192) with 0. repeat split; try lia.
  - intros k [b s] Hk [Eb P]. cbn [fst snd] in *. subst b. rewrite EN in Hk. unfold loc_block.
    rewrite (wrap_small 64 ((b0 + k) * 8)) by lia. cbv zeta.
    destruct (fold_fail (fun s widx => foldM (fun s bit => let* w := geti ws (u64 ((b0 + k) * 8 + widx)) in
        loc_bit w (k * 512 + widx * 64 + bit) bit s) (zrange 0 64) s)
      (fun j s => bloc_ok ws B cap (512 * k + 64 * j) s) (fun j => bloc_over ws B cap (512 * k + 64 * j)) 8
      ltac:(intros a b H; apply bloc_over_mono; lia) 0 s) as [(s2 & E2 & P2)|(E2 & P2)].
    + replace (512 * k + 64 * 0) with (512 * k) by lia. exact P.
    + intros j s1 Hj P1.
      destruct (fold_fail (fun s bit => let* w := geti ws (u64 ((b0 + k) * 8 + j)) in loc_bit w (k * 512 + j * 64 + bit) bit s)
        (fun b s => bloc_ok ws B cap (512 * k + 64 * j + b) s) (fun b => bloc_over ws B cap (512 * k + 64 * j + b)) 64
        ltac:(intros a b H; apply bloc_over_mono; lia) 0 s1) as [(s3 & E3 & P3)|(E3 & P3)].
      * rewrite Z.add_0_r. exact P1.
      * intros b s3 Hb P3. rewrite (wrap_small 64) by lia. rewrite geti_ok by lia. cbn [bind].
        assert (E64 : (B + (512 * k + 64 * j + b)) / 64 = (b0 + k) * 8 + j) by lia. assert (M64 : (512 * k + 64 * j + b) mod 64 = b) by lia.
        pose proof (bloc_bit_ok ws B cap (512 * k + 64 * j + b) s3 ltac:(lia) ltac:(lia) P3 ltac:(lia)) as LB.
        rewrite E64, M64 in LB. replace (k * 512 + j * 64 + b) with (512 * k + 64 * j + b) by lia.
        replace (512 * k + 64 * j + (b + 1)) with (512 * k + 64 * j + b + 1) by lia. exact LB.
      * left. exists s3. split; [exact E3|]. replace (512 * k + 64 * (j + 1)) with (512 * k + 64 * j + (0 + Z.of_nat 64)) by lia. exact P3.
      * right. split; [exact E3|]. replace (512 * k + 64 * (j + 1)) with (512 * k + 64 * j + (0 + Z.of_nat 64)) by lia. exact P3.
    + left. rewrite E2. cbn [bind]. eexists. split; [reflexivity|]. cbn [fst snd]. split; [rewrite wrap_small; lia|].
      replace (512 * (k + 1)) with (512 * k + 64 * (0 + Z.of_nat 8)) by lia. exact P2.
    + right. rewrite E2. split; [reflexivity|]. replace (512 * (k + 1)) with (512 * k + 64 * (0 + Z.of_nat 8)) by lia. exact P2.
  - left. destruct st as [b s]. cbn [fst snd] in P. destruct P as [-> P]. rewrite EN in *. exists s. split; [exact E|].
    change (512 * 2 ^ 23) with (2 ^ 32) in P. exact P.
  - right. rewrite EN in P. split; [exact E|]. change (512 * 2 ^ 23) with (2 ^ 32) in P. exact P.
Qed.
