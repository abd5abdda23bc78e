(** Facts about the poppy index. *)
From Coq Require Import ZifyBool.
From Verif Require Import Base BaseFacts Words WordFacts BlockFacts NodeFacts Spec BitmapFacts ProgramFacts SpecPoppy Poppy.
Ltac Zify.zify_post_hook ::= Z.div_mod_to_equations.

(** ** Bits, most significant first *)
Definition mb (ws : list Z) (p : Z) : Z := wbit (zn 0 ws (p / 64)) (63 - p mod 64).
Definition ms (ws : list Z) (a b : Z) : Z := sumf (mb ws) a b.

Lemma mb_01 ws p : 0 <= mb ws p <= 1.
Proof. apply wbit_01. Qed.

Lemma zlen_rev {A} (l : list A) : zlen (rev l) = zlen l.
Proof. unfold zlen. rewrite rev_length. reflexivity. Qed.

Lemma zn_rev {A} (d : A) l i : 0 <= i < zlen l -> zn d (rev l) i = zn d l (zlen l - 1 - i).
Proof. intros Hi. unfold zn, zlen in *. rewrite rev_nth by lia. f_equal. lia. Qed.

Lemma zlen_word_msb w : zlen (word_msb w) = 64.
Proof. unfold word_msb. rewrite zlen_rev. apply zlen_bits_of_word. Qed.

Lemma zlen_bits_msb ws : zlen (bits_msb ws) = 64 * zlen ws.
Proof.
  unfold bits_msb. induction ws as [|w ws IH]; [reflexivity|]. cbn [flat_map]. rewrite zlen_app, zlen_word_msb, IH, zlen_cons. lia.
Qed.

Lemma bit_word_msb w t : 0 <= t < 64 -> bit (word_msb w) t = Z.testbit w (63 - t).
Proof.
  intros Ht. unfold bit, word_msb. rewrite zn_rev by (rewrite zlen_bits_of_word; lia). rewrite zlen_bits_of_word.
  change (zn false (bits_of_word w) (64 - 1 - t)) with (bit (bits_of_word w) (64 - 1 - t)). rewrite bit_word by lia. f_equal.
Qed.

Lemma bit_msb ws : forall t, 0 <= t < 64 * zlen ws -> bit (bits_msb ws) t = Z.testbit (zn 0 ws (t / 64)) (63 - t mod 64).
Proof.
  unfold bits_msb. induction ws as [|w ws IH]; intros t Ht.
  - cbn in Ht. lia.
  - rewrite zlen_cons in Ht. cbn [flat_map]. destruct (Z_lt_le_dec t 64) as [H|H].
    + unfold bit. rewrite zn_app_l by (rewrite zlen_word_msb; lia). change (zn false (word_msb w) t) with (bit (word_msb w) t).
      rewrite bit_word_msb by lia. replace (t / 64) with 0 by lia. rewrite zn_cons_0. f_equal. lia.
    + unfold bit in *. rewrite zn_app_r by (rewrite zlen_word_msb; lia). rewrite zlen_word_msb, IH by lia.
      rewrite (zn_cons_S 0 w) by lia. replace ((t - 64) / 64) with (t / 64 - 1) by lia.
      replace ((t - 64) mod 64) with (t mod 64) by lia. reflexivity.
Qed.

Lemma ones_msb ws i : 0 <= i <= 64 * zlen ws -> ones_before (bits_msb ws) i = ms ws 0 i.
Proof.
  intros Hi. rewrite ones_before_sum by (rewrite zlen_bits_msb; lia). apply sumf_ext. intros t Ht.
  rewrite bit_msb by lia. reflexivity.
Qed.

Lemma ms_split ws a b c : a <= b <= c -> ms ws a c = ms ws a b + ms ws b c.
Proof. apply sumf_split. Qed.
Lemma ms_bound ws a b : a <= b -> 0 <= ms ws a b <= b - a.
Proof.
  intros H. pose proof (sumf_bound (mb ws) 1 a b H (fun i _ => mb_01 ws i)) as S. unfold ms. lia.
Qed.
Lemma ms_empty ws a : ms ws a a = 0.
Proof. apply sumf_empty. lia. Qed.
Lemma ms_succ ws a b : a <= b -> ms ws a (b + 1) = ms ws a b + mb ws b.
Proof. apply sumf_succ. Qed.
Lemma ms_mono ws a b c : a <= b <= c -> ms ws a b <= ms ws a c.
Proof. intros H. rewrite (ms_split ws a b c) by lia. pose proof (ms_bound ws b c ltac:(lia)). lia. Qed.

Lemma sumf_rev f : forall n, 0 <= n -> sumf (fun t => f (n - 1 - t)) 0 n = sumf f 0 n.
Proof.
  intros n Hn. pattern n. apply natlike_ind; [reflexivity| |exact Hn]. intros m Hm IH.
  unfold Z.succ. rewrite (sumf_succ f) by lia. rewrite sumf_first by lia.
  replace (m + 1 - 1 - 0) with m by lia. rewrite <- IH.
  rewrite <- (Z.add_comm (f m)). f_equal.
  change (0 + 1) with (0 + 1). rewrite <- (sumf_shift (fun t => f (m + 1 - 1 - t)) 0 m 1). apply sumf_ext. intros i Hi. f_equal. lia.
Qed.

(** The top r bits of a word. *)
Lemma top_bits w r : 0 <= w < 2 ^ 64 -> 1 <= r <= 64 ->
  popcount (Z.shiftr w (64 - r)) = sumf (fun t => wbit w (63 - t)) 0 r.
Proof.
  intros Hw Hr. rewrite popcount_wones. unfold wones.
  rewrite (sumf_split _ 0 r 64) by lia. rewrite (sumf_const0 _ r 64).
  - rewrite Z.add_0_r. rewrite <- (sumf_rev _ r) by lia. apply sumf_ext. intros i Hi. unfold wbit.
    rewrite Z.shiftr_spec by lia. f_equal. f_equal. lia.
  - intros i Hi. unfold wbit. rewrite Z.shiftr_spec by lia.
    replace (Z.testbit w (i + (64 - r))) with false; [reflexivity|]. symmetry.
    destruct (Z.eq_dec w 0) as [->|]; [apply Z.bits_0|].
    apply Z.bits_above_log2; [lia|]. apply Z.log2_lt_pow2; [lia|].
    apply Z.lt_le_trans with (2 ^ 64); [lia|]. apply Z.pow_le_mono_r; lia.
Qed.

Lemma word_at ws j : words ws -> 0 <= zn 0 ws j < 2 ^ 64.
Proof.
  intros W. unfold zn. destruct (Nat.lt_ge_cases (Z.to_nat j) (length ws)) as [H|H].
  - apply (proj1 (Forall_forall _ _) W). apply nth_In. exact H.
  - rewrite nth_overflow by exact H. split; [lia|reflexivity].
Qed.

Lemma part_word ws j r : words ws -> 0 <= j -> 1 <= r <= 64 ->
  popcount (Z.shiftr (zn 0 ws j) (64 - r)) = ms ws (64 * j) (64 * j + r).
Proof.
  intros W Hj Hr. rewrite top_bits by (auto using word_at).
  unfold ms. replace (64 * j) with (0 + 64 * j) at 1 by lia. replace (64 * j + r) with (r + 64 * j) by lia.
  rewrite <- sumf_shift. apply sumf_ext. intros i Hi. unfold mb.
  replace ((i + 64 * j) / 64) with j by lia. replace ((i + 64 * j) mod 64) with i by lia. reflexivity.
Qed.

Lemma full_word ws j : words ws -> 0 <= j -> popcount (zn 0 ws j) = ms ws (64 * j) (64 * (j + 1)).
Proof.
  intros W Hj. rewrite <- (Z.shiftr_0_r (zn 0 ws j)). replace (64 * (j + 1)) with (64 * j + 64) by lia.
  rewrite <- (part_word ws j 64) by (auto; lia). reflexivity.
Qed.

(** ** popcountLinear *)
Lemma popcount_linear_ok ws x nb : words ws -> 64 * zlen ws < 2 ^ 64 -> 0 <= x -> 0 <= nb <= 512 -> 64 * x + nb <= 64 * zlen ws ->
  popcount_linear ws x nb = Ok (ms ws (64 * x) (64 * x + nb)).
Proof.
  intros W Hl Hx Hn Hin. unfold popcount_linear. destruct (Z.eqb_spec nb 0) as [->|Hz].
  - rewrite Z.add_0_r, ms_empty. reflexivity.
  - cbv zeta. set (last := (nb - 1) / 64). assert (Hlast : 0 <= last <= 7 /\ 64 * last < nb <= 64 * last + 64) by (unfold last; lia).
    destruct (foldM_inv (fun p i => let* w := geti ws (u64 (x + i)) in Ok (u64 (p + popcount w)))
      (fun k p => p = ms ws (64 * x) (64 * (x + k))) (Z.to_nat last) 0 0) as (p & E & Hp).
    + replace (64 * (x + 0)) with (64 * x) by lia. rewrite ms_empty. reflexivity.
    + intros k p Hk ->. rewrite wrap_small by lia. rewrite geti_ok by lia. cbn [bind]. eexists. split; [reflexivity|].
      rewrite full_word by (auto; lia). rewrite <- ms_split by lia.
      pose proof (ms_bound ws (64 * x) (64 * (x + k + 1)) ltac:(lia)).
      rewrite wrap_small by lia. f_equal. lia.
    + rewrite E. cbn [bind]. rewrite wrap_small by lia. rewrite geti_ok by lia. cbn [bind].
      assert (E3 : 63 - Z.land (nb - 1) 63 = 64 - (nb - 64 * last)).
      { change 63 with (Z.ones 6) at 2. rewrite Z.land_ones by lia. change (2 ^ 6) with 64. unfold last. lia. }
      rewrite E3. rewrite shr64_ok by lia. cbn [bind]. rewrite part_word by (auto; lia).
      replace (64 * (x + last) + (nb - 64 * last)) with (64 * x + nb) by lia.
      rewrite Z.add_0_l, Z2Nat.id in Hp by lia. subst p. rewrite <- ms_split by lia.
      pose proof (ms_bound ws (64 * x) (64 * x + nb) ltac:(lia)). rewrite wrap_small by lia. reflexivity.
Qed.

(** ** One L2 entry *)
Lemma lor_high a b k : 0 <= k -> 0 <= a < 2 ^ k -> 0 <= b -> Z.lor a (Z.shiftl b k) = a + 2 ^ k * b.
Proof.
  intros Hk Ha Hb. rewrite Z.shiftl_mul_pow2 by lia. symmetry.
  rewrite <- Z.lxor_lor, <- Z.add_nocarry_lxor; [f_equal; apply Z.mul_comm| |].
  all: apply Z.bits_inj'; intros n Hn; rewrite Z.land_spec, Z.bits_0; destruct (Z_lt_le_dec n k);
    [rewrite Z.mul_pow2_bits_low by lia; apply andb_false_r|].
  all: destruct (Z.eq_dec a 0) as [->|]; [rewrite Z.bits_0; reflexivity|];
    rewrite Z.bits_above_log2; [reflexivity|lia|]; apply Z.log2_lt_pow2; [lia|];
    apply Z.lt_le_trans with (2 ^ k); [lia|]; apply Z.pow_le_mono_r; lia.
Qed.

Definition blk (ws : list Z) (b : Z) : Z := ms ws (512 * b) (512 * (b + 1)).
Definition l2_entry (ws : list Z) (g : Z) : Z :=
  ms ws 0 (2048 * g) + 2 ^ 32 * (blk ws (4 * g) + 1024 * (blk ws (4 * g + 1) + 1024 * blk ws (4 * g + 2))).

Lemma blk_bound ws b : 0 <= blk ws b <= 512.
Proof. unfold blk. pose proof (ms_bound ws (512 * b) (512 * (b + 1)) ltac:(lia)). lia. Qed.

Lemma l2_step_ok ws l2 g : words ws -> 64 * zlen ws < 2 ^ 64 -> 0 <= g < zlen l2 -> g < 2 ^ 21 -> 2048 * (g + 1) <= 64 * zlen ws ->
  l2_step ws (l2, g, 4 * g, ms ws 0 (2048 * g)) =
    Ok (upd l2 g (l2_entry ws g), g + 1, 4 * (g + 1), u32 (ms ws 0 (2048 * (g + 1)))).
Proof.
  intros W Hl Hg Hg2 Hin. unfold l2_step. rewrite seti_ok by lia. cbn [bind]. cbn [foldM].
  assert (PL : forall b, 4 * g <= b < 4 * g + 4 -> popcount_linear ws (u64 (b * 8)) 512 = Ok (blk ws b)).
  { intros b Hb. rewrite wrap_small by lia. rewrite popcount_linear_ok by (auto; lia). unfold blk. f_equal. f_equal; lia. }
  pose proof (ms_bound ws 0 (2048 * g) ltac:(lia)) as B0.
  pose proof (blk_bound ws (4 * g)). pose proof (blk_bound ws (4 * g + 1)). pose proof (blk_bound ws (4 * g + 2)).
  pose proof (blk_bound ws (4 * g + 3)).
  rewrite PL by lia. cbn [bind]. rewrite (wrap_small 64 (4 * g + 1)) by lia.
  rewrite PL by lia. cbn [bind]. rewrite (wrap_small 64 (4 * g + 1 + 1)) by lia. replace (4 * g + 1 + 1) with (4 * g + 2) by lia.
  rewrite PL by lia. cbn [bind]. rewrite (wrap_small 64 (4 * g + 2 + 1)) by lia. replace (4 * g + 2 + 1) with (4 * g + 3) by lia.
  rewrite seti_ok by (rewrite zlen_upd; lia). cbn [bind]. rewrite PL by lia. cbn [bind].
  assert (E : Z.lor (Z.lor (Z.lor (ms ws 0 (2048 * g)) (u64 (Z.shiftl (blk ws (4 * g)) (32 + 0))))
     (u64 (Z.shiftl (blk ws (4 * g + 1)) (32 + 10)))) (u64 (Z.shiftl (blk ws (4 * g + 2)) (32 + 20))) = l2_entry ws g).
  { rewrite !(wrap_small 64) by (rewrite Z.shiftl_mul_pow2 by lia; lia). unfold l2_entry.
    change (32 + 0) with 32. change (32 + 10) with 42. change (32 + 20) with 52.
    rewrite (lor_high _ _ 32) by lia. rewrite (lor_high _ _ 42) by lia. rewrite (lor_high _ _ 52) by lia. lia. }
  rewrite E.
  assert (EU : upd (upd l2 g (ms ws 0 (2048 * g))) g (l2_entry ws g) = upd l2 g (l2_entry ws g)).
  { apply (list_ext 0); [rewrite !zlen_upd; reflexivity|]. intros i Hi. rewrite !zlen_upd in Hi.
    rewrite !zn_upd by (rewrite ?zlen_upd; lia). destruct (i =? g); reflexivity. }
  rewrite EU. rewrite !(wrap_small 64) by lia.
  rewrite (wrap_small 32 (ms ws 0 (2048 * g) + blk ws (4 * g))) by lia.
  rewrite (wrap_small 32 (ms ws 0 (2048 * g) + blk ws (4 * g) + blk ws (4 * g + 1))) by lia.
  rewrite (wrap_small 32 (ms ws 0 (2048 * g) + blk ws (4 * g) + blk ws (4 * g + 1) + blk ws (4 * g + 2))) by lia.
  unfold blk in *.
  replace (ms ws 0 (2048 * g) + ms ws (512 * (4 * g)) (512 * (4 * g + 1)) + ms ws (512 * (4 * g + 1)) (512 * (4 * g + 1 + 1)) +
           ms ws (512 * (4 * g + 2)) (512 * (4 * g + 2 + 1)) + ms ws (512 * (4 * g + 3)) (512 * (4 * g + 3 + 1)))
    with (ms ws 0 (2048 * (g + 1))).
  2:{ rewrite (ms_split ws 0 (2048 * g) (2048 * (g + 1))) by lia.
      rewrite (ms_split ws (2048 * g) (512 * (4 * g + 1)) (2048 * (g + 1))) by lia.
      rewrite (ms_split ws (512 * (4 * g + 1)) (512 * (4 * g + 2)) (2048 * (g + 1))) by lia.
      rewrite (ms_split ws (512 * (4 * g + 2)) (512 * (4 * g + 3)) (2048 * (g + 1))) by lia.
      replace (512 * (4 * g)) with (2048 * g) by lia. replace (512 * (4 * g + 1 + 1)) with (512 * (4 * g + 2)) by lia.
      replace (512 * (4 * g + 2 + 1)) with (512 * (4 * g + 3)) by lia. replace (512 * (4 * g + 3 + 1)) with (2048 * (g + 1)) by lia. lia. }
  replace (4 * g + 3 + 1) with (4 * (g + 1)) by lia. reflexivity.
Qed.

(** ** The constructor *)
Lemma fold_fail {S} (f : S -> Z -> res S) (P : Z -> S -> Prop) (over : Z -> Prop) n : (forall a b, a <= b -> over a -> over b) ->
  forall lo s, P lo s ->
  (forall k s, lo <= k < lo + Z.of_nat n -> P k s ->
     (exists s', f s k = Ok s' /\ P (k + 1) s') \/ (f s k = Ub UB_bounds /\ over (k + 1))) ->
  (exists s', foldM f (zrange lo n) s = Ok s' /\ P (lo + Z.of_nat n) s') \/
  (foldM f (zrange lo n) s = Ub UB_bounds /\ over (lo + Z.of_nat n)).
Proof.
  intros MO. induction n; intros lo s H0 HS.
  - left. exists s. cbn. replace (lo + 0) with lo by lia. auto.
  - cbn [zrange foldM]. destruct (HS lo s ltac:(lia) H0) as [(s1 & E1 & H1)|(E1 & H1)]; rewrite E1; cbn [bind].
    + replace (lo + Z.of_nat (Datatypes.S n)) with (lo + 1 + Z.of_nat n) by lia. apply (IHn (lo + 1) s1 H1).
      intros; apply HS; auto; lia.
    + right. split; [reflexivity|]. apply (MO (lo + 1)); [lia|exact H1].
Qed.

Definition groups (n : Z) : Z := Z.min (2 ^ 21) (n / 2048).
Definition blocks (n : Z) : Z := Z.min (2 ^ 23) (n / 512).

Lemma rank_bits_groups n : rank_bits n = 2048 * groups n.
Proof. unfold rank_bits, groups. lia. Qed.
Lemma select_bits_blocks n : select_bits n = 512 * blocks n.
Proof. unfold select_bits, blocks. lia. Qed.

Lemma pass1 ws n l2 : words ws -> n = 64 * zlen ws -> 2048 <= n < 2 ^ 33 -> zlen l2 = n / 2048 ->
  exists l2', foldM (fun s _ => l2_step ws s) (zrange 0 (trips (2 ^ 21) (n / 2048) 0)) (l2, 0, 0, 0) =
      Ok (l2', groups n, 4 * groups n, u32 (ms ws 0 (2048 * groups n))) /\
    zlen l2' = zlen l2 /\ forall g, 0 <= g < groups n -> zn 0 l2' g = l2_entry ws g.
Proof.
  intros W En Hn Hl.
  destruct (foldM_inv (fun (s : list Z * Z * Z * Z) (_ : Z) => l2_step ws s)
    (fun g st => let '(l2', id, b, cum) := st in id = g /\ b = 4 * g /\ cum = u32 (ms ws 0 (2048 * g)) /\
       zlen l2' = zlen l2 /\ forall i, 0 <= i < g -> zn 0 l2' i = l2_entry ws i)
    (trips (2 ^ 21) (n / 2048) 0) 0 (l2, 0, 0, 0)) as (st & E & P).
  - repeat split. intros; lia.
  - intros g [[[l id] b] cum] Hg (-> & -> & -> & L & P). unfold trips in Hg.
    pose proof (ms_bound ws 0 (2048 * g) ltac:(lia)). rewrite (wrap_small 32) by lia.
    rewrite l2_step_ok by (auto; lia). eexists. split; [reflexivity|]. cbv beta iota.
    repeat split; [rewrite zlen_upd; auto|]. intros i Hi. rewrite zn_upd by lia.
    destruct (Z.eqb_spec i g) as [->|]; [reflexivity|]. apply P. lia.
  - destruct st as [[[l id] b] cum]. destruct P as (-> & -> & -> & L & P).
    assert (EG : 0 + Z.of_nat (trips (2 ^ 21) (n / 2048) 0) = groups n) by (unfold trips, groups; lia).
    rewrite EG in *. exists l. auto.
Qed.

(** The select directory after p bits. *)
Definition loc_ok (ws : list Z) (cap p : Z) (st : Z * list Z * Z) : Prop :=
  let '(ones, loc, cnt) := st in
  ones = u32 (ms ws 0 p) /\ cnt = cdiv (ms ws 0 p) 8192 /\ zlen loc = cap /\ cnt <= cap /\
  forall j, 0 <= j < cnt -> 0 <= zn 0 loc j < p /\ mb ws (zn 0 loc j) = 1 /\ ms ws 0 (zn 0 loc j) = 8192 * j.
Definition loc_over (ws : list Z) (cap p : Z) : Prop := cap < cdiv (ms ws 0 (Z.max 0 p)) 8192.

Lemma loc_over_mono ws cap a b : a <= b -> loc_over ws cap a -> loc_over ws cap b.
Proof.
  unfold loc_over, cdiv. intros H O. pose proof (ms_mono ws 0 (Z.max 0 a) (Z.max 0 b) ltac:(lia)). lia.
Qed.

Lemma loc_bit_ok ws cap p s : 0 <= p < 2 ^ 32 -> loc_ok ws cap p s -> cap < 2 ^ 32 ->
  (exists s', loc_bit (zn 0 ws (p / 64)) p (p mod 64) s = Ok s' /\ loc_ok ws cap (p + 1) s') \/
  (loc_bit (zn 0 ws (p / 64)) p (p mod 64) s = Ub UB_bounds /\ loc_over ws cap (p + 1)).
Proof.
  intros Hp H Hc. destruct s as [[ones loc] cnt]. destruct H as (-> & Ec & L & Lc & P). unfold loc_bit.
  pose proof (ms_succ ws 0 p ltac:(lia)) as S. pose proof (ms_bound ws 0 p ltac:(lia)) as B.
  assert (EM : mb ws p = b2z (Z.testbit (zn 0 ws (p / 64)) (63 - p mod 64))) by reflexivity.
  destruct (Z.testbit (zn 0 ws (p / 64)) (63 - p mod 64)); cbn [b2z] in EM.
  - cbv zeta. rewrite wrap_add_l. assert (EL : Z.land (u32 (ms ws 0 p + 1)) 8191 = (ms ws 0 p + 1) mod 8192).
    { change 8191 with (Z.ones 13). rewrite Z.land_ones by lia. unfold wrap. change (2 ^ 13) with 8192. lia. }
    rewrite EL. destruct (Z.eqb_spec ((ms ws 0 p + 1) mod 8192) 1) as [E1|E1].
    + assert (EC : cdiv (ms ws 0 (p + 1)) 8192 = cnt + 1) by (unfold cdiv in *; lia).
      destruct (Z_lt_le_dec cnt cap) as [H|H].
      * left. rewrite seti_ok by (unfold cdiv in *; lia). cbn [bind]. eexists. split; [reflexivity|]. cbv beta iota delta [loc_ok].
        rewrite S, EM. split; [reflexivity|]. split; [rewrite wrap_small by (unfold cdiv in *; lia); rewrite <- EC, S, EM; reflexivity|].
        split; [rewrite zlen_upd; exact L|]. split; [rewrite wrap_small; unfold cdiv in *; lia|].
        intros j Hj. rewrite (wrap_small 32 (cnt + 1)) in Hj by (unfold cdiv in *; lia).
        rewrite zn_upd by (unfold cdiv in *; lia). destruct (Z.eqb_spec j cnt) as [->|].
        -- rewrite (wrap_small 32 p) by lia. split; [lia|]. split; [exact EM|]. unfold cdiv in *; lia.
        -- destruct (P j ltac:(lia)) as (? & ? & ?). split; [lia|]. auto.
      * right. split; [|unfold loc_over; rewrite Z.max_r by lia; lia]. unfold seti.
        replace ((0 <=? cnt) && (cnt <? zlen loc)) with false by lia. reflexivity.
    + assert (EC : cdiv (ms ws 0 (p + 1)) 8192 = cnt) by (unfold cdiv in *; lia).
      left. eexists. split; [reflexivity|]. cbv beta iota delta [loc_ok]. rewrite EC, S, EM. repeat split; try lia; auto;
        destruct (P j ltac:(lia)) as (? & ? & ?); auto; lia.
  - left. eexists. split; [reflexivity|]. cbv beta iota delta [loc_ok]. rewrite S, EM, Z.add_0_r. repeat split; try lia; auto;
      destruct (P j ltac:(lia)) as (? & ? & ?); auto; lia.
Qed.

Lemma pass2 ws n cap loc : words ws -> n = 64 * zlen ws -> 512 <= n < 2 ^ 33 -> zlen loc = cap -> 0 <= cap < 2 ^ 32 ->
  (exists s, foldM (loc_block ws) (zrange 0 (trips (2 ^ 23) (n / 512) 0)) (0, (0, loc, 0)) = Ok (blocks n, s) /\
     loc_ok ws cap (512 * blocks n) s) \/
  (foldM (loc_block ws) (zrange 0 (trips (2 ^ 23) (n / 512) 0)) (0, (0, loc, 0)) = Ub UB_bounds /\
     loc_over ws cap (512 * blocks n)).
Proof.
  intros W En Hn Hl Hc.
  assert (EB : 0 + Z.of_nat (trips (2 ^ 23) (n / 512) 0) = blocks n) by (unfold trips, blocks; lia).
  destruct (fold_fail (loc_block ws) (fun k st => fst st = k /\ loc_ok ws cap (512 * k) (snd st)) (fun k => loc_over ws cap (512 * k))
    (trips (2 ^ 23) (n / 512) 0) ltac:(intros a b H; apply loc_over_mono; lia) 0 (0, (0, loc, 0))) as [(st & E & P)|(E & P)].
  - cbn [fst snd]. split; [reflexivity|]. cbv beta iota delta [loc_ok]. change (512 * 0) with 0. rewrite ms_empty. unfold cdiv.
    change ((0 + 8192 - 1) / 8192) with 0. repeat split; try lia.
  - intros k [b s] Hk [Eb P]. cbn [fst snd] in *. subst b. rewrite EB in Hk. unfold blocks in Hk. unfold loc_block.
    rewrite (wrap_small 64 (k * 8)) by lia. cbv zeta.
    destruct (fold_fail (fun s widx => foldM (fun s bit => let* w := geti ws (u64 (k * 8 + widx)) in
        loc_bit w (k * 512 + widx * 64 + bit) bit s) (zrange 0 64) s)
      (fun j s => loc_ok ws cap (512 * k + 64 * j) s) (fun j => loc_over ws cap (512 * k + 64 * j)) 8
      ltac:(intros a b H; apply loc_over_mono; lia) 0 s) as [(s2 & E2 & P2)|(E2 & P2)].
    + replace (512 * k + 64 * 0) with (512 * k) by lia. exact P.
    + intros j s1 Hj P1.
      destruct (fold_fail (fun s bit => let* w := geti ws (u64 (k * 8 + j)) in loc_bit w (k * 512 + j * 64 + bit) bit s)
        (fun b s => loc_ok ws cap (512 * k + 64 * j + b) s) (fun b => loc_over ws cap (512 * k + 64 * j + b)) 64
        ltac:(intros a b H; apply loc_over_mono; lia) 0 s1) as [(s3 & E3 & P3)|(E3 & P3)].
      * rewrite Z.add_0_r. exact P1.
      * intros b s3 Hb P3. rewrite (wrap_small 64) by lia. rewrite geti_ok by lia. cbn [bind].
        assert (E64 : (512 * k + 64 * j + b) / 64 = k * 8 + j) by lia. assert (M64 : (512 * k + 64 * j + b) mod 64 = b) by lia.
        pose proof (loc_bit_ok ws cap (512 * k + 64 * j + b) s3 ltac:(lia) P3 ltac:(lia)) as LB.
        rewrite E64, M64 in LB. replace (k * 512 + j * 64 + b) with (512 * k + 64 * j + b) by lia.
        replace (512 * k + 64 * j + (b + 1)) with (512 * k + 64 * j + b + 1) by lia. exact LB.
      * left. exists s3. split; [exact E3|]. replace (512 * k + 64 * (j + 1)) with (512 * k + 64 * j + (0 + Z.of_nat 64)) by lia. exact P3.
      * right. split; [exact E3|]. replace (512 * k + 64 * (j + 1)) with (512 * k + 64 * j + (0 + Z.of_nat 64)) by lia. exact P3.
    + left. rewrite E2. cbn [bind]. eexists. split; [reflexivity|]. cbn [fst snd]. split; [apply wrap_small; lia|].
      replace (512 * (k + 1)) with (512 * k + 64 * (0 + Z.of_nat 8)) by lia. exact P2.
    + right. rewrite E2. split; [reflexivity|]. replace (512 * (k + 1)) with (512 * k + 64 * (0 + Z.of_nat 8)) by lia. exact P2.
  - left. destruct st as [b s]. cbn [fst snd] in P. destruct P as [-> P]. rewrite EB in *. exists s. auto.
  - right. rewrite EB in P. auto.
Qed.

(** The index of [ws]. *)
Record pinv (ws : list Z) (t : poppy) : Prop := {
  pi_bits : p_bits t = ws;
  pi_n : p_nbits t = 64 * zlen ws;
  pi_l1 : p_l1 t = [0];
  pi_l2 : zlen (p_l2 t) = 64 * zlen ws / 2048;
  pi_entry : forall g, 0 <= g < groups (64 * zlen ws) -> zn 0 (p_l2 t) g = l2_entry ws g;
  pi_loc : exists loc, p_loc t = [loc] /\ zlen loc = cdiv (ms ws 0 (rank_bits (64 * zlen ws))) 8192 /\
    forall j, 0 <= j < zlen loc -> 0 <= zn 0 loc j /\ mb ws (zn 0 loc j) = 1 /\ ms ws 0 (zn 0 loc j) = 8192 * j;
  pi_cnt : p_loc_count t = [cdiv (ms ws 0 (rank_bits (64 * zlen ws))) 8192];
  pi_count : p_count t = ms ws 0 (rank_bits (64 * zlen ws)) }.

Lemma cdiv_select ws n : 0 <= n ->
  cdiv (ms ws 0 (rank_bits n)) 8192 <= cdiv (ms ws 0 (select_bits n)) 8192.
Proof.
  intros Hn. assert (B : 0 <= rank_bits n <= select_bits n) by (unfold rank_bits, select_bits; lia).
  pose proof (ms_mono ws 0 _ _ B). unfold cdiv. lia.
Qed.

Lemma poppy_new_ok junk ws n : words ws -> n = 64 * zlen ws -> 2048 <= n < 2 ^ 33 -> ms ws 0 (rank_bits n) + 8191 < 2 ^ 32 ->
  (cdiv (ms ws 0 (select_bits n)) 8192 = cdiv (ms ws 0 (rank_bits n)) 8192 /\ exists t, poppy_new junk ws n = Ok t /\ pinv ws t) \/
  (cdiv (ms ws 0 (rank_bits n)) 8192 < cdiv (ms ws 0 (select_bits n)) 8192 /\ poppy_new junk ws n = Ub UB_bounds).
Proof.
  intros W En Hn Ht. unfold poppy_new. cbv zeta. rewrite !Z.shiftr_div_pow2 by lia.
  change (2 ^ 11) with 2048. replace (Z.max (n / 2 ^ 32) 1) with 1 by lia. change (zrange 0 (Z.to_nat 1)) with [0].
  cbn [map foldM bind]. set (l2 := map junk _).
  assert (Hl2 : zlen l2 = n / 2048) by (unfold l2; rewrite zlen_map; unfold zlen; rewrite length_zrange; lia).
  destruct (pass1 ws n l2 W En Hn Hl2) as (l2' & E1 & L1 & P1).
  assert (ES : l1_step ws (n / 2048) ([junk 0], l2, 0, 0, [], 0) 0 =
    Ok ([0], l2', groups n, 4 * groups n, [cdiv (ms ws 0 (rank_bits n)) 8192], ms ws 0 (rank_bits n))).
  { unfold l1_step. change (seti [junk 0] 0 0) with (Ok [0] : res (list Z)). cbn [bind]. rewrite E1. cbn [bind app].
    rewrite <- rank_bits_groups in *.
    pose proof (ms_bound ws 0 (rank_bits n) ltac:(unfold rank_bits; lia)).
    rewrite !(wrap_small 32) by (rewrite ?(wrap_small 32); lia). rewrite (wrap_small 64) by lia. unfold cdiv. f_equal. }
  rewrite ES. cbn [bind foldM]. unfold loc_step.
  set (loc := map junk _). set (cap := cdiv (ms ws 0 (rank_bits n)) 8192) in *.
  assert (Hcap : 0 <= cap < 2 ^ 32).
  { unfold cap, cdiv. pose proof (ms_bound ws 0 (rank_bits n) ltac:(unfold rank_bits; lia)). lia. }
  assert (Hloc : zlen loc = cap) by (unfold loc; rewrite zlen_map; unfold zlen; rewrite length_zrange; lia).
  pose proof (cdiv_select ws n ltac:(lia)) as CS. fold cap in CS.
  destruct (pass2 ws n cap loc W En ltac:(lia) Hloc Hcap) as [([[ones loc'] cnt] & E2 & P2)|(E2 & P2)]; rewrite E2; cbn [bind app].
  - left. rewrite <- select_bits_blocks in P2. destruct P2 as (_ & EC & LL & LC & PJ).
    assert (EQ : cdiv (ms ws 0 (select_bits n)) 8192 = cap) by lia. split; [exact EQ|]. eexists. split; [reflexivity|].
    constructor; cbn [p_bits p_nbits p_l1 p_l2 p_loc p_loc_count p_count]; rewrite <- ?En; auto; try lia.
    + exists loc'. split; [reflexivity|]. split; [exact LL|]. intros j Hj. destruct (PJ j ltac:(lia)) as (? & ? & ?). repeat split; auto; lia.
    + rewrite EC, EQ. reflexivity.
  - right. rewrite <- select_bits_blocks in P2. unfold loc_over in P2.
    rewrite Z.max_r in P2 by (unfold select_bits; lia). split; [exact P2|]. reflexivity.
Qed.

Lemma poppy_new_small junk ws n : 0 <= n < 2048 -> poppy_new junk ws n = Ub UB_bounds.
Proof.
  intros Hn. unfold poppy_new. cbv zeta. rewrite !Z.shiftr_div_pow2 by lia.
  change (2 ^ 11) with 2048. replace (Z.max (n / 2 ^ 32) 1) with 1 by lia. replace (n / 2048) with 0 by lia. reflexivity.
Qed.

(** ** rank *)
Lemma entry_low ws g : 0 <= g < 2 ^ 21 -> Z.land (l2_entry ws g) 0xFFFFFFFF = ms ws 0 (2048 * g).
Proof.
  intros Hg. change 0xFFFFFFFF with (Z.ones 32). rewrite Z.land_ones by lia. unfold l2_entry.
  pose proof (ms_bound ws 0 (2048 * g) ltac:(lia)). rewrite (Z.mul_comm (2 ^ 32)), Z.mod_add by lia. apply Z.mod_small. lia.
Qed.

Lemma entry_high ws g : 0 <= g < 2 ^ 21 ->
  Z.shiftr (l2_entry ws g) 32 = blk ws (4 * g) + 1024 * (blk ws (4 * g + 1) + 1024 * blk ws (4 * g + 2)).
Proof.
  intros Hg. rewrite Z.shiftr_div_pow2 by lia. unfold l2_entry.
  pose proof (ms_bound ws 0 (2048 * g) ltac:(lia)). rewrite (Z.mul_comm (2 ^ 32)), Z.div_add by lia. rewrite Z.div_small by lia. lia.
Qed.

Lemma low10 a b : 0 <= a < 1024 -> Z.land (a + 1024 * b) 1023 = a.
Proof. intros H. change 1023 with (Z.ones 10). rewrite Z.land_ones by lia. change (2 ^ 10) with 1024. lia. Qed.
Lemma high10 a b : 0 <= a < 1024 -> Z.shiftr (a + 1024 * b) 10 = b.
Proof. intros H. rewrite Z.shiftr_div_pow2 by lia. change (2 ^ 10) with 1024. lia. Qed.

Lemma poppy_rank_ok dbg ws t pos : words ws -> 64 * zlen ws < 2 ^ 33 -> pinv ws t -> 0 <= pos < rank_bits (64 * zlen ws) ->
  poppy_rank dbg t pos = Ok (ms ws 0 pos).
Proof.
  intros W Hn I Hp. unfold poppy_rank. rewrite massert_true by (rewrite (pi_n _ _ I); unfold rank_bits in Hp; lia). cbn [bind].
  rewrite !(Z.shiftr_div_pow2 pos) by lia. change (2 ^ 11) with 2048. replace (pos / 2 ^ 32) with 0 by (unfold rank_bits in Hp; lia).
  set (g := pos / 2048). assert (Hg : 0 <= g < groups (64 * zlen ws)) by (unfold g; rewrite rank_bits_groups in Hp; lia).
  assert (HG : groups (64 * zlen ws) <= 2 ^ 21 /\ groups (64 * zlen ws) <= 64 * zlen ws / 2048) by (unfold groups; lia).
  rewrite geti_ok by (rewrite (pi_l2 _ _ I); lia). cbn [bind]. rewrite (pi_entry _ _ I) by lia. rewrite (pi_l1 _ _ I).
  change (geti [0] 0) with (Ok 0 : res Z). cbn [bind]. rewrite entry_low by lia.
  rewrite entry_high by lia.
  change 2047 with (Z.ones 11). change 511 with (Z.ones 9). rewrite !Z.land_ones by lia. change (2 ^ 11) with 2048. change (2 ^ 9) with 512.
  set (q := pos mod 2048 / 512). assert (Hq : 0 <= q < 4) by (unfold q; lia).
  assert (Ep : pos = 2048 * g + 512 * q + pos mod 512) by (unfold g, q; lia).
  rewrite (pi_bits _ _ I). rewrite (wrap_small 64 ((g * 4 + q) * 8)) by lia.
  rewrite popcount_linear_ok by (auto; lia).
  replace (64 * ((g * 4 + q) * 8) + pos mod 512) with pos by lia. replace (64 * ((g * 4 + q) * 8)) with (2048 * g + 512 * q) by lia.
  pose proof (ms_bound ws 0 (2048 * g) ltac:(lia)). pose proof (blk_bound ws (4 * g)). pose proof (blk_bound ws (4 * g + 1)).
  pose proof (blk_bound ws (4 * g + 2)). pose proof (ms_bound ws (2048 * g + 512 * q) pos ltac:(lia)).
  rewrite Z.add_0_l. rewrite (wrap_small 64 (ms ws 0 (2048 * g))) by lia.
  assert (B0 : ms ws 0 (2048 * g) + blk ws (4 * g) = ms ws 0 (2048 * g + 512)).
  { rewrite (ms_split ws 0 (2048 * g) (2048 * g + 512)) by lia. unfold blk. f_equal. f_equal; lia. }
  assert (B1 : ms ws 0 (2048 * g + 512) + blk ws (4 * g + 1) = ms ws 0 (2048 * g + 1024)).
  { rewrite (ms_split ws 0 (2048 * g + 512) (2048 * g + 1024)) by lia. unfold blk. f_equal. f_equal; lia. }
  assert (B2 : ms ws 0 (2048 * g + 1024) + blk ws (4 * g + 2) = ms ws 0 (2048 * g + 1536)).
  { rewrite (ms_split ws 0 (2048 * g + 1024) (2048 * g + 1536)) by lia. unfold blk. f_equal. f_equal; lia. }
  assert (SP : ms ws 0 pos = ms ws 0 (2048 * g + 512 * q) + ms ws (2048 * g + 512 * q) pos) by (apply ms_split; lia).
  pose proof (ms_bound ws 0 pos ltac:(lia)).
  assert (Cq : q = 0 \/ q = 1 \/ q = 2 \/ q = 3) by lia.
  destruct Cq as [Eq|[Eq|[Eq|Eq]]]; rewrite Eq in *.
  - change (zrange 0 (Z.to_nat 0)) with (@nil Z). cbn [fold_left bind]. rewrite Z.mul_0_r, Z.add_0_r in *. rewrite <- SP. rewrite wrap_small by lia. reflexivity.
  - change (zrange 0 (Z.to_nat 1)) with [0]. cbn [fold_left bind]. rewrite low10 by lia. rewrite B0. change (512 * 1) with 512 in *.
    rewrite !(wrap_small 64) by (rewrite ?(wrap_small 64); lia). rewrite SP. reflexivity.
  - change (zrange 0 (Z.to_nat 2)) with [0; 1]. cbn [fold_left bind]. rewrite low10, high10 by lia. rewrite B0, low10 by lia.
    rewrite (wrap_small 64 (ms ws 0 (2048 * g + 512))) by lia. rewrite B1. change (512 * 2) with 1024 in *.
    rewrite !(wrap_small 64) by (rewrite ?(wrap_small 64); lia). rewrite SP. reflexivity.
  - change (zrange 0 (Z.to_nat 3)) with [0; 1; 2]. cbn [fold_left bind]. rewrite low10, high10 by lia. rewrite B0, low10, high10 by lia.
    rewrite (wrap_small 64 (ms ws 0 (2048 * g + 512))) by lia. rewrite B1.
    rewrite (wrap_small 64 (ms ws 0 (2048 * g + 1024))) by lia.
    replace (Z.land (blk ws (4 * g + 2)) 1023) with (blk ws (4 * g + 2)).
    2:{ change 1023 with (Z.ones 10). rewrite Z.land_ones by lia. rewrite Z.mod_small; lia. }
    rewrite B2. change (512 * 3) with 1536 in *.
    rewrite !(wrap_small 64) by (rewrite ?(wrap_small 64); lia). rewrite SP. reflexivity.
Qed.

Lemma poppy_rank_out dbg ws t pos : 64 * zlen ws < 2 ^ 33 -> pinv ws t -> rank_bits (64 * zlen ws) <= pos <= 64 * zlen ws ->
  poppy_rank dbg t pos = Ub UB_bounds.
Proof.
  intros Hn I Hp. unfold poppy_rank. rewrite massert_true by (rewrite (pi_n _ _ I); lia). cbn [bind].
  rewrite !Z.shiftr_div_pow2 by lia. change (2 ^ 11) with 2048. unfold geti at 1. rewrite (pi_l2 _ _ I).
  destruct ((0 <=? pos / 2048) && (pos / 2048 <? 64 * zlen ws / 2048)) eqn:E; [|reflexivity]. cbn [bind].
  unfold geti. rewrite (pi_l1 _ _ I). change (zlen [0]) with 1.
  replace ((0 <=? pos / 2 ^ 32) && (pos / 2 ^ 32 <? 1)) with false by (unfold rank_bits in Hp; lia). reflexivity.
Qed.

(** ** select *)
Lemma find_l2_ok ws l2 max rank : forall fuel id, 0 <= id < max -> max <= 2 ^ 21 -> max <= zlen l2 -> max - id <= Z.of_nat fuel ->
  (forall g, 0 <= g < max -> zn 0 l2 g = l2_entry ws g) -> ms ws 0 (2048 * id) < rank <= ms ws 0 (2048 * max) ->
  exists g, find_l2 fuel l2 max id rank = Ok g /\ 0 <= g < max /\ ms ws 0 (2048 * g) < rank <= ms ws 0 (2048 * (g + 1)).
Proof.
  induction fuel as [|f IH]; intros id Hid Hm Hl Hf HE Hr; [lia|]. cbn [find_l2]. rewrite wrap_small by lia.
  destruct (Z.ltb_spec (id + 1) max) as [H|H].
  - rewrite geti_ok by lia. cbn [bind]. rewrite HE, entry_low by lia.
    destruct (Z.ltb_spec (ms ws 0 (2048 * (id + 1))) rank) as [H1|H1].
    + apply IH; auto; lia.
    + exists id. split; [reflexivity|]. split; [lia|]. lia.
  - exists id. split; [reflexivity|]. split; [lia|]. replace (id + 1) with max by lia. lia.
Qed.

Lemma find_group_ok ws g rank : 0 <= g < 2 ^ 21 -> 1 <= rank <= ms ws (2048 * g) (2048 * (g + 1)) ->
  exists q, find_group 3 0 (Z.shiftr (l2_entry ws g) 32) rank = (q, rank - ms ws (2048 * g) (2048 * g + 512 * q)) /\ 0 <= q <= 3 /\
    ms ws (2048 * g) (2048 * g + 512 * q) < rank <= ms ws (2048 * g) (2048 * g + 512 * (q + 1)).
Proof.
  intros Hg Hr. rewrite entry_high by lia.
  pose proof (blk_bound ws (4 * g)). pose proof (blk_bound ws (4 * g + 1)). pose proof (blk_bound ws (4 * g + 2)).
  assert (B0 : blk ws (4 * g) = ms ws (2048 * g) (2048 * g + 512)) by (unfold blk; f_equal; lia).
  assert (B1 : ms ws (2048 * g) (2048 * g + 512) + blk ws (4 * g + 1) = ms ws (2048 * g) (2048 * g + 1024)).
  { rewrite (ms_split ws (2048 * g) (2048 * g + 512) (2048 * g + 1024)) by lia. unfold blk. f_equal. f_equal; lia. }
  assert (B2 : ms ws (2048 * g) (2048 * g + 1024) + blk ws (4 * g + 2) = ms ws (2048 * g) (2048 * g + 1536)).
  { rewrite (ms_split ws (2048 * g) (2048 * g + 1024) (2048 * g + 1536)) by lia. unfold blk. f_equal. f_equal; lia. }
  pose proof (ms_empty ws (2048 * g)) as M0.
  cbn [find_group]. rewrite low10, high10 by lia. destruct (rank >? blk ws (4 * g)) eqn:E0.
  - rewrite low10, high10 by lia. destruct (rank - blk ws (4 * g) >? blk ws (4 * g + 1)) eqn:E1.
    + replace (Z.land (blk ws (4 * g + 2)) 1023) with (blk ws (4 * g + 2)).
      2:{ change 1023 with (Z.ones 10). rewrite Z.land_ones by lia. rewrite Z.mod_small; lia. }
      destruct (rank - blk ws (4 * g) - blk ws (4 * g + 1) >? blk ws (4 * g + 2)) eqn:E2.
      * exists 3. change (0 + 1 + 1 + 1) with 3. change (512 * 3) with 1536. change (512 * (3 + 1)) with 2048.
        replace (2048 * (g + 1)) with (2048 * g + 2048) in Hr by lia. split; [f_equal; lia|lia].
      * exists 2. change (0 + 1 + 1) with 2. change (512 * 2) with 1024. change (512 * (2 + 1)) with 1536. split; [f_equal; lia|lia].
    + exists 1. change (0 + 1) with 1. change (512 * 1) with 512. change (512 * (1 + 1)) with 1024. split; [f_equal; lia|lia].
  - exists 0. change (512 * 0) with 0. change (512 * (0 + 1)) with 512. rewrite Z.add_0_r, M0. split; [f_equal; lia|lia].
Qed.

Lemma word_loop_ok ws x : words ws -> 0 <= x -> x + 8 <= zlen ws -> forall fuel i k, 0 <= i -> i + Z.of_nat fuel = 7 ->
  1 <= k <= ms ws (64 * (x + i)) (64 * (x + 8)) ->
  exists j, word_loop fuel ws x i k (popcount (zn 0 ws (x + i))) = Ok (j, k - ms ws (64 * (x + i)) (64 * (x + j)), popcount (zn 0 ws (x + j))) /\
    i <= j <= 7 /\ 1 <= k - ms ws (64 * (x + i)) (64 * (x + j)) <= popcount (zn 0 ws (x + j)).
Proof.
  intros W Hx Hl. induction fuel as [|f IH]; intros i k Hi Hf Hk; cbn [word_loop].
  - exists i. rewrite ms_empty, Z.sub_0_r. split; [reflexivity|]. split; [lia|]. rewrite full_word by (auto; lia).
    replace (64 * (x + i + 1)) with (64 * (x + 8)) by lia. exact Hk.
  - destruct (k >? popcount (zn 0 ws (x + i))) eqn:E.
    + rewrite geti_ok by lia. cbn [bind]. rewrite full_word in * by (auto; lia).
      rewrite (ms_split ws (64 * (x + i)) (64 * (x + i + 1)) (64 * (x + 8))) in Hk by lia.
      replace (64 * (x + i + 1)) with (64 * (x + (i + 1))) in * by lia.
      destruct (IH (i + 1) (k - ms ws (64 * (x + i)) (64 * (x + (i + 1)))) ltac:(lia) ltac:(lia) ltac:(lia)) as (j & Ej & Hj & Hk').
      exists j. rewrite Ej. rewrite (ms_split ws (64 * (x + i)) (64 * (x + (i + 1))) (64 * (x + j))) by lia.
      split; [f_equal; f_equal; f_equal; lia|]. split; [lia|]. rewrite full_word in * by (auto; lia). lia.
    + exists i. rewrite ms_empty, Z.sub_0_r. split; [reflexivity|]. split; [lia|]. lia.
Qed.

Lemma select512_ok sel ws x k : words ws -> 0 <= x -> x + 8 <= zlen ws -> 1 <= k <= ms ws (64 * x) (64 * (x + 8)) ->
  exists j, 0 <= j <= 7 /\ 1 <= k - ms ws (64 * x) (64 * (x + j)) <= popcount (zn 0 ws (x + j)) /\
    select512_with sel ws x k = (let* s := sel (zn 0 ws (x + j)) (k - ms ws (64 * x) (64 * (x + j))) in Ok (j * 64 + s)).
Proof.
  intros W Hx Hl Hk. unfold select512_with. rewrite geti_ok by lia. cbn [bind].
  destruct (word_loop_ok ws x W Hx Hl 7 0 k ltac:(lia) ltac:(reflexivity) ltac:(rewrite Z.add_0_r; exact Hk)) as (j & E & Hj & Hr).
  rewrite Z.add_0_r in *. exists j. split; [lia|]. split; [exact Hr|].
  rewrite E. cbn [bind]. rewrite geti_ok by lia. cbn [bind].
  replace ((j =? 7) && (popcount (zn 0 ws (x + j)) <? k - ms ws (64 * x) (64 * (x + j)))) with false by lia. reflexivity.
Qed.

(** The word that holds the r-th one, and the rank of that one in it. *)
Definition in_word (ws : list Z) (r j : Z) : Prop := 0 <= j < zlen ws /\ ms ws 0 (64 * j) < r <= ms ws 0 (64 * (j + 1)).

Lemma in_word_unique ws r j j' : in_word ws r j -> in_word ws r j' -> j = j'.
Proof.
  intros [H1 H2] [H3 H4]. destruct (Z.lt_trichotomy j j') as [L|[E|L]]; [|exact E|].
  - pose proof (ms_mono ws 0 (64 * (j + 1)) (64 * j') ltac:(lia)). lia.
  - pose proof (ms_mono ws 0 (64 * (j' + 1)) (64 * j) ltac:(lia)). lia.
Qed.

Lemma poppy_select_word sel dbg ws t r : words ws -> 64 * zlen ws <= 2 ^ 32 -> pinv ws t ->
  1 <= r <= ms ws 0 (rank_bits (64 * zlen ws)) ->
  exists j, in_word ws r j /\ j < 2 ^ 26 /\
    poppy_select_with sel dbg t r = (let* s := sel (zn 0 ws j) (r - ms ws 0 (64 * j)) in Ok (u64 (64 * j + s))).
Proof.
  intros W Hn I Hr. pose proof (zlen_nonneg ws) as Hz. unfold poppy_select_with. rewrite massert_true by (rewrite (pi_count _ _ I); lia). cbn [bind].
  rewrite (pi_l1 _ _ I). change (zlen [0]) with 1. change (length [0]) with 1%nat. change (1 - 1) with 0.
  assert (HR : 0 <= rank_bits (64 * zlen ws) <= 2 ^ 32) by (unfold rank_bits; pose proof (zlen_nonneg ws); lia).
  pose proof (ms_bound ws 0 (rank_bits (64 * zlen ws)) ltac:(lia)) as HT.
  cbn [find_l1]. change (geti [0] 0) with (Ok 0 : res Z). cbn [bind]. replace (0 <? r) with true by lia. cbn [bind].
  rewrite (wrap_small 64 (r - 0)) by lia. rewrite Z.sub_0_r. change (0 * 2 ^ 21) with 0. change (u32 0) with 0. rewrite Z.eqb_refl.
  rewrite (pi_l2 _ _ I), Z.sub_0_r. rewrite (wrap_small 32 (64 * zlen ws / 2048)) by lia.
  destruct (pi_loc _ _ I) as (loc & EL & LL & PL). rewrite EL. change (zn [] [loc] 0) with loc.
  rewrite (wrap_small 64 (r - 1)) by lia.
  rewrite geti_ok by (rewrite LL; unfold cdiv; lia). cbn [bind].
  destruct (PL ((r - 1) / 8192)) as (P1 & P2 & P3). { rewrite LL. unfold cdiv. lia. }
  set (p := zn 0 loc ((r - 1) / 8192)) in *. rewrite (Z.shiftr_div_pow2 p) by lia. change (2 ^ 11) with 2048.
  pose proof (pi_entry _ _ I) as HE. pose proof (pi_l2 _ _ I) as HL2.
  set (n := 64 * zlen ws) in *. rewrite rank_bits_groups in *.
  assert (HG : groups n = n / 2048 /\ 0 <= groups n <= 2 ^ 21) by (unfold groups; lia). destruct HG as [EG HG].
  assert (HGn : 2048 * groups n <= n) by lia. rewrite <- EG in *.
  assert (Hp : p < 2048 * groups n).
  { destruct (Z_lt_le_dec p (2048 * groups n)) as [|Hge]; [assumption|]. pose proof (ms_mono ws 0 (2048 * groups n) p ltac:(lia)). lia. }
  assert (Hlo : ms ws 0 (2048 * (p / 2048)) < r).
  { pose proof (ms_mono ws 0 (2048 * (p / 2048)) p ltac:(lia)). lia. }
  destruct (find_l2_ok ws (p_l2 t) (groups n) r (S (length (p_l2 t))) (p / 2048)) as (g & Eg & Hg & Hrg); try lia; auto.
  { unfold zlen in HL2. lia. }
  rewrite Eg. cbn [bind]. rewrite geti_ok by lia. cbn [bind]. rewrite HE by lia. rewrite entry_low by lia.
  pose proof (ms_bound ws 0 (2048 * g) ltac:(lia)) as Bg.
  rewrite (wrap_small 64 (r - ms ws 0 (2048 * g))) by lia.
  rewrite (wrap_small 32 (Z.shiftr (l2_entry ws g) 32)).
  2:{ rewrite entry_high by lia. pose proof (blk_bound ws (4 * g)). pose proof (blk_bound ws (4 * g + 1)). pose proof (blk_bound ws (4 * g + 2)). lia. }
  pose proof (ms_split ws 0 (2048 * g) (2048 * (g + 1)) ltac:(lia)) as Sg.
  destruct (find_group_ok ws g (r - ms ws 0 (2048 * g)) ltac:(lia) ltac:(lia)) as (q & Eq & Hq & Hrq). rewrite Eq.
  set (k := r - ms ws 0 (2048 * g) - ms ws (2048 * g) (2048 * g + 512 * q)) in *.
  pose proof (ms_bound ws (2048 * g) (2048 * g + 512 * q) ltac:(lia)) as Bq.
  pose proof (ms_split ws (2048 * g) (2048 * g + 512 * q) (2048 * g + 512 * (q + 1)) ltac:(lia)) as Sq.
  pose proof (ms_bound ws (2048 * g + 512 * q) (2048 * g + 512 * (q + 1)) ltac:(lia)) as Bk.
  rewrite Z.add_0_l. rewrite (wrap_small 32 g) by lia. rewrite (wrap_small 32 ((g * 4 + q) * 8)) by lia. rewrite (wrap_small 32 k) by lia.
  unfold sgn. replace ((g * 4 + q) * 8 <? 2 ^ (32 - 1)) with true by lia. replace (k <? 2 ^ (32 - 1)) with true by lia.
  rewrite (pi_bits _ _ I).
  set (x := (g * 4 + q) * 8). assert (Hx : 0 <= x /\ x + 8 <= zlen ws) by (unfold x, n in *; lia).
  assert (X1 : 64 * x = 2048 * g + 512 * q) by (unfold x; lia). assert (X2 : 64 * (x + 8) = 2048 * g + 512 * (q + 1)) by (unfold x; lia).
  destruct (select512_ok sel ws x k W ltac:(lia) ltac:(lia)) as (j & Hj & Hk & E5). { rewrite X1, X2. lia. }
  exists (x + j). pose proof (ms_split ws 0 (64 * x) (64 * (x + j)) ltac:(lia)) as S1.
  pose proof (ms_split ws 0 (2048 * g) (64 * x) ltac:(lia)) as S2. rewrite X1 in S2.
  assert (EK : k - ms ws (64 * x) (64 * (x + j)) = r - ms ws 0 (64 * (x + j))) by (rewrite X1 in *; unfold k; lia).
  split.
  { split; [lia|]. rewrite EK in Hk. rewrite full_word in Hk by (auto; lia).
    pose proof (ms_split ws 0 (64 * (x + j)) (64 * (x + j + 1)) ltac:(lia)). lia. }
  split; [unfold x; lia|]. rewrite E5, EK. destruct (sel (zn 0 ws (x + j)) (r - ms ws 0 (64 * (x + j)))); cbn [bind]; [|reflexivity|reflexivity].
  f_equal. rewrite Z.shiftl_0_l. change (u64 0) with 0. rewrite Z.add_0_l. rewrite (Z.shiftl_mul_pow2 g), (Z.shiftl_mul_pow2 q) by lia.
  rewrite (wrap_small 32 (g * 2 ^ 11)) by lia. f_equal. change (2 ^ 11) with 2048. change (2 ^ 9) with 512. lia.
Qed.
