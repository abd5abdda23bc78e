(** The random bit generator. *)
From Coq Require Import ZifyBool.
From Verif Require Import Base BaseFacts Mem MemFacts Nodes NodeFacts Words WordFacts Blocks Spec Bitmap Usage BlockFacts BitmapFacts ProgramFacts SystemFacts Random SpecRandom.
Ltac Zify.zify_post_hook ::= Z.div_mod_to_equations.

Lemma sm_next_draw seed i : 0 <= i -> sm_next ((seed + i * 0x9E3779B97F4A7C15) mod 2 ^ 64) = (draw seed i, (seed + (i + 1) * 0x9E3779B97F4A7C15) mod 2 ^ 64).
Proof.
  intros Hi. unfold sm_next, draw, mix, fold_bits, wrap. rewrite !Z.shiftr_div_pow2 by lia.
  replace (((seed + i * 11400714819323198485) mod 2 ^ 64 + 11400714819323198485) mod 2 ^ 64) with ((seed + (i + 1) * 11400714819323198485) mod 2 ^ 64); [reflexivity|].
  rewrite Zplus_mod_idemp_l. f_equal. lia.
Qed.

(** ** The sequence does not repeat *)
Lemma fold_bits_range k z : 0 < k -> 0 <= z < 2 ^ 64 -> 0 <= fold_bits k z < 2 ^ 64.
Proof.
  intros Hk Hz. unfold fold_bits. assert (0 <= z / 2 ^ k < 2 ^ 64).
  { assert (0 < 2 ^ k) by (apply Z.pow_pos_nonneg; lia). split; [apply Z.div_pos; lia|]. apply Z.le_lt_trans with z; [apply Z.div_le_upper_bound; nia|lia]. }
  split; [apply Z.lxor_nonneg; lia|].
  destruct (Z.eq_dec (Z.lxor z (z / 2 ^ k)) 0) as [->|N]; [lia|].
  assert (0 <= Z.lxor z (z / 2 ^ k)) by (apply Z.lxor_nonneg; lia).
  apply Z.log2_lt_pow2; [lia|]. eapply Z.le_lt_trans; [apply Z.log2_lxor; lia|]. apply Z.max_lub_lt.
  - destruct (Z.eq_dec z 0) as [->|]; [reflexivity|]. apply Z.log2_lt_pow2; lia.
  - destruct (Z.eq_dec (z / 2 ^ k) 0) as [->|]; [reflexivity|]. apply Z.log2_lt_pow2; lia.
Qed.

Lemma fold_bits_inj k a b : 0 < k -> 0 <= a < 2 ^ 64 -> 0 <= b < 2 ^ 64 -> fold_bits k a = fold_bits k b -> a = b.
Proof.
  intros Hk Ha Hb E. unfold fold_bits in E.
  assert (T : forall n, 0 <= n -> xorb (Z.testbit a n) (Z.testbit a (n + k)) = xorb (Z.testbit b n) (Z.testbit b (n + k))).
  { intros n Hn. rewrite <- !Z.shiftr_div_pow2 in E by lia. assert (X := f_equal (fun z => Z.testbit z n) E). cbn beta in X. rewrite !Z.lxor_spec, !Z.shiftr_spec in X by lia. exact X. }
  assert (H : forall m, 0 <= m -> forall n, 64 - m <= n -> 0 <= n -> Z.testbit a n = Z.testbit b n).
  { intros m Hm. pattern m. apply Zlt_0_ind; [|exact Hm]. clear m Hm. intros m IH Hm n Hn Hn0.
    destruct (Z_lt_le_dec n 64) as [L|G].
    - specialize (T n Hn0). assert (K : Z.testbit a (n + k) = Z.testbit b (n + k)).
      { apply (IH (64 - n - 1)); lia. }
      rewrite K in T. destruct (Z.testbit a n), (Z.testbit b n), (Z.testbit b (n + k)); cbn in T; congruence.
    - rewrite !(Z.bits_above_log2); try reflexivity; try lia.
      + destruct (Z.eq_dec b 0) as [->|]; [cbn; lia|]. apply Z.lt_le_trans with 64; [apply Z.log2_lt_pow2; lia|lia].
      + destruct (Z.eq_dec a 0) as [->|]; [cbn; lia|]. apply Z.lt_le_trans with 64; [apply Z.log2_lt_pow2; lia|lia]. }
  apply Z.bits_inj'. intros n Hn. apply (H 64); lia.
Qed.

Lemma mul_inj m v a b : (m * v) mod 2 ^ 64 = 1 -> 0 <= a < 2 ^ 64 -> 0 <= b < 2 ^ 64 -> (a * m) mod 2 ^ 64 = (b * m) mod 2 ^ 64 -> a = b.
Proof.
  intros Hv Ha Hb E.
  assert (K : forall x, 0 <= x < 2 ^ 64 -> ((x * m) mod 2 ^ 64 * v) mod 2 ^ 64 = x).
  { intros x Hx. rewrite Zmult_mod_idemp_l. replace (x * m * v) with (x * (m * v)) by ring. rewrite <- Zmult_mod_idemp_r, Hv, Z.mul_1_r. apply Z.mod_small. exact Hx. }
  rewrite <- (K a Ha), <- (K b Hb), E. reflexivity.
Qed.

Lemma mix_range z : 0 <= z < 2 ^ 64 -> 0 <= mix z < 2 ^ 64.
Proof. intros Hz. unfold mix. apply fold_bits_range; [lia|]. apply Z.mod_pos_bound. lia. Qed.

Lemma mix_inj a b : 0 <= a < 2 ^ 64 -> 0 <= b < 2 ^ 64 -> mix a = mix b -> a = b.
Proof.
  intros Ha Hb E. unfold mix in E.
  apply fold_bits_inj in E; try lia; try (apply Z.mod_pos_bound; lia).
  apply (mul_inj _ 0x319642B2D24D8EC3) in E; [|reflexivity|apply fold_bits_range; [lia|apply Z.mod_pos_bound; lia]..].
  apply fold_bits_inj in E; try lia; try (apply Z.mod_pos_bound; lia).
  apply (mul_inj _ 0x96DE1B173F119089) in E; [|reflexivity|apply fold_bits_range; lia..].
  apply fold_bits_inj in E; lia.
Qed.

Lemma draw_inj seed i j : 0 <= i < 2 ^ 64 -> 0 <= j < 2 ^ 64 -> draw seed i = draw seed j -> i = j.
Proof.
  intros Hi Hj E. apply mix_inj in E; try (apply Z.mod_pos_bound; lia).
  assert (K : (i * 0x9E3779B97F4A7C15) mod 2 ^ 64 = (j * 0x9E3779B97F4A7C15) mod 2 ^ 64).
  { set (g := 0x9E3779B97F4A7C15) in *. replace (i * g) with ((seed + (i + 1) * g) - (seed + g)) by ring. replace (j * g) with ((seed + (j + 1) * g) - (seed + g)) by ring.
    rewrite <- Zminus_mod_idemp_l, E, Zminus_mod_idemp_l. reflexivity. }
  apply (mul_inj _ 0xF1DE83E19937733D) in K; [exact K|reflexivity|lia|lia].
Qed.

(** ... and takes every value: the inverse of [fold_bits]. *)
Lemma fold_bits_surj k y : 22 <= k -> 0 <= y < 2 ^ 64 -> exists z, 0 <= z < 2 ^ 64 /\ fold_bits k z = y.
Proof.
  intros Hk Hy. set (z := Z.lxor y (Z.lxor (Z.shiftr y k) (Z.shiftr y (2 * k)))). exists z.
  assert (T : forall n, 0 <= n -> Z.testbit z n = xorb (Z.testbit y n) (xorb (Z.testbit y (n + k)) (Z.testbit y (n + 2 * k)))).
  { intros n Hn. unfold z. rewrite !Z.lxor_spec, !Z.shiftr_spec by lia. reflexivity. }
  split.
  - apply word_small.
    + unfold z. rewrite !Z.lxor_nonneg, !Z.shiftr_nonneg. lia.
    + intros n Hn. rewrite T, !(word_high y) by lia. reflexivity.
  - unfold fold_bits. rewrite <- Z.shiftr_div_pow2 by lia. apply Z.bits_inj'. intros n Hn. rewrite Z.lxor_spec, Z.shiftr_spec, !T by lia.
    rewrite (word_high y (n + k + 2 * k)) by lia. replace (n + k + k) with (n + 2 * k) by lia.
    destruct (Z.testbit y n), (Z.testbit y (n + k)), (Z.testbit y (n + 2 * k)); reflexivity.
Qed.

Lemma mul_surj m v y : (v * m) mod 2 ^ 64 = 1 -> 0 <= y < 2 ^ 64 -> exists z, 0 <= z < 2 ^ 64 /\ (z * m) mod 2 ^ 64 = y.
Proof.
  intros Hv Hy. exists ((y * v) mod 2 ^ 64). split; [apply Z.mod_pos_bound; lia|].
  rewrite Zmult_mod_idemp_l. replace (y * v * m) with (y * (v * m)) by ring. rewrite <- Zmult_mod_idemp_r, Hv, Z.mul_1_r. apply Z.mod_small. exact Hy.
Qed.

Lemma draw_surj seed y : 0 <= y < 2 ^ 64 -> exists i, 0 <= i < 2 ^ 64 /\ draw seed i = y.
Proof.
  intros Hy. destruct (fold_bits_surj 31 y ltac:(lia) Hy) as (a & Ha & <-).
  destruct (mul_surj 0x94D049BB133111EB 0x319642B2D24D8EC3 a eq_refl Ha) as (b & Hb & <-).
  destruct (fold_bits_surj 27 b ltac:(lia) Hb) as (d & Hd & <-).
  destruct (mul_surj 0xBF58476D1CE4E5B9 0x96DE1B173F119089 d eq_refl Hd) as (e & He & <-).
  destruct (fold_bits_surj 30 e ltac:(lia) He) as (f & Hf & <-).
  set (g := 0x9E3779B97F4A7C15).
  destruct (mul_surj g 0xF1DE83E19937733D ((f - seed - g) mod 2 ^ 64) eq_refl) as (i & Hi & E); [apply Z.mod_pos_bound; lia|].
  exists i. split; [exact Hi|]. unfold draw, mix. fold g. replace ((seed + (i + 1) * g) mod 2 ^ 64) with f; [reflexivity|].
  replace (seed + (i + 1) * g) with (i * g + (seed + g)) by ring. rewrite <- Zplus_mod_idemp_l, E, Zplus_mod_idemp_l.
  replace (f - seed - g + (seed + g)) with f by ring. symmetry. apply Z.mod_small. exact Hf.
Qed.

(** ** The first loop *)
Lemma zlen_zip f a : forall b, zlen a = zlen b -> zlen (zip f a b) = zlen a.
Proof.
  induction a as [|x a IH]; intros [|y b] E; cbn [zip]; try reflexivity; try (unfold zlen in E; cbn in E; lia).
  rewrite !zlen_cons in *. rewrite IH; lia.
Qed.
Lemma bit_zip f a : forall b i, zlen a = zlen b -> 0 <= i < zlen a -> bit (zip f a b) i = f (bit a i) (bit b i).
Proof.
  induction a as [|x a IH]; intros [|y b] i E Hi; try (unfold zlen in E, Hi; cbn in E, Hi; lia).
  cbn [zip]. rewrite !zlen_cons in *. unfold bit. destruct (Z.eq_dec i 0) as [->|N]; [reflexivity|].
  rewrite !zn_cons_S by lia. apply IH; lia.
Qed.
Lemma zlen_drawn seed t n : 0 <= n -> zlen (drawn seed t n) = n.
Proof. intros. unfold drawn. rewrite zlen_map. unfold zlen. rewrite length_zrange. lia. Qed.
Lemma bit_drawn seed t n i : 0 <= i < n -> bit (drawn seed t n) i = (draw seed i <? t).
Proof.
  intros Hi. unfold drawn, bit. rewrite (zn_map _ 0) by (unfold zlen; rewrite length_zrange; lia). rewrite zn_zrange by lia. reflexivity.
Qed.

Lemma zrange_S lo n : zrange lo (S n) = zrange lo n ++ [lo + Z.of_nat n].
Proof.
  revert lo. induction n as [|n IH]; intros lo; [cbn; f_equal; lia|].
  change (zrange lo (S (S n))) with (lo :: zrange (lo + 1) (S n)). rewrite IH. cbn [zrange app]. do 2 f_equal. f_equal. lia.
Qed.
Lemma count_drawn_S seed t n : 0 <= n -> count_true (drawn seed t (n + 1)) = count_true (drawn seed t n) + b2z (draw seed n <? t).
Proof.
  intros Hn. unfold drawn. replace (Z.to_nat (n + 1)) with (S (Z.to_nat n)) by lia. rewrite zrange_S, map_app, count_true_app. cbn [map count_true].
  replace (0 + Z.of_nat (Z.to_nat n)) with n by lia. lia.
Qed.
Lemma count_bounds l : 0 <= count_true l <= zlen l.
Proof. induction l as [|[] l IH]; cbn [count_true b2z]; rewrite ?zlen_cons; unfold zlen in *; cbn [length] in *; lia. Qed.

Definition set_bit (ws : list Z) (i : Z) : list Z := upd ws (i / 64) (Z.lor (zn 0 ws (i / 64)) (u64 (Z.shiftl 1 (i mod 64)))).

Lemma shl1 o : 0 <= o < 64 -> u64 (Z.shiftl 1 o) = 2 ^ o.
Proof. intros. rewrite Z.shiftl_1_l. apply wrap_small. split; [apply Z.pow_nonneg; lia|apply Z.pow_lt_mono_r; lia]. Qed.

Lemma bit_set ws i t : 0 <= i < 64 * zlen ws -> 0 <= t < 64 * zlen ws -> bit (bits_of_words (set_bit ws i)) t = bit (bits_of_words ws) t || (t =? i).
Proof.
  intros Hi Ht. unfold set_bit. rewrite !bit_words by (rewrite ?zlen_upd; lia). rewrite zn_upd by lia. rewrite shl1 by lia.
  destruct (Z.eqb_spec (t / 64) (i / 64)) as [E|E].
  - rewrite Z.lor_spec, testbit_pow by lia. rewrite E. replace (t mod 64 =? i mod 64) with (t =? i) by lia. reflexivity.
  - replace (t =? i) with false by lia. rewrite orb_false_r. reflexivity.
Qed.

Lemma words_set ws i : words ws -> 0 <= i < 64 * zlen ws -> words (set_bit ws i).
Proof.
  intros Hw Hi. unfold words. rewrite Forall_forall. intros w Hin. apply In_nth with (d := 0) in Hin.
  destruct Hin as (k & Hk & <-). replace (nth k (set_bit ws i) 0) with (zn 0 (set_bit ws i) (Z.of_nat k)) by (unfold zn; rewrite Nat2Z.id; reflexivity).
  unfold set_bit. rewrite zn_upd by lia. destruct (_ =? _); [|apply words_zn; auto]. rewrite shl1 by lia.
  pose proof (words_zn ws (i / 64) Hw) as W. apply word_small.
  - apply Z.lor_nonneg. split; [lia|apply Z.pow_nonneg; lia].
  - intros n Hn. rewrite Z.lor_spec, testbit_pow by lia. rewrite word_high by lia. lia.
Qed.

Lemma first_loop ws t seed : words ws -> zlen ws < 2 ^ 58 -> 0 <= seed < 2 ^ 64 ->
  exists ws' x, foldM (random_step t) (zrange 0 (Z.to_nat (u64 (zlen ws * 64)))) (ws, 0, seed) = Ok (ws', count_true (drawn seed t (64 * zlen ws)), x) /\
    words ws' /\ zlen ws' = zlen ws /\ bits_of_words ws' = joined (bits_of_words ws) (drawn seed t (64 * zlen ws)).
Proof.
  intros Hw Hn Hs. assert (L : 0 <= zlen ws) by (unfold zlen; lia). rewrite wrap_small by lia.
  destruct (foldM_inv (random_step t) (fun i st => let '(w, num, x) := st in
    words w /\ zlen w = zlen ws /\ num = count_true (drawn seed t i) /\ x = (seed + i * 0x9E3779B97F4A7C15) mod 2 ^ 64 /\
    forall p, 0 <= p < 64 * zlen ws -> bit (bits_of_words w) p = bit (bits_of_words ws) p || ((p <? i) && (draw seed p <? t)))
    (Z.to_nat (zlen ws * 64)) 0 (ws, 0, seed)) as (((w, num), x) & E & Ww & Lw & En & Ex & P).
  - split; [exact Hw|]. split; [reflexivity|]. split; [reflexivity|]. split; [rewrite Z.mul_0_l, Z.add_0_r, Z.mod_small; lia|].
    intros p Hp. replace (p <? 0) with false by lia. rewrite orb_false_r. reflexivity.
  - intros i ((w, num), x) Hi (Ww & Lw & En & Ex & P). unfold random_step. rewrite Ex, sm_next_draw by lia.
    pose proof (count_bounds (drawn seed t i)) as Cb. rewrite zlen_drawn in Cb by lia.
    pose proof (count_drawn_S seed t i) as Cs. destruct (Z.ltb_spec (draw seed i) t) as [Hd|Hd]; cbn [b2z] in Cs.
    + rewrite geti_ok by lia. cbn [bind]. rewrite seti_ok by lia. cbn [bind]. eexists. split; [reflexivity|]. fold (set_bit w i).
      split; [apply words_set; [exact Ww|lia]|]. split; [unfold set_bit; rewrite zlen_upd; exact Lw|].
      split; [rewrite wrap_small by lia; lia|]. split; [reflexivity|]. intros p Hp. rewrite bit_set by lia. rewrite P by lia.
      destruct (Z.eqb_spec p i) as [->|Hpi].
      * replace (i <? i + 1) with true by lia. replace (draw seed i <? t) with true by lia. rewrite !orb_true_r. reflexivity.
      * replace (p <? i + 1) with (p <? i) by lia. rewrite orb_false_r. reflexivity.
    + eexists. split; [reflexivity|]. split; [exact Ww|]. split; [exact Lw|]. split; [lia|]. split; [reflexivity|]. intros p Hp. rewrite P by lia.
      destruct (Z.eq_dec p i) as [->|Hpi].
      * replace (draw seed i <? t) with false by lia. rewrite !andb_false_r. reflexivity.
      * replace (p <? i + 1) with (p <? i) by lia. reflexivity.
  - exists w, x. rewrite E. replace (0 + Z.of_nat (Z.to_nat (zlen ws * 64))) with (64 * zlen ws) in * by lia.
    split; [rewrite En; reflexivity|]. split; [exact Ww|]. split; [exact Lw|].
    assert (LL : zlen (bits_of_words ws) = zlen (drawn seed t (64 * zlen ws))) by (rewrite zlen_bits, zlen_drawn; lia).
    apply (BaseFacts.list_ext false).
    + unfold joined. rewrite zlen_zip by exact LL. rewrite !zlen_bits. lia.
    + rewrite zlen_bits, Lw. intros p Hp. change (bit (bits_of_words w) p = bit (joined (bits_of_words ws) (drawn seed t (64 * zlen ws))) p).
      unfold joined. rewrite bit_zip by (try exact LL; rewrite zlen_bits; lia). rewrite P, bit_drawn by lia. replace (p <? 64 * zlen ws) with true by lia. reflexivity.
Qed.

(** ** The second loop *)
Definition nz (w : Z) : bool := negb (w =? 0).
Lemma all_zero_skip bits fuel : forall i, 0 <= i -> all_zero bits i fuel =
  if existsb nz (firstn fuel (skipn (Z.to_nat i) bits)) then Ok false
  else if (fuel <=? length (skipn (Z.to_nat i) bits))%nat then Ok true else Ub UB_bounds.
Proof.
  induction fuel as [|fuel IH]; intros i Hi; [reflexivity|]. cbn [all_zero].
  destruct (Z_lt_le_dec i (zlen bits)) as [L|G].
  - rewrite geti_ok by lia. cbn [bind]. rewrite IH by lia.
    assert (E : skipn (Z.to_nat i) bits = zn 0 bits i :: skipn (Z.to_nat (i + 1)) bits).
    { unfold zn. replace (Z.to_nat (i + 1)) with (S (Z.to_nat i)) by lia. assert (K : (Z.to_nat i < length bits)%nat) by (unfold zlen in L; lia).
      clear -K. revert bits K. induction (Z.to_nat i) as [|n IHn]; intros [|x l] K; cbn [length] in K; try lia; [reflexivity|]. cbn [skipn nth]. apply IHn. lia. }
    rewrite E. cbn [firstn existsb length Nat.leb]. unfold nz at 2. destruct (zn 0 bits i =? 0); reflexivity.
  - unfold geti. replace (i <? zlen bits) with false by lia. rewrite andb_false_r. cbn [bind].
    rewrite skipn_all2 by (unfold zlen in G; lia). reflexivity.
Qed.

Lemma word_nz w : 0 <= w < 2 ^ 64 -> existsb (fun b => b) (bits_of_word w) = nz w.
Proof.
  intros Hw. unfold nz. destruct (Z.eqb_spec w 0) as [->|N]; [reflexivity|]. cbn [negb]. apply existsb_exists. exists true. split; [|reflexivity].
  unfold bits_of_word. apply in_map_iff. exists (Z.log2 w). split; [apply Z.bit_log2; lia|]. apply in_zrange.
  split; [apply Z.log2_nonneg|]. apply Z.log2_lt_pow2; lia.
Qed.
Lemma words_nz ws : words ws -> existsb (fun b => b) (bits_of_words ws) = existsb nz ws.
Proof.
  induction ws as [|w ws IH]; intros H; [reflexivity|]. inversion H; subst. change (bits_of_words (w :: ws)) with (bits_of_word w ++ bits_of_words ws).
  rewrite existsb_app, word_nz, IH by assumption. reflexivity.
Qed.
Lemma first_words ws : firstn 256 (bits_of_words ws) = bits_of_words (firstn 4 ws).
Proof. rewrite SystemFacts.bits_firstn. reflexivity. Qed.

(** ** The whole function *)
Lemma create_ok ws t seed : words_ok ws -> zlen ws < 2 ^ 58 -> 0 <= seed < 2 ^ 64 ->
  let B := bits_of_words ws in let D := drawn seed t (64 * zlen ws) in
  if forced B D && (zlen ws <? 4) then create_random_bits ws t seed = Ub UB_bounds
  else exists ws', create_random_bits ws t seed = Ok (ws', count_true D + b2z (forced B D)) /\
    words_ok ws' /\ bits_of_words ws' = random_bits B D.
Proof.
  intros Hw Hn Hs B D. destruct (first_loop ws t seed Hw Hn Hs) as (w & x & E & Ww & Lw & Bw). fold B D in Bw. fold D in E.
  unfold create_random_bits. rewrite E. cbn [bind]. rewrite all_zero_skip by lia. cbn [Z.to_nat skipn].
  assert (F : existsb nz (firstn 4 w) = negb (forced B D)).
  { unfold forced. rewrite negb_involutive, <- Bw, first_words. symmetry. apply words_nz.
    apply Forall_forall. intros y Hy. unfold words in Ww. rewrite Forall_forall in Ww. apply Ww. rewrite <- (firstn_skipn 4 w). apply in_or_app. auto. }
  rewrite F. unfold random_bits. destruct (forced B D) eqn:Fo; cbn [negb andb b2z].
  - assert (LL : (4 <=? length w)%nat = negb (zlen ws <? 4)) by (rewrite <- Lw; unfold zlen; lia).
    rewrite LL. destruct (Z.ltb_spec (zlen ws) 4) as [L|G]; cbn [negb]; [reflexivity|]. cbn [bind].
    rewrite seti_ok by lia. cbn [bind]. exists (upd w 0 1).
    pose proof (count_bounds D) as Cb. assert (LD : zlen D = 64 * zlen ws) by (apply zlen_drawn; lia).
    split; [rewrite wrap_small by lia; reflexivity|].
    assert (Z0 : zn 0 w 0 = 0).
    { destruct w as [|y w]; [change (zlen (@nil Z)) with 0 in Lw; lia|]. cbn [firstn existsb] in F. apply orb_false_iff in F as (F & _). unfold nz in F. apply negb_false_iff, Z.eqb_eq in F. exact F. }
    assert (U : upd w 0 1 = set_bit w 0).
    { unfold set_bit. change (0 / 64) with 0. rewrite Z0. reflexivity. }
    rewrite U. split; [apply words_set; [exact Ww|lia]|].
    assert (Lj : zlen (joined B D) = 64 * zlen w) by (rewrite <- Bw, zlen_bits; reflexivity).
    apply (BaseFacts.list_ext false).
    + rewrite zlen_upd, Lj, zlen_bits. unfold set_bit. rewrite zlen_upd. reflexivity.
    + rewrite zlen_bits. unfold set_bit at 1. rewrite zlen_upd. intros p Hp. rewrite zn_upd by lia.
      change (bit (bits_of_words (set_bit w 0)) p = if p =? 0 then true else bit (joined B D) p).
      rewrite bit_set by lia. rewrite <- Bw. destruct (p =? 0); [apply orb_true_r|apply orb_false_r].
  - exists w. rewrite Z.add_0_r. auto.
Qed.

(** ** Consequences *)
Lemma count_joined B : forall D, zlen B = zlen D -> count_true (joined B D) = count_true D + count_true (kept B D).
Proof.
  induction B as [|b B IH]; intros [|d D] E; try (unfold zlen in E; cbn in E; lia); [reflexivity|]. rewrite !zlen_cons in E.
  unfold joined, kept in *. cbn [zip count_true]. rewrite IH by lia. destruct b, d; cbn [orb andb negb b2z]; lia.
Qed.
Lemma count_upd B : forall i, (i < length B)%nat -> nth i B false = false -> count_true (upd_nat B i true) = count_true B + 1.
Proof. induction B as [|b B IH]; intros [|i] L E; cbn [length nth upd_nat count_true] in *; try lia; [subst; cbn [b2z]; lia|]. rewrite IH by (auto; lia). lia. Qed.

Lemma forced_first B D : forced B D = true -> forall i, 0 <= i < 256 -> bit (joined B D) i = false.
Proof.
  unfold forced. intros F i Hi. apply negb_true_iff in F. destruct (bit (joined B D) i) eqn:E; [|reflexivity]. exfalso.
  assert (K : existsb (fun b => b) (firstn 256 (joined B D)) = true); [|congruence].
  apply existsb_exists. exists true. split; [|reflexivity]. rewrite <- E. unfold bit, zn. rewrite <- (firstn_skipn 256 (joined B D)) at 1.
  destruct (Nat.lt_ge_cases (Z.to_nat i) (length (firstn 256 (joined B D)))) as [L|G].
  - rewrite app_nth1 by exact L. apply nth_In. exact L.
  - exfalso. unfold bit, zn in E. rewrite nth_overflow in E; [discriminate|]. rewrite firstn_length in G. lia.
Qed.

Lemma count_random B D : zlen B = zlen D -> (forced B D = true -> 0 < zlen B) ->
  count_true (random_bits B D) = count_true D + b2z (forced B D) + count_true (kept B D).
Proof.
  intros E P. unfold random_bits. destruct (forced B D) eqn:F; cbn [b2z].
  - unfold upd. rewrite count_upd; [rewrite count_joined by exact E; lia| |].
    + pose proof (zlen_zip orb B D E) as L. unfold joined. unfold zlen in L, P. specialize (P eq_refl). change (Z.to_nat 0) with 0%nat. lia.
    + apply (forced_first B D F 0). lia.
  - rewrite count_joined by exact E. lia.
Qed.

Lemma kept_zeros m D : count_true (kept (repeat false m) D) = 0.
Proof. revert D. induction m as [|m IH]; intros [|d D]; try reflexivity. unfold kept in *. cbn [repeat zip count_true b2z andb]. rewrite IH. reflexivity. Qed.

Lemma random_one B D : zlen B = zlen D -> 256 <= zlen B -> exists i, 0 <= i < 256 /\ bit (random_bits B D) i = true.
Proof.
  intros E L. pose proof (zlen_zip orb B D E) as Lj. fold (joined B D) in Lj. unfold random_bits. destruct (forced B D) eqn:F.
  - exists 0. split; [lia|]. unfold bit. rewrite zn_upd by lia. reflexivity.
  - unfold forced in F. apply negb_false_iff in F. apply existsb_exists in F as (b & Hb & ->). apply In_nth with (d := false) in Hb as (k & Hk & Ek).
    rewrite firstn_length in Hk. exists (Z.of_nat k). split; [lia|]. unfold bit, zn. rewrite Nat2Z.id.
    rewrite <- (firstn_skipn 256 (joined B D)). rewrite app_nth1 by (rewrite firstn_length; lia). exact Ek.
Qed.

Lemma create_counts ws t seed ws' r : words_ok ws -> zlen ws < 2 ^ 58 -> 0 <= seed < 2 ^ 64 -> create_random_bits ws t seed = Ok (ws', r) ->
  count_true (bits_of_words ws') = r + count_true (kept (bits_of_words ws) (drawn seed t (64 * zlen ws))).
Proof.
  intros Hw Hn Hs E. pose proof (create_ok ws t seed Hw Hn Hs) as H. cbv zeta in H. assert (0 <= zlen ws) by (unfold zlen; lia).
  set (B := bits_of_words ws) in *. set (D := drawn seed t (64 * zlen ws)) in *.
  destruct (forced B D && (zlen ws <? 4)) eqn:F; [congruence|]. destruct H as (w & E' & _ & Eb). rewrite E in E'. inversion E'; subst. rewrite Eb.
  apply count_random.
  - unfold B, D. rewrite zlen_bits, zlen_drawn; lia.
  - intros Fo. rewrite Fo in F. cbn [andb] in F. unfold B. rewrite zlen_bits. lia.
Qed.

Lemma create_zeros m t seed : (4 <= m)%nat -> Z.of_nat m < 2 ^ 58 -> 0 <= seed < 2 ^ 64 ->
  exists ws r, create_random_bits (repeat 0 m) t seed = Ok (ws, r) /\ words_ok ws /\ zlen ws = Z.of_nat m /\
    r = count_true (bits_of_words ws) /\ exists i, 0 <= i < 256 /\ bit (bits_of_words ws) i = true.
Proof.
  intros Hm Hn Hs. assert (L : zlen (repeat 0 m) = Z.of_nat m) by (unfold zlen; rewrite repeat_length; reflexivity).
  assert (W : words_ok (repeat 0 m)) by (apply Forall_forall; intros x Hx; apply repeat_spec in Hx; subst; lia).
  pose proof (create_ok (repeat 0 m) t seed W ltac:(lia) Hs) as H. cbv zeta in H. replace (zlen (repeat 0 m) <? 4) with false in H by lia. rewrite andb_false_r in H.
  destruct H as (ws & E & Ww & Eb). exists ws. eexists. split; [exact E|]. split; [exact Ww|].
  assert (EL : zlen (bits_of_words (repeat 0 m)) = zlen (drawn seed t (64 * zlen (repeat 0 m)))) by (rewrite zlen_bits, zlen_drawn; lia).
  split; [|split].
  - assert (X := f_equal zlen Eb). rewrite zlen_bits in X. unfold random_bits in X.
    assert (J : zlen (joined (bits_of_words (repeat 0 m)) (drawn seed t (64 * zlen (repeat 0 m)))) = 64 * Z.of_nat m) by (unfold joined; rewrite zlen_zip by exact EL; rewrite zlen_bits; lia).
    destruct (forced _ _); rewrite ?zlen_upd in X; lia.
  - pose proof (create_counts _ t seed _ _ W ltac:(lia) Hs E) as C. rewrite bits_of_zeros, kept_zeros in C. rewrite bits_of_zeros. lia.
  - rewrite Eb. apply random_one; [exact EL|]. rewrite zlen_bits. lia.
Qed.

Lemma create_short ws t seed : words_ok ws -> zlen ws < 4 -> 0 <= seed < 2 ^ 64 ->
  (create_random_bits ws t seed = Ub UB_bounds <-> Forall (eq 0) ws /\ forall i, 0 <= i < 64 * zlen ws -> t <= draw seed i).
Proof.
  intros Hw Hn Hs. pose proof (create_ok ws t seed Hw ltac:(lia) Hs) as H. cbv zeta in H. assert (L0 : 0 <= zlen ws) by (unfold zlen; lia).
  set (B := bits_of_words ws) in *. set (D := drawn seed t (64 * zlen ws)) in *.
  assert (EL : zlen B = zlen D) by (unfold B, D; rewrite zlen_bits, zlen_drawn; lia).
  assert (LB : zlen B = 64 * zlen ws) by apply zlen_bits.
  replace (zlen ws <? 4) with true in H by lia. rewrite andb_true_r in H.
  assert (K : forced B D = true <-> Forall (eq 0) ws /\ forall i, 0 <= i < 64 * zlen ws -> t <= draw seed i).
  { split.
    - intros F. pose proof (forced_first B D F) as Q.
      assert (Q' : forall i, 0 <= i < 64 * zlen ws -> bit B i = false /\ bit D i = false).
      { intros i Hi. specialize (Q i ltac:(lia)). unfold joined in Q. rewrite bit_zip in Q by (auto; lia). apply orb_false_iff in Q. exact Q. }
      split.
      + assert (Z : existsb (fun b => b) B = false).
        { destruct (existsb (fun b => b) B) eqn:X; [|reflexivity]. apply existsb_exists in X as (b & Hb & ->). apply In_nth with (d := false) in Hb as (k & Hk & Ek).
          destruct (Q' (Z.of_nat k)) as (X & _); [unfold zlen in LB at 1; lia|]. unfold bit, zn in X. rewrite Nat2Z.id in X. congruence. }
        unfold B in Z. rewrite words_nz in Z by exact Hw. apply Forall_forall. intros x Hx.
        destruct (Z.eq_dec x 0) as [->|N]; [reflexivity|]. exfalso. assert (existsb nz ws = true); [|congruence]. apply existsb_exists. exists x. split; [exact Hx|]. unfold nz. lia.
      + intros i Hi. destruct (Q' i Hi) as (_ & X). unfold D in X. rewrite bit_drawn in X by lia. lia.
    - intros (Z & T). unfold forced. apply negb_true_iff. destruct (existsb _ _) eqn:X; [|reflexivity]. apply existsb_exists in X as (b & Hb & ->).
      assert (Hb' : In true (joined B D)) by (rewrite <- (firstn_skipn 256 (joined B D)); apply in_or_app; auto).
      apply In_nth with (d := false) in Hb' as (k & Hk & Ek). pose proof (zlen_zip orb B D EL) as LJ. fold (joined B D) in LJ.
      assert (Hk' : 0 <= Z.of_nat k < zlen B) by (unfold zlen in LJ |- *; lia).
      pose proof (bit_zip orb B D (Z.of_nat k) EL Hk') as Y. fold (joined B D) in Y. unfold bit at 1, zn in Y. rewrite Nat2Z.id, Ek in Y.
      unfold D in Y. rewrite bit_drawn in Y by lia. specialize (T (Z.of_nat k) ltac:(lia)). replace (draw seed (Z.of_nat k) <? t) with false in Y by lia.
      rewrite orb_false_r in Y. unfold B in Y. rewrite bit_words in Y by lia.
      assert (Z1 : zn 0 ws (Z.of_nat k / 64) = 0).
      { unfold zn. symmetry. apply (Forall_forall (eq 0) ws); [exact Z|]. apply nth_In. unfold zlen in *. lia. }
      rewrite Z1, Z.bits_0 in Y. discriminate. }
  rewrite <- K. destruct (forced B D); [tauto|]. destruct H as (w & E & _). rewrite E. split; congruence.
Qed.

Lemma drawn_mono seed t t' n i : 0 <= i < n -> t <= t' -> bit (drawn seed t n) i = true -> bit (drawn seed t' n) i = true.
Proof. intros Hi Ht. rewrite !bit_drawn by lia. lia. Qed.

Lemma draw_range seed i : 0 <= draw seed i < 2 ^ 64.
Proof. apply mix_range, Z.mod_pos_bound. lia. Qed.

Lemma count_wrong : exists ws t seed ws' r, words_ok ws /\ 4 <= zlen ws < 2 ^ 58 /\ 0 <= seed < 2 ^ 64 /\
  create_random_bits ws t seed = Ok (ws', r) /\ r <> count_true (bits_of_words ws').
Proof.
  exists [7; 0; 0; 0], 0, 13, [7; 0; 0; 0], 0. split; [repeat constructor; lia|]. split; [unfold zlen; cbn; lia|]. split; [lia|].
  split; [vm_compute; reflexivity|vm_compute; congruence].
Qed.
Lemma short_ub : exists ws t seed, words_ok ws /\ ws <> [] /\ 0 < t < 2 ^ 64 /\ 0 <= seed < 2 ^ 64 /\ create_random_bits ws t seed = Ub UB_bounds.
Proof.
  exists [0; 0; 0], 1, 13. split; [repeat constructor; lia|]. split; [discriminate|]. split; [lia|]. split; [lia|]. vm_compute. reflexivity.
Qed.

Lemma create_contents ws t seed : words_ok ws -> 4 <= zlen ws < 2 ^ 58 -> 0 <= seed < 2 ^ 64 ->
  let B := bits_of_words ws in let D := drawn seed t (64 * zlen ws) in
  exists ws', create_random_bits ws t seed = Ok (ws', count_true D + b2z (forced B D)) /\
    words_ok ws' /\ bits_of_words ws' = random_bits B D.
Proof.
  intros Hw Hn Hs B D. pose proof (create_ok ws t seed Hw ltac:(lia) Hs) as H. cbv zeta in H. replace (zlen ws <? 4) with false in H by lia.
  rewrite andb_false_r in H. exact H.
Qed.

Lemma full_period seed v : 0 <= v < 2 ^ 64 ->
  exists i, 0 <= i < 2 ^ 64 /\ draw seed i = v /\ forall j, 0 <= j < 2 ^ 64 -> draw seed j = v -> j = i.
Proof.
  intros Hv. destruct (draw_surj seed v Hv) as (i & Hi & E). exists i. split; [exact Hi|]. split; [exact E|]. intros j Hj Ej. apply (draw_inj seed); lia.
Qed.

Lemma calls_draw seed n : 0 <= seed < 2 ^ 64 -> calls n seed = map (draw seed) (zrange 0 n).
Proof.
  intros Hs. assert (H : forall m i, 0 <= i -> calls m ((seed + i * 0x9E3779B97F4A7C15) mod 2 ^ 64) = map (draw seed) (zrange i m)).
  { induction m as [|m IH]; intros i Hi; [reflexivity|]. cbn [calls zrange map]. rewrite sm_next_draw by exact Hi. rewrite IH by lia. reflexivity. }
  specialize (H n 0 ltac:(lia)). rewrite Z.mul_0_l, Z.add_0_r, Z.mod_small in H by lia. exact H.
Qed.

Lemma create_mono ws t t' seed w r w' r' i : words_ok ws -> zlen ws < 2 ^ 58 -> 0 <= seed < 2 ^ 64 -> t <= t' ->
  create_random_bits ws t seed = Ok (w, r) -> create_random_bits ws t' seed = Ok (w', r') ->
  0 < i < 64 * zlen ws -> bit (bits_of_words w) i = true -> bit (bits_of_words w') i = true.
Proof.
  intros Hw Hn Hs Ht E E' Hi. assert (L0 : 0 <= zlen ws) by (unfold zlen; lia).
  assert (K : forall t w r, create_random_bits ws t seed = Ok (w, r) -> bit (bits_of_words w) i = bit (bits_of_words ws) i || (draw seed i <? t)).
  { clear E E' w r w' r' Ht. intros u w r E. pose proof (create_ok ws u seed Hw Hn Hs) as H. cbv zeta in H.
    set (B := bits_of_words ws) in *. set (D := drawn seed u (64 * zlen ws)) in *.
    assert (EL : zlen B = zlen D) by (unfold B, D; rewrite zlen_bits, zlen_drawn; lia). assert (LB : zlen B = 64 * zlen ws) by apply zlen_bits.
    pose proof (zlen_zip orb B D EL) as LJ. fold (joined B D) in LJ.
    destruct (forced B D && (zlen ws <? 4)); [congruence|]. destruct H as (v & E' & _ & Eb). rewrite E in E'. inversion E'; subst. rewrite Eb.
    replace (draw seed i <? u) with (bit D i) by (unfold D; apply bit_drawn; lia). rewrite <- (bit_zip orb B D i EL) by lia. fold (joined B D).
    unfold random_bits. destruct (forced B D); [|reflexivity]. unfold bit. rewrite zn_upd by lia. replace (i =? 0) with false by lia. reflexivity. }
  rewrite (K _ _ _ E), (K _ _ _ E'). intros X. apply orb_true_iff in X as [->|X]; [reflexivity|]. replace (draw seed i <? t') with true by lia. apply orb_true_r.
Qed.
