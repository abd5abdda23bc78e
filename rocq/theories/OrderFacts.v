(** Numberings of bits: rank and select under [reversed], and the numberings of
    include/mranisz and include/poppy. *)
From Coq Require Import ZifyBool.
From Verif Require Import Base BaseFacts Mem Words WordFacts BlockFacts Spec BitmapFacts ProgramFacts SpecPoppy PoppyFacts SpecText MrRank MrRankFacts SpecOrder SpecPerf PerfBase.
Ltac Zify.zify_post_hook ::= Z.div_mod_to_equations.

Lemma zlen_reversed s B : zlen (reversed s B) = zlen B.
Proof. unfold reversed, zlen. rewrite map_length, length_zrange. reflexivity. Qed.
Lemma bit_map_zrange (f : Z -> bool) n i : 0 <= i < Z.of_nat n -> bit (map f (zrange 0 n)) i = f i.
Proof.
  intros H. unfold bit. rewrite (zn_map f 0 false) by (unfold zlen; rewrite length_zrange; lia). rewrite zn_zrange by lia. f_equal.
Qed.
Lemma bit_reversed s B i : 0 <= i < zlen B -> bit (reversed s B) i = bit B (s * (i / s) + (s - 1 - i mod s)).
Proof. intros H. unfold reversed. rewrite bit_map_zrange by exact H. reflexivity. Qed.

Lemma bits_ext B C : zlen B = zlen C -> (forall i, 0 <= i < zlen B -> bit B i = bit C i) -> B = C.
Proof.
  intros HL H. apply nth_ext with (d := false) (d' := false); [unfold zlen in HL; lia|]. intros j Hj. specialize (H (Z.of_nat j) ltac:(unfold zlen; lia)).
  unfold bit, zn in H. rewrite Nat2Z.id in H. exact H.
Qed.

(** ** The two numberings *)
Lemma msb_reversed ws : bits_msb ws = reversed 64 (bits_of_words ws).
Proof.
  apply bits_ext; [rewrite zlen_reversed, zlen_bits_msb, zlen_bits; reflexivity|]. rewrite zlen_bits_msb. intros i Hi. rewrite bit_reversed by (rewrite zlen_bits; lia). rewrite bit_msb by lia.
  rewrite bit_words by lia. f_equal; [f_equal|]; lia.
Qed.

Lemma zlen_text ws : zlen (bytes_of_words ws) = 8 * zlen ws.
Proof. unfold bytes_of_words. induction ws as [|w ws IH]; [reflexivity|]. cbn [flat_map]. rewrite zlen_app, IH, zlen_cons. change (zlen (map _ (zrange 0 8))) with 8. lia. Qed.
Lemma land_255 x : Z.land x 255 = x mod 256.
Proof. change 255 with (Z.ones 8). rewrite Z.land_ones by lia. reflexivity. Qed.
Lemma text_bytes_ok ws : text_ok (bytes_of_words ws).
Proof.
  unfold text_ok, bytes_of_words. apply Forall_forall. intros x Hx. apply in_flat_map in Hx. destruct Hx as (w & _ & Hx). apply in_map_iff in Hx. destruct Hx as (j & <- & _). rewrite land_255. apply Z.mod_pos_bound. lia.
Qed.
Lemma text_of_bytes ws : bytes_of_words ws = text_of_words ws.
Proof.
  unfold bytes_of_words, text_of_words. apply flat_map_ext. intros w. apply map_ext_in. intros j Hj. apply in_zrange in Hj. rewrite land_255, Z.shiftr_div_pow2 by lia. reflexivity.
Qed.
Lemma zn_text ws : forall j, 0 <= j < 8 * zlen ws -> zn 0 (bytes_of_words ws) j = Z.shiftr (zn 0 ws (j / 8)) (8 * (j mod 8)) mod 256.
Proof.
  unfold bytes_of_words. induction ws as [|w ws IH]; intros j Hj; [cbn in Hj; lia|]. rewrite zlen_cons in Hj. cbn [flat_map]. set (h := map _ (zrange 0 8)).
  assert (Lh : zlen h = 8) by reflexivity. destruct (Z_lt_ge_dec j 8).
  - rewrite zn_app_l by lia. unfold h. rewrite (zn_map _ 0 0) by (change (zlen (zrange 0 8)) with 8; lia). rewrite zn_zrange by lia. rewrite land_255. rewrite (Z.div_small j 8), (Z.mod_small j 8) by lia. reflexivity.
  - rewrite zn_app_r by lia. rewrite Lh. rewrite IH by lia. assert (E1 : j / 8 = 1 + (j - 8) / 8) by (clear - g; lia). assert (E2 : j mod 8 = (j - 8) mod 8) by (clear - g; lia). rewrite E1, E2.
    change (w :: ws) with ([w] ++ ws). rewrite (zn_app_r 0 [w]) by (change (zlen [w]) with 1; clear - g; lia). change (zlen [w]) with 1. do 3 f_equal. clear; lia.
Qed.
Lemma text_reversed ws : text_bits (bytes_of_words ws) = reversed 8 (bits_of_words ws).
Proof.
  apply bits_ext; [rewrite zlen_reversed, zlen_text_bits, zlen_text, zlen_bits; lia|]. rewrite zlen_text_bits, zlen_text. intros i Hi. rewrite bit_reversed by (rewrite zlen_bits; lia).
  rewrite bit_text by (rewrite zlen_text; lia). rewrite zn_text by lia. rewrite bit_words by lia.
  change 256 with (2 ^ 8). rewrite Z.mod_pow2_bits_low by lia. rewrite Z.shiftr_spec by lia. f_equal; [f_equal|]; lia.
Qed.

(** ** Rank *)
Lemma sumf_reverse f a n : 0 <= n -> sumf (fun i => f (2 * a + n - 1 - i)) a (a + n) = sumf f a (a + n).
Proof.
  intros H. revert f. rewrite <- (Z2Nat.id n H). clear H. generalize (Z.to_nat n) as k. clear n. induction k as [|k IH]; intros f; [rewrite !sumf_empty by lia; reflexivity|].
  replace (a + Z.of_nat (S k)) with (a + Z.of_nat k + 1) by lia. rewrite sumf_succ by lia. rewrite (sumf_first f) by lia.
  replace (2 * a + Z.of_nat (S k) - 1 - (a + Z.of_nat k)) with a by lia.
  rewrite (sumf_ext _ (fun i => (fun j => f (j + 1)) (2 * a + Z.of_nat k - 1 - i))) by (intros i Hi; f_equal; lia). rewrite (IH (fun j => f (j + 1))).
  rewrite (sumf_shift f a (a + Z.of_nat k) 1). lia.
Qed.

Definition bs (B : list bool) (a b : Z) : Z := sumf (fun t => b2z (bit B t)) a b.
Lemma ones_bs B i : 0 <= i <= zlen B -> ones_before B i = bs B 0 i.
Proof. apply ones_before_sum. Qed.
Lemma bs_split B a b c : a <= b <= c -> bs B a c = bs B a b + bs B b c.
Proof. apply sumf_split. Qed.
Lemma bs_bound B a b : a <= b -> 0 <= bs B a b <= b - a.
Proof. intros H. unfold bs. pose proof (sumf_bound (fun t => b2z (bit B t)) 1 a b H ltac:(intros; pose proof (b2z_01 (bit B i)); lia)). lia. Qed.

(** A part of a group, from its end. *)
Lemma bs_reversed s B c r : 1 <= s -> 0 <= c -> 0 <= r <= s -> s * c + s <= zlen B -> bs (reversed s B) (s * c) (s * c + r) = bs B (s * c + s - r) (s * c + s).
Proof.
  intros Hs Hc Hr HL. unfold bs.
  rewrite (sumf_ext _ (fun i => (fun j => b2z (bit B (j + (s - r)))) (2 * (s * c) + r - 1 - i))).
  - rewrite (sumf_reverse (fun j => b2z (bit B (j + (s - r))))) by lia. rewrite (sumf_shift (fun j => b2z (bit B j)) (s * c) (s * c + r) (s - r)). f_equal; lia.
  - intros i Hi. rewrite bit_reversed by nia. f_equal. f_equal. replace (i / s) with c by (apply (Z.div_unique i s c (i - s * c)); lia). rewrite <- (Z.mod_unique i s c (i - s * c)) by lia. lia.
Qed.
Lemma groups_reversed s B n : 1 <= s -> 0 <= n -> s * n <= zlen B -> bs (reversed s B) 0 (s * n) = bs B 0 (s * n).
Proof.
  intros Hs Hn. rewrite <- (Z2Nat.id n Hn). clear Hn. induction (Z.to_nat n) as [|k IH]; intros HL; [rewrite Z.mul_0_r; reflexivity|].
  replace (s * Z.of_nat (S k)) with (s * Z.of_nat k + s) in * by lia. rewrite (bs_split _ 0 (s * Z.of_nat k)) by nia. rewrite (bs_split B 0 (s * Z.of_nat k)) by nia.
  rewrite IH by lia. rewrite bs_reversed by lia. do 2 f_equal. lia.
Qed.

Lemma rank_at_groups s B i : 1 <= s -> 0 <= i <= zlen B -> i mod s = 0 -> ones_before (reversed s B) i = ones_before B i.
Proof.
  intros Hs Hi Hm. rewrite !ones_bs by (rewrite ?zlen_reversed; lia). pose proof (Z.div_mod i s ltac:(lia)) as E. rewrite Hm, Z.add_0_r in E. rewrite E. apply groups_reversed; [lia| |lia].
  apply Z.div_pos; lia.
Qed.
Lemma count_reversed s B : 1 <= s -> zlen B mod s = 0 -> count_true (reversed s B) = count_true B.
Proof. intros Hs Hm. rewrite !count_true_all, zlen_reversed. apply rank_at_groups; auto. pose proof (zlen_nonneg B). lia. Qed.

Lemma rank_close s B i : 1 <= s -> zlen B mod s = 0 -> 0 <= i <= zlen B ->
  Z.abs (ones_before (reversed s B) i - ones_before B i) <= Z.min (i mod s) (s - i mod s).
Proof.
  intros Hs HM Hi. pose proof (Z.div_mod i s ltac:(lia)) as E. pose proof (Z.mod_pos_bound i s ltac:(lia)) as M. set (c := i / s) in *. set (r := i mod s) in *.
  assert (C0 : 0 <= c) by (apply Z.div_pos; lia). pose proof (Z.div_mod (zlen B) s ltac:(lia)) as EL. rewrite HM, Z.add_0_r in EL.
  destruct (Z.eq_dec r 0) as [R0|R0]; [rewrite rank_at_groups by (auto; lia); lia|].
  assert (HC : s * c + s <= zlen B). { set (q := zlen B / s) in *. assert (c < q) by nia. nia. }
  rewrite !ones_bs by (rewrite ?zlen_reversed; lia). rewrite E. rewrite (bs_split _ 0 (s * c) (s * c + r)) by nia. rewrite (bs_split B 0 (s * c) (s * c + r)) by nia.
  rewrite groups_reversed by lia. rewrite bs_reversed by lia.
  pose proof (bs_bound B (s * c) (s * c + r) ltac:(lia)). pose proof (bs_bound B (s * c + s - r) (s * c + s) ltac:(lia)).
  assert (X : bs B (s * c) (s * c + s) = bs B (s * c) (s * c + r) + bs B (s * c + r) (s * c + s)) by (apply bs_split; lia).
  assert (Y : bs B (s * c) (s * c + s) = bs B (s * c) (s * c + s - r) + bs B (s * c + s - r) (s * c + s)) by (apply bs_split; lia).
  pose proof (bs_bound B (s * c + r) (s * c + s) ltac:(lia)). pose proof (bs_bound B (s * c) (s * c + s - r) ltac:(lia)). lia.
Qed.

(** ** Select *)
Lemma select_group s B k p : 1 <= s -> zlen B mod s = 0 -> is_select B k p -> ones_before B (s * (p / s)) <= k < ones_before B (s * (p / s) + s) /\ 0 <= p / s /\ s * (p / s) + s <= zlen B.
Proof.
  intros Hs HM (H1 & H2 & H3). pose proof (Z.div_mod p s ltac:(lia)) as E. pose proof (Z.mod_pos_bound p s ltac:(lia)) as M. pose proof (Z.div_mod (zlen B) s ltac:(lia)) as EL. rewrite HM, Z.add_0_r in EL.
  set (c := p / s) in *. assert (C0 : 0 <= c) by (apply Z.div_pos; lia). assert (HC : s * c + s <= zlen B). { set (q := zlen B / s) in *. assert (c < q) by nia. nia. }
  split; [|lia]. pose proof (ones_before_mono B (s * c) p ltac:(nia) ltac:(lia)). pose proof (ones_before_mono B (p + 1) (s * c + s) ltac:(nia) ltac:(lia)).
  pose proof (ones_before_succ B p H1) as S. rewrite H2 in S. cbn [b2z] in S. lia.
Qed.
Lemma select_same_group s B k p q : 1 <= s -> zlen B mod s = 0 -> is_select B k p -> is_select (reversed s B) k q -> q / s = p / s.
Proof.
  intros Hs HM HP HQ. apply select_group with (s := s) in HP; [|lia|lia]. apply select_group with (s := s) in HQ; [|lia|rewrite zlen_reversed; lia]. rewrite zlen_reversed in HQ.
  destruct HP as (P1 & P2 & P3). destruct HQ as (Q1 & Q2 & Q3). set (a := p / s) in *. set (b := q / s) in *.
  assert (M1 : (s * b) mod s = 0) by (rewrite Z.mul_comm; apply Z.mod_mul; lia). assert (M2 : (s * b + s) mod s = 0) by (replace (s * b + s) with ((b + 1) * s) by lia; apply Z.mod_mul; lia).
  assert (N : 0 <= s * b) by (clear - Hs Q2; nia).
  rewrite (rank_at_groups s B (s * b)), (rank_at_groups s B (s * b + s)) in Q1 by (auto; clear - Hs N Q3; lia). clearbody a b. clear M1 M2 HM.
  destruct (Z.lt_trichotomy a b) as [H|[H|H]]; [exfalso|lia|exfalso].
  - pose proof (ones_before_mono B (s * a + s) (s * b) ltac:(clear - Hs H P2; nia) ltac:(clear - Hs Q3; lia)). lia.
  - pose proof (ones_before_mono B (s * b + s) (s * a) ltac:(clear - Hs H Q2; nia) ltac:(clear - Hs P3; lia)). lia.
Qed.

(** ** Blocks *)
Lemma block_reversed B b : 0 <= b -> zlen B mod 8 = 0 -> equal_block (reversed 8 B) b <-> equal_block B b.
Proof.
  intros Hb HM. unfold equal_block. rewrite zlen_reversed. split; intros [H1 [v H2]]; (split; [exact H1|]); exists v; intros p Hp.
  - specialize (H2 (8 * (p / 8) + (7 - p mod 8)) ltac:(lia)). rewrite bit_reversed in H2 by lia. rewrite <- H2. f_equal. lia.
  - rewrite bit_reversed by lia. apply H2. lia.
Qed.
