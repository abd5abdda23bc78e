(** Facts about the rank structures of include/mranisz: blocks, headers, words. *)
From Coq Require Import ZifyBool.
From Verif Require Import Base BaseFacts Words WordFacts BlockFacts NodeFacts Trees TreeBuild MemFacts Spec BitmapFacts KernelFacts SpecPoppy PoppyFacts PoppyFacts2 SpecText MrRank.
Ltac Zify.zify_post_hook ::= Z.div_mod_to_equations.

(** ** The text as words *)
Definition pterm (t : list Z) (q m : Z) : Z := zn 0 t (8 * q + m) * 2 ^ (8 * (7 - m)).
Definition pword (t : list Z) (q k : Z) : Z := sumf (pterm t q) 0 k.
Definition bword (t : list Z) (q : Z) : list Z := rev (map (fun m => zn 0 t (8 * q + m)) (zrange 0 8)).
Definition tword (t : list Z) (q : Z) : Z := val (bword t q).
Definition nblk (t : list Z) : Z := (zlen t + 63) / 64.
Definition twords (t : list Z) : list Z := map (tword t) (zrange 0 (Z.to_nat (8 * nblk t))).

Lemma nblk_nonneg t : 0 <= nblk t.
Proof. unfold nblk. pose proof (zlen_nonneg t). lia. Qed.

Lemma extended_ok n : 0 <= n < 2 ^ 60 -> extended_len n = 64 * ((n + 63) / 64).
Proof. intros H. unfold extended_len. destruct (n mod 64 >? 0) eqn:E; [rewrite wrap_small by lia|]; lia. Qed.
Lemma block_count_ok t : zlen t < 2 ^ 60 -> block_count (zlen t) = nblk t.
Proof. intros H. unfold block_count, nblk. pose proof (zlen_nonneg t). rewrite extended_ok by lia. lia. Qed.

Lemma tbyte t k : text_ok t -> 0 <= zn 0 t k < 256.
Proof. intros H. apply (bytes_zn t k). exact H. Qed.

Lemma pterm_bound t q m : text_ok t -> 0 <= m < 8 -> 0 <= pterm t q m.
Proof. intros H Hm. unfold pterm. pose proof (tbyte t (8 * q + m) H). pose proof (Z.pow_pos_nonneg 2 (8 * (7 - m)) ltac:(lia) ltac:(lia)). nia. Qed.

Lemma bword_bytes t q : text_ok t -> bytes (bword t q).
Proof. intros H. unfold bword, bytes. apply Forall_rev. apply Forall_forall. intros x Hx. apply in_map_iff in Hx as (m & <- & _). apply tbyte, H. Qed.

Lemma pword_all t q : pword t q 8 = tword t q.
Proof.
  unfold pword, tword, bword, sumf, pterm. change (Z.to_nat (8 - 0)) with 8%nat. cbn [sumn].
  change (zrange 0 8) with [0; 1; 2; 3; 4; 5; 6; 7]. cbn [map rev app val].
  change (0 + 1) with 1. change (1 + 1) with 2. change (2 + 1) with 3. change (3 + 1) with 4.
  change (4 + 1) with 5. change (5 + 1) with 6. change (6 + 1) with 7. change (7 + 1) with 8.
  change (2 ^ (8 * (7 - 0))) with (256 * (256 * (256 * (256 * (256 * (256 * 256)))))).
  change (2 ^ (8 * (7 - 1))) with (256 * (256 * (256 * (256 * (256 * 256))))).
  change (2 ^ (8 * (7 - 2))) with (256 * (256 * (256 * (256 * 256)))).
  change (2 ^ (8 * (7 - 3))) with (256 * (256 * (256 * 256))).
  change (2 ^ (8 * (7 - 4))) with (256 * (256 * 256)).
  change (2 ^ (8 * (7 - 5))) with (256 * 256).
  change (2 ^ (8 * (7 - 6))) with 256. change (2 ^ (8 * (7 - 7))) with 1.
  ring.
Qed.

Lemma tword_bound t q : text_ok t -> 0 <= tword t q < 2 ^ 64.
Proof. intros H. pose proof (val_bound (bword t q) (bword_bytes t q H)). replace (zlen (bword t q)) with 8 in H0 by reflexivity. exact H0. Qed.

Lemma pword_bound t q k : text_ok t -> 0 <= k <= 8 -> 0 <= pword t q k < 2 ^ 64.
Proof.
  intros H Hk. pose proof (tword_bound t q H). rewrite <- pword_all in H0. unfold pword in *. split.
  - apply sumf_nonneg. intros i Hi. apply pterm_bound; auto; lia.
  - pose proof (sumf_mono (pterm t q) 0 k 8 ltac:(lia) ltac:(intros; apply pterm_bound; auto; lia)). lia.
Qed.

Lemma zlen_twords t : zlen (twords t) = 8 * nblk t.
Proof. unfold twords. rewrite zlen_map. unfold zlen. rewrite length_zrange. pose proof (nblk_nonneg t). lia. Qed.
Lemma zn_twords t q : 0 <= q < 8 * nblk t -> zn 0 (twords t) q = tword t q.
Proof. intros H. unfold twords. rewrite zn_map_zrange by lia. reflexivity. Qed.
Lemma twords_words t : text_ok t -> words (twords t).
Proof. intros H. apply Forall_forall. intros x Hx. apply in_map_iff in Hx as (q & <- & _). apply tword_bound, H. Qed.

(** Bits of the words are bits of the bytes. *)
Lemma zn_bword t q j : 0 <= j < 8 -> zn 0 (bword t q) j = zn 0 t (8 * q + (7 - j)).
Proof.
  intros Hj. unfold bword. rewrite zn_rev by (rewrite zlen_map; unfold zlen; rewrite length_zrange; lia).
  rewrite zlen_map. unfold zlen. rewrite length_zrange. rewrite zn_map_zrange by lia. f_equal.
Qed.

Lemma bit_tword t q p : text_ok t -> 0 <= p < 64 -> Z.testbit (tword t q) (63 - p) = Z.testbit (zn 0 t (8 * q + p / 8)) (7 - p mod 8).
Proof.
  intros H Hp. unfold tword. replace (63 - p) with (8 * (7 - p / 8) + (7 - p mod 8)) by lia.
  rewrite testbit_val by (auto using bword_bytes; lia). rewrite zn_bword by lia. f_equal. f_equal. lia.
Qed.

Definition tb (t : list Z) (p : Z) : Z := wbit (zn 0 t (p / 8)) (7 - p mod 8).
Definition ts (t : list Z) (a b : Z) : Z := sumf (tb t) a b.

Lemma mb_twords t p : text_ok t -> 0 <= p < 512 * nblk t -> mb (twords t) p = tb t p.
Proof.
  intros H Hp. unfold mb, tb, wbit. rewrite zn_twords by lia. rewrite bit_tword by (auto; lia). do 3 f_equal; lia.
Qed.
Lemma ms_twords t a b : text_ok t -> 0 <= a -> b <= 512 * nblk t -> ms (twords t) a b = ts t a b.
Proof. intros H Ha Hb. apply sumf_ext. intros i Hi. apply mb_twords; auto; lia. Qed.

Lemma zlen_byte_bits b : zlen (byte_bits b) = 8.
Proof. reflexivity. Qed.
Lemma zlen_text_bits t : zlen (text_bits t) = 8 * zlen t.
Proof. unfold text_bits. induction t as [|b t IH]; [reflexivity|]. cbn [flat_map]. rewrite zlen_app, zlen_byte_bits, IH, zlen_cons. lia. Qed.
Lemma bit_byte b p : 0 <= p < 8 -> bit (byte_bits b) p = Z.testbit b (7 - p).
Proof.
  intros H. assert (E : p = 0 \/ p = 1 \/ p = 2 \/ p = 3 \/ p = 4 \/ p = 5 \/ p = 6 \/ p = 7) by lia.
  repeat destruct E as [->|E]; try subst p; reflexivity.
Qed.
Lemma bit_text t : forall p, 0 <= p < 8 * zlen t -> bit (text_bits t) p = Z.testbit (zn 0 t (p / 8)) (7 - p mod 8).
Proof.
  unfold text_bits. induction t as [|b t IH]; intros p Hp; [cbn in Hp; lia|].
  rewrite zlen_cons in Hp. cbn [flat_map]. destruct (Z_lt_le_dec p 8) as [H|H].
  - unfold bit. rewrite zn_app_l by (rewrite zlen_byte_bits; lia). change (zn false (byte_bits b) p) with (bit (byte_bits b) p).
    rewrite bit_byte by lia. replace (p / 8) with 0 by lia. rewrite zn_cons_0. f_equal. lia.
  - unfold bit in *. rewrite zn_app_r by (rewrite zlen_byte_bits; lia). rewrite zlen_byte_bits, IH by lia.
    rewrite (zn_cons_S 0 b) by lia. replace ((p - 8) / 8) with (p / 8 - 1) by lia. f_equal. lia.
Qed.
Lemma tb_bit t p : 0 <= p < 8 * zlen t -> tb t p = b2z (bit (text_bits t) p).
Proof. intros H. unfold tb, wbit. rewrite bit_text by lia. reflexivity. Qed.
Lemma ones_text t i : 0 <= i <= 8 * zlen t -> ones_before (text_bits t) i = ts t 0 i.
Proof.
  intros Hi. rewrite ones_before_sum by (rewrite zlen_text_bits; lia). apply sumf_ext. intros p Hp. rewrite tb_bit by lia. reflexivity.
Qed.
Lemma tb_01 t p : 0 <= tb t p <= 1.
Proof. apply wbit_01. Qed.
Lemma ts_bound t a b : a <= b -> 0 <= ts t a b <= b - a.
Proof. intros H. pose proof (sumf_bound (tb t) 1 a b H (fun i _ => tb_01 t i)) as S0. unfold ts. lia. Qed.
Lemma ts_split t a b c : a <= b <= c -> ts t a c = ts t a b + ts t b c.
Proof. apply sumf_split. Qed.
Lemma ts_empty t a : ts t a a = 0.
Proof. apply sumf_empty. lia. Qed.

(** ** Uniform blocks *)
Lemma ts_zero t a b : a <= b -> ts t a b = 0 -> forall i, a <= i < b -> tb t i = 0.
Proof.
  intros H E i Hi. pose proof (tb_01 t i). pose proof (ts_bound t a i ltac:(lia)). pose proof (ts_bound t (i + 1) b ltac:(lia)).
  rewrite (ts_split t a i b) in E by lia. rewrite (ts_split t i (i + 1) b) in E by lia. unfold ts in E at 2. rewrite sumf_one in E. lia.
Qed.
Lemma ts_full t a b : a <= b -> ts t a b = b - a -> forall i, a <= i < b -> tb t i = 1.
Proof.
  intros H E i Hi. pose proof (tb_01 t i). pose proof (ts_bound t a i ltac:(lia)). pose proof (ts_bound t (i + 1) b ltac:(lia)).
  rewrite (ts_split t a i b) in E by lia. rewrite (ts_split t i (i + 1) b) in E by lia. unfold ts in E at 2. rewrite sumf_one in E. lia.
Qed.
Lemma ts_all0 t a b : (forall i, a <= i < b -> tb t i = 0) -> ts t a b = 0.
Proof. apply sumf_const0. Qed.
Lemma ts_all1 t a b : a <= b -> (forall i, a <= i < b -> tb t i = 1) -> ts t a b = b - a.
Proof.
  intros H E. unfold ts. rewrite (sumf_ext (tb t) (fun _ => 1)) by auto. unfold sumf.
  assert (G : forall n lo, sumn (fun _ => 1) lo n = Z.of_nat n) by (induction n; intros; cbn [sumn]; [reflexivity|rewrite IHn; lia]).
  rewrite G. lia.
Qed.

Lemma all_bytes_ok p t i : zlen t < 2 ^ 60 -> 0 <= i -> forall fuel j, 0 <= j ->
  exists h, all_bytes p t i fuel j = Ok h /\
    (h = true <-> forall k, j <= k < j + Z.of_nat fuel -> i + k < zlen t /\ p (zn 0 t (i + k)) = true).
Proof.
  intros Hl Hi. induction fuel; intros j Hj; cbn [all_bytes].
  - exists true. split; [reflexivity|]. split; [intros; lia|auto].
  - destruct (i + j >=? zlen t) eqn:E.
    + exists false. split; [reflexivity|]. split; [discriminate|]. intros H. specialize (H j ltac:(lia)). lia.
    + rewrite geti_ok by lia. cbn [bind]. destruct (p (zn 0 t (i + j))) eqn:Ep.
      * destruct (IHfuel (j + 1) ltac:(lia)) as (h & Eh & Hh). exists h. split; [exact Eh|]. rewrite Hh. split; intros H k Hk.
        -- destruct (Z.eq_dec k j) as [->|]; [split; [lia|exact Ep]|]. apply H. lia.
        -- apply H. lia.
      * exists false. split; [reflexivity|]. split; [discriminate|]. intros H. specialize (H j ltac:(lia)) as [_ H]. congruence.
Qed.

(** Block b lies inside the text and has only one kind of bits. *)
Definition homob (t : list Z) (b : Z) : bool :=
  (64 * (b + 1) <=? zlen t) && ((ts t (512 * b) (512 * (b + 1)) =? 0) || (ts t (512 * b) (512 * (b + 1)) =? 512)).

Lemma byte_zero t p : text_ok t -> 0 <= p -> (forall j, 0 <= j < 8 -> tb t (8 * p + j) = 0) -> zn 0 t p = 0.
Proof.
  intros H Hp E. pose proof (tbyte t p H) as B. apply Z.bits_inj'. intros n Hn. rewrite Z.bits_0.
  destruct (Z_lt_le_dec n 8) as [L|L].
  - specialize (E (7 - n) ltac:(lia)). unfold tb, wbit in E. replace ((8 * p + (7 - n)) / 8) with p in E by lia.
    replace (7 - (8 * p + (7 - n)) mod 8) with n in E by lia. destruct (Z.testbit (zn 0 t p) n); [discriminate|reflexivity].
  - apply (bits_above _ 8); lia.
Qed.

Lemma byte_full t p : text_ok t -> 0 <= p -> (forall j, 0 <= j < 8 -> tb t (8 * p + j) = 1) -> zn 0 t p = 255.
Proof.
  intros H Hp E. pose proof (tbyte t p H) as B. apply Z.bits_inj'. intros n Hn.
  destruct (Z_lt_le_dec n 8) as [L|L].
  - specialize (E (7 - n) ltac:(lia)). unfold tb, wbit in E. replace ((8 * p + (7 - n)) / 8) with p in E by lia.
    replace (7 - (8 * p + (7 - n)) mod 8) with n in E by lia.
    change 255 with (Z.ones 8). rewrite Z.ones_spec_low by lia. destruct (Z.testbit (zn 0 t p) n); [reflexivity|discriminate].
  - rewrite !(bits_above _ 8) by lia. reflexivity.
Qed.
Lemma bits_of_zero t p : 0 <= p -> zn 0 t (p / 8) = 0 -> tb t p = 0.
Proof. intros Hp E. unfold tb, wbit. rewrite E, Z.bits_0. reflexivity. Qed.
Lemma bits_of_full t p : 0 <= p -> zn 0 t (p / 8) = 255 -> tb t p = 1.
Proof. intros Hp E. unfold tb, wbit. rewrite E. change 255 with (Z.ones 8). rewrite Z.ones_spec_low by lia. reflexivity. Qed.

Lemma homoblock_ok t b : text_ok t -> zlen t < 2 ^ 60 -> 0 <= b -> homoblock t (64 * b) = Ok (homob t b).
Proof.
  intros H Hl Hb. unfold homoblock.
  destruct (all_bytes_ok (fun b => negb (b >? 0)) t (64 * b) Hl ltac:(lia) 64 0 ltac:(lia)) as (h & -> & Hh). cbn [bind].
  destruct (all_bytes_ok (fun b => negb (b <? 255)) t (64 * b) Hl ltac:(lia) 64 0 ltac:(lia)) as (g & -> & Hg).
  change (0 + Z.of_nat 64) with 64 in *.
  assert (X1 : h = true <-> 64 * (b + 1) <= zlen t /\ ts t (512 * b) (512 * (b + 1)) = 0).
  { rewrite Hh. split.
    - intros A. split; [specialize (A 63 ltac:(lia)); lia|]. apply ts_all0. intros i Hi. apply bits_of_zero; [lia|].
      destruct (A (i / 8 - 64 * b) ltac:(lia)) as [_ A2]. replace (64 * b + (i / 8 - 64 * b)) with (i / 8) in A2 by lia.
      pose proof (tbyte t (i / 8) H). lia.
    - intros [A B] k Hk. split; [lia|]. rewrite byte_zero; [reflexivity|auto|lia|]. intros j Hj. apply (ts_zero t (512 * b) (512 * (b + 1))); lia. }
  assert (X2 : g = true <-> 64 * (b + 1) <= zlen t /\ ts t (512 * b) (512 * (b + 1)) = 512).
  { rewrite Hg. split.
    - intros A. split; [specialize (A 63 ltac:(lia)); lia|]. rewrite ts_all1; [lia|lia|]. intros i Hi. apply bits_of_full; [lia|].
      destruct (A (i / 8 - 64 * b) ltac:(lia)) as [_ A2]. replace (64 * b + (i / 8 - 64 * b)) with (i / 8) in A2 by lia.
      pose proof (tbyte t (i / 8) H). lia.
    - intros [A B] k Hk. split; [lia|]. rewrite byte_full; [reflexivity|auto|lia|]. intros j Hj. apply (ts_full t (512 * b) (512 * (b + 1))); lia. }
  unfold homob. destruct h.
  - f_equal. destruct X1 as [X1 _]. specialize (X1 eq_refl). lia.
  - f_equal. destruct g.
    + destruct X2 as [X2 _]. specialize (X2 eq_refl). lia.
    + symmetry. apply not_true_is_false. intros E. assert (G : 64 * (b + 1) <= zlen t /\ (ts t (512 * b) (512 * (b + 1)) = 0 \/ ts t (512 * b) (512 * (b + 1)) = 512)) by lia.
      destruct G as [G1 [G2|G2]]; [assert (false = true) by (apply X1; auto)|assert (false = true) by (apply X2; auto)]; discriminate.
Qed.

Definition flags (t : list Z) : list Z := map (fun b => b2z (homob t b)) (zrange 0 (Z.to_nat (nblk t))).
Lemma empty_blocks_ok t : text_ok t -> zlen t < 2 ^ 60 -> empty_blocks t = Ok (flags t).
Proof.
  intros H Hl. unfold empty_blocks. rewrite block_count_ok by lia. unfold flags. apply mapM_ok.
  intros b Hb. apply in_zrange in Hb. rewrite homoblock_ok by (auto; lia). reflexivity.
Qed.
Lemma zlen_flags t : zlen (flags t) = nblk t.
Proof. unfold flags. rewrite zlen_map. unfold zlen. rewrite length_zrange. pose proof (nblk_nonneg t). lia. Qed.
Lemma zn_flags t b : 0 <= b < nblk t -> zn 0 (flags t) b = b2z (homob t b).
Proof. intros H. unfold flags. rewrite zn_map_zrange by lia. reflexivity. Qed.

(** Blocks that are kept, among the first b. *)
Definition ne (t : list Z) (b : Z) : Z := sumf (fun c => if homob t c then 0 else 1) 0 b.
Lemma ne_bound t b : 0 <= b -> 0 <= ne t b <= b.
Proof. intros H. pose proof (sumf_bound (fun c => if homob t c then 0 else 1) 1 0 b H) as S0. unfold ne. cbn beta in S0. assert (forall i, 0 <= (if homob t i then 0 else 1) <= 1) by (intros; destruct (homob t i); lia). specialize (S0 ltac:(auto)). lia. Qed.
Lemma ne_succ t b : 0 <= b -> ne t (b + 1) = ne t b + (if homob t b then 0 else 1).
Proof. intros H. unfold ne. rewrite sumf_succ by lia. reflexivity. Qed.
Lemma ne_mono t a b : 0 <= a <= b -> ne t a <= ne t b.
Proof. intros H. apply sumf_mono; [lia|]. intros. destruct (homob t i); lia. Qed.
Lemma ne_lt t a b : 0 <= a < b -> homob t a = false -> ne t a + 1 <= ne t b.
Proof. intros H E. pose proof (ne_succ t a ltac:(lia)). rewrite E in H0. pose proof (ne_mono t (a + 1) b ltac:(lia)). lia. Qed.

Lemma zrange_last n : forall lo, zrange lo (S n) = zrange lo n ++ [lo + Z.of_nat n].
Proof.
  induction n; intros lo; [cbn; rewrite Z.add_0_r; reflexivity|]. change (zrange lo (S (S n))) with (lo :: zrange (lo + 1) (S n)).
  rewrite IHn. cbn [zrange app]. do 3 f_equal. lia.
Qed.
Lemma not_empty_gen l : forall n, fold_left (fun n e => if e =? 0 then n + 1 else n) (map (fun b => b2z (l b)) (zrange 0 n)) 0 = sumf (fun c => if l c then 0 else 1) 0 (Z.of_nat n).
Proof.
  induction n; [reflexivity|]. rewrite zrange_last, map_app, fold_left_app, IHn. cbn [map fold_left].
  replace (Z.of_nat (S n)) with (Z.of_nat n + 1) by lia. rewrite sumf_succ by lia. rewrite Z.add_0_l. destruct (l (Z.of_nat n)); cbn [b2z]; [change (1 =? 0) with false|change (0 =? 0) with true]; cbv iota; lia.
Qed.
Lemma not_empty_ok t : not_empty (flags t) = ne t (nblk t).
Proof. unfold not_empty, flags. rewrite not_empty_gen. pose proof (nblk_nonneg t). rewrite Z2Nat.id by lia. reflexivity. Qed.

(** ** Copying one block *)
Lemma tword_bits t q r : text_ok t -> 0 <= q -> 0 <= r <= 64 -> sumf (fun p => wbit (tword t q) (63 - p)) 0 r = ts t (64 * q) (64 * q + r).
Proof.
  intros H Hq Hr. unfold ts. rewrite <- (Z.add_0_r (64 * q)) at 1. rewrite (Z.add_comm (64 * q) 0), (Z.add_comm (64 * q) r).
  rewrite <- sumf_shift. apply sumf_ext. intros p Hp. unfold tb, wbit. rewrite bit_tword by (auto; lia). f_equal. f_equal; [|lia]. f_equal. lia.
Qed.
Lemma popcount_tword t q : text_ok t -> 0 <= q -> popcount (tword t q) = ts t (64 * q) (64 * q + 64).
Proof.
  intros H Hq. rewrite <- (tword_bits t q 64) by (auto; lia). rewrite <- top_bits by (auto using tword_bound; lia). rewrite Z.shiftr_0_r. reflexivity.
Qed.

(** The words written by the copying loop, from word [bc] on. *)
Definition fillP (t : list Z) (b : Z) (bits : list Z) (bc rank j : Z) (st : list Z * Z * Z) : Prop :=
  let '(bits', bc', rank') := st in
  zlen bits' = zlen bits /\ bc' = bc + j / 8 /\ rank' = rank + ts t (512 * b) (512 * b + 64 * (j / 8)) /\
  (forall k, 0 <= k < j / 8 -> zn 0 bits' (bc + k) = tword t (8 * b + k)) /\
  (j mod 8 <> 0 -> zn 0 bits' (bc + j / 8) = pword t (8 * b + j / 8) (j mod 8)) /\
  (forall k, 0 <= k < bc \/ bc + 8 <= k -> zn 0 bits' k = zn 0 bits k).

Lemma zn_over {A} (d : A) l k : zlen l <= k -> zn d l k = d.
Proof. intros H. unfold zn, zlen in *. apply nth_overflow. lia. Qed.

Lemma pword_succ t q k : 0 <= k -> pword t q (k + 1) = pword t q k + pterm t q k.
Proof. intros H. unfold pword. rewrite sumf_succ by lia. reflexivity. Qed.

Lemma fill_step t b bits bc rank j st : text_ok t -> zlen t < 2 ^ 58 -> 0 <= b -> 512 * b < 2 ^ 62 -> 0 <= bc -> bc + 8 <= zlen bits -> 0 <= rank <= 512 * b ->
  0 <= j < 64 -> fillP t b bits bc rank j st -> exists st', fill_byte t (64 * b) st j = Ok st' /\ fillP t b bits bc rank (j + 1) st'.
Proof.
  intros H Hl Hb Hbb Hbc Hbl Hr Hj. destruct st as [[bits0 bc0] rank0]. intros (L & -> & -> & P1 & P2 & P3).
  unfold fill_byte. set (q := 8 * b + j / 8) in *.
  assert (A : exists bits1, (if j mod 8 =? 0 then seti bits0 (bc + j / 8) 0 else Ok bits0) = Ok bits1 /\ zlen bits1 = zlen bits /\
    zn 0 bits1 (bc + j / 8) = pword t q (j mod 8) /\ (forall k, 0 <= k -> k <> bc + j / 8 -> zn 0 bits1 k = zn 0 bits0 k)).
  { destruct (j mod 8 =? 0) eqn:E.
    - rewrite seti_ok by lia. eexists. split; [reflexivity|]. rewrite zlen_upd. split; [exact L|]. split.
      + rewrite zn_upd by lia. rewrite Z.eqb_refl. replace (j mod 8) with 0 by lia. reflexivity.
      + intros k Hk Hn. rewrite zn_upd by lia. destruct (k =? bc + j / 8) eqn:Ek; [lia|reflexivity].
    - exists bits0. split; [reflexivity|]. split; [exact L|]. split; [apply P2; lia|auto]. }
  destruct A as (bits1 & -> & L1 & W1 & O1). cbn [bind].
  assert (B : exists bits2, (if 64 * b + j <? zlen t then let* b0 := geti t (64 * b + j) in let* w := geti bits1 (bc + j / 8) in
      seti bits1 (bc + j / 8) (u64 (w + Z.shiftl b0 (8 * (8 - j mod 8 - 1)))) else Ok bits1) = Ok bits2 /\ zlen bits2 = zlen bits /\
    zn 0 bits2 (bc + j / 8) = pword t q (j mod 8 + 1) /\ (forall k, 0 <= k -> k <> bc + j / 8 -> zn 0 bits2 k = zn 0 bits0 k)).
  { pose proof (pword_bound t q (j mod 8 + 1) H ltac:(lia)) as PB. rewrite pword_succ in PB |- * by lia.
    assert (EP : pterm t q (j mod 8) = Z.shiftl (zn 0 t (64 * b + j)) (8 * (8 - j mod 8 - 1))).
    { unfold pterm. rewrite Z.shiftl_mul_pow2 by lia. f_equal; [f_equal; unfold q; lia|f_equal; lia]. }
    destruct (64 * b + j <? zlen t) eqn:E.
    - rewrite !geti_ok by (pose proof (zlen_nonneg t); lia). cbn [bind]. rewrite seti_ok by lia. eexists. split; [reflexivity|].
      rewrite zlen_upd. split; [exact L1|]. split.
      + rewrite zn_upd by lia. rewrite Z.eqb_refl, W1, <- EP. apply wrap_small. exact PB.
      + intros k Hk Hn. rewrite zn_upd by lia. destruct (k =? bc + j / 8) eqn:Ek; [lia|]. apply O1; lia.
    - exists bits1. split; [reflexivity|]. split; [exact L1|]. split; [|exact O1].
      rewrite W1, EP. rewrite zn_over by lia. rewrite Z.shiftl_0_l. lia. }
  destruct B as (bits2 & -> & L2 & W2 & O2). cbn [bind].
  destruct (j mod 8 =? 7) eqn:E7.
  - rewrite geti_ok by lia. cbn [bind]. eexists. split; [reflexivity|]. unfold fillP.
    replace ((j + 1) / 8) with (j / 8 + 1) by lia. replace ((j + 1) mod 8) with 0 by lia.
    split; [exact L2|]. split; [lia|]. split; [|split; [|split]].
    + rewrite W2. replace (j mod 8 + 1) with 8 by lia. rewrite pword_all. rewrite popcount_tword by (auto; unfold q; lia).
      replace (64 * q) with (512 * b + 64 * (j / 8)) by (unfold q; lia). rewrite <- Z.add_assoc.
      rewrite <- ts_split by lia. replace (512 * b + 64 * (j / 8) + 64) with (512 * b + 64 * (j / 8 + 1)) by lia.
      apply wrap_small. pose proof (ts_bound t (512 * b) (512 * b + 64 * (j / 8 + 1)) ltac:(lia)). lia.
    + intros k Hk. destruct (Z.eq_dec k (j / 8)) as [->|].
      * rewrite W2. replace (j mod 8 + 1) with 8 by lia. apply pword_all.
      * rewrite O2 by lia. apply P1. lia.
    + intros; lia.
    + intros k Hk. rewrite O2 by lia. apply P3. exact Hk.
  - eexists. split; [reflexivity|]. unfold fillP.
    replace ((j + 1) / 8) with (j / 8) by lia. replace ((j + 1) mod 8) with (j mod 8 + 1) by lia.
    split; [exact L2|]. split; [lia|]. split; [reflexivity|]. split; [|split].
    + intros k Hk. rewrite O2 by lia. apply P1. lia.
    + intros _. exact W2.
    + intros k Hk. rewrite O2 by lia. apply P3. exact Hk.
Qed.

Lemma fill_ok t b bits bc rank : text_ok t -> zlen t < 2 ^ 58 -> 0 <= b -> 512 * b < 2 ^ 62 -> 0 <= bc -> bc + 8 <= zlen bits -> 0 <= rank <= 512 * b ->
  exists bits', foldM (fill_byte t (64 * b)) (zrange 0 64) (bits, bc, rank) = Ok (bits', bc + 8, rank + ts t (512 * b) (512 * (b + 1))) /\
    zlen bits' = zlen bits /\ (forall k, 0 <= k < 8 -> zn 0 bits' (bc + k) = tword t (8 * b + k)) /\
    (forall k, 0 <= k < bc \/ bc + 8 <= k -> zn 0 bits' k = zn 0 bits k).
Proof.
  intros. destruct (foldM_inv (fill_byte t (64 * b)) (fillP t b bits bc rank) 64 0 (bits, bc, rank)) as ([[bits' bc'] rank'] & E & P).
  - unfold fillP. change (0 / 8) with 0. rewrite Z.mul_0_r, !Z.add_0_r, ts_empty. repeat split; try lia; auto.
  - intros k s Hk. apply fill_step; auto.
  - destruct P as (L & -> & -> & P1 & _ & P3). change ((0 + Z.of_nat 64) / 8) with 8 in *. exists bits'.
    replace (512 * (b + 1)) with (512 * b + 64 * 8) by lia. auto.
Qed.

(** ** The scan over all blocks *)
Definition scanP (t ranks bits : list Z) (b : Z) (st : list Z * list Z * Z * Z) : Prop :=
  let '(ranks', bits', bc, rank) := st in
  zlen ranks' = zlen ranks /\ zlen bits' = zlen bits /\ bc = 8 * ne t b /\ rank = ts t 0 (512 * b) /\
  (forall c, 0 <= c < b -> zn 0 ranks' (2 * c) = ts t 0 (512 * c) /\ zn 0 ranks' (2 * c + 1) = 8 * ne t c) /\
  (forall k, 2 * b <= k -> zn 0 ranks' k = zn 0 ranks k) /\
  (forall c k, 0 <= c < b -> homob t c = false -> 0 <= k < 8 -> zn 0 bits' (8 * ne t c + k) = tword t (8 * c + k)) /\
  (forall k, 8 * ne t b <= k -> zn 0 bits' k = zn 0 bits k).

Lemma homob_sum t b : 0 <= b -> homob t b = true -> text_ok t ->
  ts t (512 * b) (512 * (b + 1)) = if zn 0 t (64 * b) =? 255 then 512 else 0.
Proof.
  intros Hb E H. unfold homob in E. assert (E' : ts t (512 * b) (512 * (b + 1)) = 0 \/ ts t (512 * b) (512 * (b + 1)) = 512) by lia.
  destruct E' as [E'|E']; rewrite E'.
  - rewrite byte_zero; auto; [lia|]. intros j Hj. apply (ts_zero t (512 * b) (512 * (b + 1))); lia.
  - rewrite byte_full; auto; [lia|]. intros j Hj. apply (ts_full t (512 * b) (512 * (b + 1))); lia.
Qed.

Lemma scan_step t ranks bits b st : text_ok t -> zlen t < 2 ^ 58 -> 2 * nblk t + 1 <= zlen ranks -> 8 * ne t (nblk t) <= zlen bits ->
  0 <= b < nblk t -> scanP t ranks bits b st -> exists st', scan_block t (flags t) st b = Ok st' /\ scanP t ranks bits (b + 1) st'.
Proof.
  intros H Hl Hr Hbl Hb. destruct st as [[[r0 b0] bc] rank]. intros (L1 & L2 & -> & -> & P1 & P2 & P3 & P4).
  assert (NB : nblk t <= 2 ^ 53) by (unfold nblk; lia). pose proof (zlen_nonneg t) as L0.
  unfold scan_block. rewrite seti_ok by lia. cbn [bind]. rewrite seti_ok by (rewrite zlen_upd; lia). cbn [bind].
  rewrite geti_ok by (rewrite zlen_flags; lia). cbn [bind]. rewrite zn_flags by lia.
  set (r1 := upd _ _ _).
  assert (R : zlen r1 = zlen ranks /\ (forall c, 0 <= c < b + 1 -> zn 0 r1 (2 * c) = ts t 0 (512 * c) /\ zn 0 r1 (2 * c + 1) = 8 * ne t c) /\
     (forall k, 2 * (b + 1) <= k -> zn 0 r1 k = zn 0 ranks k)).
  { unfold r1. rewrite !zlen_upd. split; [exact L1|]. split.
    - intros c Hc. rewrite !zn_upd by (rewrite ?zlen_upd; lia).
      replace (2 * c =? 2 * b + 1) with false by lia. replace (2 * c + 1 =? 2 * b) with false by lia.
      destruct (Z.eq_dec c b) as [->|].
      + rewrite !Z.eqb_refl. auto.
      + replace (2 * c =? 2 * b) with false by lia. replace (2 * c + 1 =? 2 * b + 1) with false by lia. apply P1. lia.
    - intros k Hk. rewrite !zn_upd by (rewrite ?zlen_upd; lia). replace (k =? 2 * b + 1) with false by lia. replace (k =? 2 * b) with false by lia. apply P2. lia. }
  destruct R as (R1 & R2 & R3). pose proof (ne_bound t b ltac:(lia)) as NB1. pose proof (ts_bound t 0 (512 * b) ltac:(lia)) as TB.
  pose proof (ne_succ t b ltac:(lia)) as NS. pose proof (ne_mono t (b + 1) (nblk t) ltac:(lia)) as NM.
  pose proof (ts_split t 0 (512 * b) (512 * (b + 1)) ltac:(lia)) as TS.
  destruct (homob t b) eqn:Eh; cbn [b2z].
  - change (1 =? 0) with false. cbv iota.
    assert (In0 : 64 * b < zlen t) by (unfold homob in Eh; lia).
    rewrite geti_ok by lia. cbn [bind]. eexists. split; [reflexivity|]. unfold scanP. split; [exact R1|]. split; [exact L2|].
    split; [lia|]. split; [|split; [exact R2|split; [exact R3|split]]].
    + rewrite TS, (homob_sum t b) by (auto; lia). destruct (zn 0 t (64 * b) =? 255); [apply wrap_small; lia|lia].
    + intros c k Hc Hh Hk. apply P3; auto. destruct (Z.eq_dec c b) as [->|]; [congruence|lia].
    + intros k Hk. apply P4. lia.
  - change (0 =? 0) with true. cbv iota.
    destruct (fill_ok t b b0 (8 * ne t b) (ts t 0 (512 * b)) H Hl ltac:(lia) ltac:(lia) ltac:(lia) ltac:(lia) ltac:(lia)) as (b1 & -> & F1 & F2 & F3).
    cbn [bind]. eexists. split; [reflexivity|]. unfold scanP. split; [exact R1|]. split; [lia|]. split; [lia|]. split; [lia|].
    split; [exact R2|]. split; [exact R3|]. split.
    + intros c k Hc Hh Hk. destruct (Z.eq_dec c b) as [->|]; [apply F2; lia|]. pose proof (ne_lt t c b ltac:(lia) Hh). pose proof (ne_bound t c ltac:(lia)).
      rewrite F3 by lia. apply P3; auto; lia.
    + intros k Hk. rewrite F3 by lia. apply P4. lia.
Qed.

Lemma scan_ok t ranks bits : text_ok t -> zlen t < 2 ^ 58 -> 2 * nblk t + 1 <= zlen ranks -> 8 * ne t (nblk t) <= zlen bits ->
  exists ranks' bits', scan t (flags t) ranks bits = Ok (ranks', bits') /\ zlen ranks' = zlen ranks /\ zlen bits' = zlen bits /\
    (forall c, 0 <= c <= nblk t -> zn 0 ranks' (2 * c) = ts t 0 (512 * c)) /\
    (forall c, 0 <= c < nblk t -> zn 0 ranks' (2 * c + 1) = 8 * ne t c) /\
    (forall k, 2 * nblk t < k -> zn 0 ranks' k = zn 0 ranks k) /\
    (forall c k, 0 <= c < nblk t -> homob t c = false -> 0 <= k < 8 -> zn 0 bits' (8 * ne t c + k) = tword t (8 * c + k)) /\
    (forall k, 8 * ne t (nblk t) <= k -> zn 0 bits' k = zn 0 bits k).
Proof.
  intros H Hl Hr Hbl. unfold scan. rewrite block_count_ok by lia. pose proof (nblk_nonneg t) as N0.
  destruct (foldM_inv (scan_block t (flags t)) (scanP t ranks bits) (Z.to_nat (nblk t)) 0 (ranks, bits, 0, 0)) as ([[[r1 b1] bc] rank] & -> & P).
  - unfold scanP. rewrite Z.mul_0_r, ts_empty. repeat split; auto; lia.
  - intros k s Hk. apply scan_step; auto; lia.
  - rewrite Z.add_0_l, Z2Nat.id in P by lia. destruct P as (L1 & L2 & -> & -> & P1 & P2 & P3 & P4). cbn [bind]. rewrite seti_ok by lia. cbn [bind].
    eexists _, b1. split; [reflexivity|]. rewrite zlen_upd. split; [exact L1|]. split; [exact L2|]. split; [|split; [|split; [|split; [exact P3|exact P4]]]].
    + intros c Hc. rewrite zn_upd by lia. destruct (Z.eq_dec c (nblk t)) as [->|]; [rewrite Z.eqb_refl; reflexivity|].
      replace (2 * c =? 2 * nblk t) with false by lia. apply P1. lia.
    + intros c Hc. rewrite zn_upd by lia. replace (2 * c + 1 =? 2 * nblk t) with false by lia. apply P1. lia.
    + intros k Hk. rewrite zn_upd by lia. replace (k =? 2 * nblk t) with false by lia. apply P2. lia.
Qed.
