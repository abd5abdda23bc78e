(** RankBasic32 and RankCF32 read back from a file, and their self test. *)
From Coq Require Import ZifyBool.
From Verif Require Import Base BaseFacts Mem MemFacts Words WordFacts TreeBuild KernelFacts Spec SpecText SpecFile SpecFile32 MrRank MrRankFacts MrRankFacts2 MrSelect MrSelectFacts4 MrFile MrFileFacts MrFileFacts2 MrFileFacts5 MrSelectFacts MrRank32 MrRank32Facts MrRank32Facts2 MrRank32Facts3 MrRank32Facts4 MrFile32Facts.
Ltac Zify.zify_post_hook ::= Z.div_mod_to_equations.

Lemma mod32 x : u32 x mod 2 ^ 32 = u32 x.
Proof. apply Z.mod_small. apply wrap_bound. lia. Qed.
Lemma nblk_kept32 t : zlen t <= 2 ^ 32 - 64 -> 0 <= nblk t <= 2 ^ 26 - 1 /\ 0 <= ne t (nblk t) <= nblk t.
Proof. intros H. pose proof (nblk32 t H). split; [lia|]. apply ne_bound. lia. Qed.

(** ** RankBasic32, standard headers *)
Definition stdQ32 (m : memory) (t : list Z) (r : rank_basic) : Prop :=
  zlen (rb_ranks r) = 2 * nblk t + 1 + slack32 (m_addr_r m) /\ zlen (rb_bits r) = (if ne t (nblk t) =? 0 then 0 else 8 * ne t (nblk t) + slack (m_addr_b m)) /\
  (forall c, 0 <= c <= nblk t -> zn 0 (rb_ranks r) (2 * c) = u32 (ts t 0 (512 * c))) /\
  (forall c, 0 <= c < nblk t -> zn 0 (rb_ranks r) (2 * c + 1) = 8 * ne t c) /\
  (forall c k, 0 <= c < nblk t -> homob t c = false -> 0 <= k < 8 -> zn 0 (rb_bits r) (8 * ne t c + k) = tword t (8 * c + k)).

Lemma std_same32 m m' t r r' : text_ok t -> zlen t <= 2 ^ 32 - 64 -> stdP32 m t r -> sameW32 m' r r' -> stdQ32 m' t r'.
Proof.
  intros H Hl (L1 & L2 & E1 & E2 & E3 & P1 & P2 & P3 & P4) (S1 & S2 & S3 & (W1 & W2 & W3) & (V1 & V2 & V3)).
  destruct (nblk_kept32 t Hl) as [N1 N2]. rewrite E1 in *. rewrite E2 in *. rewrite E3 in *. replace (2 * nblk t + 1 =? 0) with false in W1 by lia.
  unfold stdQ32. rewrite W1, V1. replace (8 * ne t (nblk t) =? 0) with (ne t (nblk t) =? 0) by lia. split; [reflexivity|]. split; [reflexivity|]. split; [|split].
  - intros c Hc. rewrite W2 by lia. rewrite P1 by lia. apply mod32.
  - intros c Hc. rewrite W2 by lia. rewrite P2 by lia. apply Z.mod_small. pose proof (ne_bound t c ltac:(lia)). lia.
  - intros c k Hc Eh Hk. pose proof (ne_lt t c (nblk t) ltac:(lia) Eh). pose proof (ne_bound t c ltac:(lia)). rewrite V2 by lia. rewrite P4 by (auto; lia). apply Z.mod_small. apply tword_bound; auto.
Qed.

Lemma rank_std32_Q m t r i : addresses_ok m -> text_ok t -> zlen t <= 2 ^ 32 - 64 -> stdQ32 m t r -> 0 <= i < 512 * nblk t -> i < 2 ^ 32 -> rank_std32 r i = Ok (ts t 0 i).
Proof.
  intros (A1 & A2 & A3 & A4) H Hl (L1 & L2 & P1 & P2 & P4) Hi Hi2. unfold rank_std32.
  pose proof (slack32_ok _ A2). pose proof (slack_ok _ A4). set (b := i / 512). assert (Hb : 0 <= b < nblk t) by lia.
  rewrite geti_ok by lia. cbn [bind]. replace (2 * b + 2) with (2 * (b + 1)) by lia. rewrite geti_ok by lia. cbn [bind]. rewrite !P1 by lia. rewrite (ts_small t (512 * b)) by lia.
  change (answer32 (ts t 0 (512 * b)) (u32 (ts t 0 (512 * (b + 1)))) (i mod 512)
    (let* p := geti (rb_ranks r) (2 * b + 1) in count_block32 (rb_bits r) p (i mod 512) (ts t 0 (512 * b))) = Ok (ts t 0 i)).
  rewrite answer32_ok; auto; [do 2 f_equal; lia|lia|lia|lia|]. intros E. rewrite geti_ok by lia. cbn [bind]. rewrite P2 by lia.
  pose proof (ne_lt t b (nblk t) ltac:(lia) E). pose proof (ne_bound t b ltac:(lia)). replace (ne t (nblk t) =? 0) with false in L2 by lia.
  apply count_block32_ok; auto; try lia.
Qed.

(** ** RankBasic32, compressed headers *)
Lemma super_bound32 jf t temp s k : zlen t <= 2 ^ 32 - 64 -> tempP32 t temp -> 0 <= s <= nblk t / 32 -> 0 <= k < 19 -> 0 <= super_word32 jf temp (flags t) s k < 2 ^ 32.
Proof.
  intros Hl (T0 & T1 & T2 & T3) Hs Hk. destruct (nblk_kept32 t Hl) as [N1 N2]. unfold super_word32. destruct (k =? 0) eqn:E0.
  { replace (64 * s) with (2 * (32 * s)) by lia. rewrite T1 by lia. apply wrap_bound. lia. }
  destruct (k <=? 16) eqn:E1; [apply wrap_bound; lia|]. destruct (k =? 17) eqn:E2; [|apply flag_bound32; lia].
  destruct (Z_lt_le_dec (32 * s) (nblk t)) as [C|C].
  - replace (64 * s + 1) with (2 * (32 * s) + 1) by lia. rewrite T2 by lia. pose proof (ne_bound t (32 * s) ltac:(lia)). lia.
  - rewrite T3 by lia. lia.
Qed.

Definition bchQ32 (m : memory) (jf : Z -> Z) (t temp : list Z) (r : rank_basic) : Prop :=
  tempP32 t temp /\ zlen (rb_ranks r) = 19 * (nblk t / 32 + 1) + slack32 (m_addr_r m) /\ zlen (rb_bits r) = (if ne t (nblk t) =? 0 then 0 else 8 * ne t (nblk t) + slack (m_addr_b m)) /\
  (forall s k, 0 <= s <= nblk t / 32 -> 0 <= k < 19 -> zn 0 (rb_ranks r) (19 * s + k) = super_word32 jf temp (flags t) s k) /\
  (forall c k, 0 <= c < nblk t -> homob t c = false -> 0 <= k < 8 -> zn 0 (rb_bits r) (8 * ne t c + k) = tword t (8 * c + k)).

Lemma bch_same32 m m' jf t temp r r' : text_ok t -> zlen t <= 2 ^ 32 - 64 -> bchP32 m jf t temp r -> sameW32 m' r r' -> bchQ32 m' jf t temp r'.
Proof.
  intros H Hl (T & L1 & L2 & E1 & E2 & E3 & P1 & P2) (S1 & S2 & S3 & (W1 & W2 & W3) & (V1 & V2 & V3)).
  destruct (nblk_kept32 t Hl) as [N1 N2]. rewrite E1 in *. rewrite E2 in *. rewrite E3 in *. replace (19 * (nblk t / 32 + 1) =? 0) with false in W1 by lia.
  replace (8 * ne t (nblk t) =? 0) with (ne t (nblk t) =? 0) in V1 by lia.
  split; [exact T|]. split; [exact W1|]. split; [exact V1|]. split.
  - intros s k Hs Hk. rewrite W2 by lia. rewrite P1 by lia. apply Z.mod_small. apply super_bound32; auto.
  - intros c k Hc Eh Hk. pose proof (ne_lt t c (nblk t) ltac:(lia) Eh). pose proof (ne_bound t c ltac:(lia)). rewrite V2 by lia. rewrite P2 by (auto; lia). apply Z.mod_small. apply tword_bound; auto.
Qed.
Lemma rank_bch32_Q m jf t temp r i : addresses_ok m -> text_ok t -> zlen t <= 2 ^ 32 - 64 -> bchQ32 m jf t temp r -> 0 <= i <= 512 * nblk t -> i < 2 ^ 32 -> (i = 512 * nblk t -> 1 <= ne t (nblk t)) ->
  rank_bch32 r i = Ok (ts t 0 i).
Proof.
  intros (A1 & A2 & A3 & A4) H Hl (T & L1 & L2 & P1 & P2) Hi Hi2 HE. pose proof (slack32_ok _ A2) as S1. pose proof (slack_ok _ A4) as S2. destruct (nblk_kept32 t Hl) as [N1 N2].
  apply (rank_bch32_gen jf t temp); auto; try lia.
  - rewrite L2. destruct (ne t (nblk t) =? 0) eqn:E; lia.
  - intros E. specialize (HE E). rewrite L2. replace (ne t (nblk t) =? 0) with false by lia. lia.
Qed.

(** ** RankCF32 *)
Lemma cf_same32 m m' t r r' : text_ok t -> zlen t <= 2 ^ 32 - 64 -> cfP32 m t r -> sameC32 m' r r' -> cfP32 m' t r'.
Proof.
  intros H Hl (E2 & L & E3 & EB & EBB & Q1 & Q2 & Q3 & Q4 & Q5) (S1 & S2 & S3 & S4 & (V1 & V2 & V3)).
  destruct (nblk_kept32 t Hl) as [N1 N2]. rewrite E2 in *. replace (15 * ne t (nblk t) + 2 * nblk t + 1 =? 0) with false in V1 by lia.
  assert (GB : forall q, gword 4 t q mod 2 ^ 32 = gword 4 t q).
  { intros q. apply Z.mod_small. pose proof (gword_bound 4 t q (or_intror eq_refl) H) as G. change (8 * 4) with 32 in G. exact G. }
  split; [exact S4|]. split; [exact V1|]. split; [congruence|]. split; [congruence|]. split; [congruence|]. split; [|split; [|split; [|split]]].
  - intros c Hc. rewrite V2 by lia. rewrite Q1 by lia. apply mod32.
  - intros c k Hc Eh Hk. rewrite V2 by lia. rewrite Q2 by (auto; lia). apply GB.
  - intros c Hc. rewrite V2 by lia. rewrite Q3 by lia. apply mod32.
  - intros c Hc Eh. destruct (Q4 c Hc Eh) as (sl & B & B2 & B3 & P). exists sl. rewrite V2 by lia. rewrite B. split; [apply Z.mod_small; lia|]. split; [exact B2|]. split; [exact B3|].
    intros k Hk. rewrite V2 by lia. rewrite P by lia. apply GB.
  - intros k Hk. apply V3; lia.
Qed.

(** ** Round trips *)
Lemma std_round32 m m' t r : addresses_ok m -> addresses_ok m' -> text_ok t -> zlen t <= 2 ^ 32 - 64 -> stdP32 m t r ->
  exists f, save_basic32 r = Ok f /\ zlen f = 16 + 8 * nblk t + 64 * ne t (nblk t) /\ text_ok f /\
    (forall rest, text_ok rest -> exists r', load_basic32 m' (f ++ rest) = Ok (Loaded r' rest) /\ rb_text_len r' = zlen t /\ stdQ32 m' t r') /\
    (forall k, 0 <= k < zlen f -> load_basic32 m' (cut f k) = Ok Exits).
Proof.
  intros (A1 & A2 & A3 & A4) A' H Hl SP. pose proof SP as (L1 & L2 & E1 & E2 & E3 & _). pose proof (slack32_ok _ A2). pose proof (slack_ok _ A4).
  destruct (nblk_kept32 t Hl) as [N1 N2]. pose proof (zlen_nonneg t).
  destruct (basic_round32 m' r A' ltac:(lia) ltac:(lia) ltac:(lia) ltac:(lia) ltac:(lia)) as (f & F1 & F2 & F3 & F4 & F5).
  exists f. split; [exact F1|]. split; [lia|]. split; [exact F3|]. split; [|exact F5]. intros rest Hr. destruct (F4 rest Hr) as (r' & R1 & R2). exists r'. split; [exact R1|].
  split; [destruct R2 as (R2 & _); congruence|]. apply (std_same32 m m' t r r'); auto.
Qed.
Lemma bch_round32 m m' jf t temp r : addresses_ok m -> addresses_ok m' -> text_ok t -> zlen t <= 2 ^ 32 - 64 -> bchP32 m jf t temp r ->
  exists f, save_basic32 r = Ok f /\ zlen f = 88 + 76 * (nblk t / 32) + 64 * ne t (nblk t) /\ text_ok f /\
    (forall rest, text_ok rest -> exists r', load_basic32 m' (f ++ rest) = Ok (Loaded r' rest) /\ rb_text_len r' = zlen t /\ bchQ32 m' jf t temp r') /\
    (forall k, 0 <= k < zlen f -> load_basic32 m' (cut f k) = Ok Exits).
Proof.
  intros (A1 & A2 & A3 & A4) A' H Hl SP. pose proof SP as (T & L1 & L2 & E1 & E2 & E3 & _). pose proof (slack32_ok _ A2). pose proof (slack_ok _ A4).
  destruct (nblk_kept32 t Hl) as [N1 N2]. pose proof (zlen_nonneg t).
  destruct (basic_round32 m' r A' ltac:(lia) ltac:(lia) ltac:(lia) ltac:(lia) ltac:(lia)) as (f & F1 & F2 & F3 & F4 & F5).
  exists f. split; [exact F1|]. split; [lia|]. split; [exact F3|]. split; [|exact F5]. intros rest Hr. destruct (F4 rest Hr) as (r' & R1 & R2). exists r'. split; [exact R1|].
  split; [destruct R2 as (R2 & _); congruence|]. apply (bch_same32 m m' jf t temp r r'); auto.
Qed.
Lemma cf_round_trip32 m m' t r : addresses_ok m -> addresses_ok m' -> text_ok t -> zlen t <= 2 ^ 32 - 64 -> cfP32 m t r ->
  exists f, save_cf32 r = Ok f /\ zlen f = 20 + 60 * ne t (nblk t) + 8 * nblk t /\ text_ok f /\
    (forall rest, text_ok rest -> exists r', load_cf32 m' (f ++ rest) = Ok (Loaded r' rest) /\ cf_text_len r' = zlen t /\ cfP32 m' t r') /\
    (forall k, 0 <= k < zlen f -> load_cf32 m' (cut f k) = Ok Exits).
Proof.
  intros (A1 & A2 & A3 & A4) A' H Hl SP. pose proof SP as (E2 & L & E3 & EB & EBB & _). pose proof (slack32_ok _ A2). pose proof (slack32_ok _ A4).
  destruct (nblk_kept32 t Hl) as [N1 N2]. pose proof (zlen_nonneg t).
  destruct (cf_round32 m' r A' ltac:(lia) ltac:(lia) ltac:(lia) ltac:(lia) ltac:(lia)) as (f & F1 & F2 & F3 & F4 & F5).
  exists f. split; [exact F1|]. split; [lia|]. split; [exact F3|]. split; [|exact F5]. intros rest Hr. destruct (F4 rest Hr) as (r' & R1 & R2). exists r'. split; [exact R1|].
  split; [destruct R2 as (R2 & _); congruence|]. apply (cf_same32 m m' t r r'); auto.
Qed.

(** ** testRank *)
Definition rank_row32 (rank : Z -> res Z) (t : list Z) := fun '(n, out) q =>
      let* b := text_bit t q in
      let n := if b then u32 (n + 1) else n in
      let* r := rank (u32 (q + 1)) in
      Ok (n, if n =? r then out else out ++ [(u32 (q + 1), n, r)]).
Lemma rank_row_out32 rank t l : forall n out n' out', foldM (rank_row32 rank t) l (n, out) = Ok (n', out') -> out <> [] -> out' <> [].
Proof.
  induction l as [|q l IH]; intros n out n' out' E H; cbn [foldM] in E; [injection E as <- <-; exact H|].
  unfold rank_row32 at 1 in E. destruct (text_bit t q) as [b| |]; cbn [bind] in E; try discriminate. destruct (rank (u32 (q + 1))) as [r| |]; cbn [bind] in E; try discriminate.
  eapply IH; [exact E|]. destruct (_ =? r); [exact H|]. destruct out; discriminate.
Qed.
Lemma ts_next32 t q : 0 <= q -> (if tb t q =? 1 then u32 (u32 (ts t 0 q) + 1) else u32 (ts t 0 q)) = u32 (ts t 0 (q + 1)).
Proof.
  intros Hq. rewrite ts_succ by lia. destruct (tb_cases t q) as [E|E]; rewrite E; cbn [Z.eqb Pos.eqb]; [rewrite Z.add_0_r; reflexivity|]. apply wrap32_add_l.
Qed.
Lemma rank_rows32 rank t : forall n q, 0 <= q -> q + Z.of_nat n <= 8 * zlen t ->
  (forall i, q < i <= q + Z.of_nat n -> rank (u32 i) = Ok (u32 (ts t 0 i))) <-> exists n', foldM (rank_row32 rank t) (zrange q n) (u32 (ts t 0 q), []) = Ok (n', []).
Proof.
  induction n as [|n IH]; intros q Hq Hn.
  - cbn [zrange foldM]. split; [intros _; eexists; reflexivity|]. intros _ i Hi. lia.
  - cbn [zrange foldM]. unfold rank_row32 at 1. rewrite text_bit_ok by lia. cbn [bind]. rewrite ts_next32 by lia. specialize (IH (q + 1) ltac:(lia) ltac:(lia)).
    replace (q + Z.of_nat (S n)) with (q + 1 + Z.of_nat n) in * by lia. split.
    + intros A. rewrite (A (q + 1)) by lia. cbn [bind]. rewrite Z.eqb_refl. apply IH. intros i Hi. apply A. lia.
    + intros [n' E]. destruct (rank (u32 (q + 1))) as [r| |] eqn:ER; cbn [bind] in E; try discriminate. destruct (u32 (ts t 0 (q + 1)) =? r) eqn:EQ.
      * intros i Hi. destruct (Z.eq_dec i (q + 1)) as [->|NE]; [rewrite ER; f_equal; lia|]. apply IH; [eexists; exact E|]. lia.
      * exfalso. apply rank_row_out32 in E; [apply E; reflexivity|discriminate].
Qed.
Lemma test_rank32_iff rank t : test_rank32 rank t = Ok [] <-> forall i, 1 <= i <= 8 * zlen t -> rank (u32 i) = Ok (u32 (ts t 0 i)).
Proof.
  pose proof (zlen_nonneg t). pose proof (rank_rows32 rank t (Z.to_nat (8 * zlen t)) 0 ltac:(lia) ltac:(lia)) as R. rewrite Z2Nat.id in R by lia. rewrite Z.add_0_l in R.
  rewrite ts_empty in R. change (u32 0) with 0 in R. unfold test_rank32. fold (rank_row32 rank t). split.
  - intros E i Hi. apply R; [|lia]. destruct (foldM (rank_row32 rank t) (zrange 0 (Z.to_nat (8 * zlen t))) (0, [])) as [[n out]| |] eqn:E2; cbn [bind] in E; try discriminate. injection E as ->.
    exists n. reflexivity.
  - intros A. destruct (proj1 R ltac:(intros i Hi; apply A; lia)) as [n' E]. rewrite E. reflexivity.
Qed.
