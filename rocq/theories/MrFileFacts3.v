(** Facts about MrFile: the rank structures read back from a file. *)
From Verif Require Import Base BaseFacts Mem MemFacts Words WordFacts TreeBuild KernelFacts Spec SpecText SpecFile MrRank MrRankFacts MrRankFacts2 MrRankFacts3 MrRankFacts4 MrSelect MrSelectFacts4 MrFile MrFileFacts MrFileFacts2.
From Coq Require Import ZifyBool.
Ltac Zify.zify_post_hook ::= Z.div_mod_to_equations.

Lemma nblk_small t : zlen t < 2 ^ 58 -> 0 <= nblk t <= 2 ^ 52 /\ 0 <= ne t (nblk t) <= 2 ^ 52.
Proof. intros H. pose proof (zlen_nonneg t). assert (0 <= nblk t <= 2 ^ 52) by (unfold nblk; lia). pose proof (ne_bound t (nblk t) ltac:(lia)). lia. Qed.
Lemma ts_small t n : zlen t < 2 ^ 58 -> 0 <= n <= nblk t -> 0 <= ts t 0 (512 * n) < 2 ^ 64.
Proof. intros H Hn. pose proof (nblk_small t H). pose proof (ts_bound t 0 (512 * n) ltac:(lia)). lia. Qed.

(** ** RankBasic64, standard headers *)
Definition stdQ (m : memory) (t : list Z) (r : rank_basic) : Prop :=
  zlen (rb_ranks r) = 2 * nblk t + 1 + slack (m_addr_r m) /\ zlen (rb_bits r) = (if ne t (nblk t) =? 0 then 0 else 8 * ne t (nblk t) + slack (m_addr_b m)) /\
  (forall c, 0 <= c <= nblk t -> zn 0 (rb_ranks r) (2 * c) = ts t 0 (512 * c)) /\
  (forall c, 0 <= c < nblk t -> zn 0 (rb_ranks r) (2 * c + 1) = 8 * ne t c) /\
  (forall c k, 0 <= c < nblk t -> homob t c = false -> 0 <= k < 8 -> zn 0 (rb_bits r) (8 * ne t c + k) = tword t (8 * c + k)).

Lemma std_same m m' t r r' : text_ok t -> zlen t < 2 ^ 58 -> stdP m t r -> sameW m' r r' -> stdQ m' t r' /\ (1 <= ne t (nblk t) -> stdP m' t r').
Proof.
  intros H Hl (L1 & L2 & E1 & E2 & E3 & P1 & P2 & P3 & P4) (S1 & S2 & S3 & (W1 & W2 & W3) & (V1 & V2 & V3)).
  destruct (nblk_small t Hl) as [N1 N2]. rewrite E1 in *. rewrite E2 in *. rewrite E3 in *. replace (2 * nblk t + 1 =? 0) with false in W1 by lia.
  assert (Q1 : forall c, 0 <= c <= nblk t -> zn 0 (rb_ranks r') (2 * c) = ts t 0 (512 * c)).
  { intros c Hc. rewrite W2 by lia. rewrite P1 by lia. apply Z.mod_small. apply ts_small; auto. }
  assert (Q2 : forall c, 0 <= c < nblk t -> zn 0 (rb_ranks r') (2 * c + 1) = 8 * ne t c).
  { intros c Hc. rewrite W2 by lia. rewrite P2 by lia. apply Z.mod_small. pose proof (ne_bound t c ltac:(lia)). lia. }
  assert (Q4 : forall c k, 0 <= c < nblk t -> homob t c = false -> 0 <= k < 8 -> zn 0 (rb_bits r') (8 * ne t c + k) = tword t (8 * c + k)).
  { intros c k Hc Eh Hk. pose proof (ne_lt t c (nblk t) ltac:(lia) Eh). pose proof (ne_bound t c ltac:(lia)). rewrite V2 by lia. rewrite P4 by (auto; lia). apply Z.mod_small. apply tword_bound; auto. }
  split.
  - unfold stdQ. rewrite W1, V1. replace (8 * ne t (nblk t) =? 0) with (ne t (nblk t) =? 0) by lia. auto 10.
  - intros NE. unfold stdP. rewrite W1, V1. replace (8 * ne t (nblk t) =? 0) with false by lia. repeat (split; [auto; fail|]). split; [|exact Q4]. intros k Hk. apply W3; (clear - Hk N1; lia).
Qed.

Lemma rank_std_Q m t r i : addresses_ok m -> text_ok t -> zlen t < 2 ^ 58 -> stdQ m t r -> 0 <= i < 512 * nblk t -> rank_std r i = Ok (ts t 0 i).
Proof.
  intros (A1 & A2 & A3 & A4) H Hl (L1 & L2 & P1 & P2 & P4) Hi. unfold rank_std.
  pose proof (slack_ok _ A2). pose proof (slack_ok _ A4). set (b := i / 512). assert (Hb : 0 <= b < nblk t) by lia.
  rewrite geti_ok by lia. cbn [bind]. replace (2 * b + 2) with (2 * (b + 1)) by lia. rewrite geti_ok by lia. cbn [bind]. rewrite !P1 by lia.
  change (MrRankFacts2.answer (ts t 0 (512 * b)) (ts t 0 (512 * (b + 1))) (i mod 512)
    (let* p := geti (rb_ranks r) (2 * b + 1) in count_block (rb_bits r) p (i mod 512) (ts t 0 (512 * b))) = Ok (ts t 0 i)).
  rewrite answer_ok; auto; [do 2 f_equal; lia|lia|]. intros E. rewrite geti_ok by lia. cbn [bind]. rewrite P2 by lia.
  pose proof (ne_lt t b (nblk t) ltac:(lia) E). pose proof (ne_bound t b ltac:(lia)). replace (ne t (nblk t) =? 0) with false in L2 by lia.
  apply count_block_ok; auto; try lia.
Qed.

(** ** RankBasic64, compressed headers *)
Lemma super_word_bound jf t temp s k : zlen t < 2 ^ 58 -> tempP t temp -> 0 <= s <= nblk t / 64 -> 0 <= k < 19 -> 0 <= super_word jf temp (flags t) s k < 2 ^ 64.
Proof.
  intros Hl (T0 & T1 & T2 & T3) Hs Hk. destruct (nblk_small t Hl) as [N1 N2]. unfold super_word. destruct (k =? 0) eqn:E0.
  { replace (128 * s) with (2 * (64 * s)) by lia. rewrite T1 by lia. apply ts_small; auto; lia. }
  destruct (k <=? 16) eqn:E1; [apply wrap_bound; lia|]. destruct (k =? 17) eqn:E2; [|apply flag_bound; lia].
  destruct (Z_lt_le_dec (64 * s) (nblk t)) as [C|C].
  - replace (128 * s + 1) with (2 * (64 * s) + 1) by lia. rewrite T2 by lia. pose proof (ne_bound t (64 * s) ltac:(lia)). lia.
  - rewrite T3 by lia. lia.
Qed.

Definition bchQ (m : memory) (jf : Z -> Z) (t temp : list Z) (r : rank_basic) : Prop :=
  tempP t temp /\ zlen (rb_ranks r) = 19 * (nblk t / 64 + 1) + slack (m_addr_r m) /\ zlen (rb_bits r) = (if ne t (nblk t) =? 0 then 0 else 8 * ne t (nblk t) + slack (m_addr_b m)) /\
  (forall s k, 0 <= s <= nblk t / 64 -> 0 <= k < 19 -> zn 0 (rb_ranks r) (19 * s + k) = super_word jf temp (flags t) s k) /\
  (forall c k, 0 <= c < nblk t -> homob t c = false -> 0 <= k < 8 -> zn 0 (rb_bits r) (8 * ne t c + k) = tword t (8 * c + k)).

Lemma bch_same m m' jf t temp r r' : text_ok t -> zlen t < 2 ^ 58 -> bchP m jf t temp r -> sameW m' r r' -> bchQ m' jf t temp r'.
Proof.
  intros H Hl (T & L1 & L2 & E1 & E2 & E3 & P1 & P2) (S1 & S2 & S3 & (W1 & W2 & W3) & (V1 & V2 & V3)).
  destruct (nblk_small t Hl) as [N1 N2]. rewrite E1 in *. rewrite E2 in *. rewrite E3 in *. replace (19 * (nblk t / 64 + 1) =? 0) with false in W1 by lia.
  replace (8 * ne t (nblk t) =? 0) with (ne t (nblk t) =? 0) in V1 by lia.
  split; [exact T|]. split; [exact W1|]. split; [exact V1|]. split.
  - intros s k Hs Hk. rewrite W2 by lia. rewrite P1 by lia. apply Z.mod_small. apply super_word_bound; auto.
  - intros c k Hc Eh Hk. pose proof (ne_lt t c (nblk t) ltac:(lia) Eh). pose proof (ne_bound t c ltac:(lia)). rewrite V2 by lia. rewrite P2 by (auto; lia). apply Z.mod_small. apply tword_bound; auto.
Qed.

Lemma rank_bch_Q m jf t temp r i : addresses_ok m -> text_ok t -> zlen t < 2 ^ 58 -> bchQ m jf t temp r -> 0 <= i <= 512 * nblk t -> (i = 512 * nblk t -> 1 <= ne t (nblk t)) ->
  rank_bch r i = Ok (ts t 0 i).
Proof.
  intros (A1 & A2 & A3 & A4) H Hl (T & L1 & L2 & P1 & P2) Hi HE. pose proof (slack_ok _ A2) as S1. pose proof (slack_ok _ A4) as S2. destruct (nblk_small t Hl) as [N1 N2].
  apply (rank_bch_gen jf t temp); auto; try lia.
  - rewrite L2. destruct (ne t (nblk t) =? 0) eqn:E; lia.
  - intros E. specialize (HE E). rewrite L2. replace (ne t (nblk t) =? 0) with false by lia. lia.
Qed.

(** ** RankCF64 *)
Lemma cf_same m m' t r r' : text_ok t -> zlen t < 2 ^ 58 -> cfP m t r -> sameC m' r r' -> cfP m' t r'.
Proof.
  intros H Hl (E2 & L & E3 & EB & EBB & Q1 & Q2 & Q3 & Q4 & Q5) (S1 & S2 & S3 & S4 & (V1 & V2 & V3)).
  destruct (nblk_small t Hl) as [N1 N2]. rewrite E2 in *. replace (7 * ne t (nblk t) + 2 * nblk t + 1 =? 0) with false in V1 by lia.
  assert (NK : ne t (nblk t) <= nblk t) by (apply ne_bound; lia).
  split; [exact S4|]. split; [exact V1|]. split; [congruence|]. split; [congruence|]. split; [congruence|]. split; [|split; [|split; [|split]]].
  - intros c Hc. rewrite V2 by lia. rewrite Q1 by lia. apply Z.mod_small. apply ts_small; auto; lia.
  - intros c k Hc Eh Hk. rewrite V2 by lia. rewrite Q2 by (auto; lia). apply Z.mod_small. apply tword_bound; auto.
  - intros c Hc. rewrite V2 by lia. rewrite Q3 by lia. apply Z.mod_small. apply ts_small; auto; lia.
  - intros c Hc Eh. destruct (Q4 c Hc Eh) as [B P]. rewrite V2 by lia. rewrite Z.mod_small by lia. split; [exact B|]. intros k Hk. rewrite V2 by lia. rewrite P by lia. apply Z.mod_small. apply tword_bound; auto.
  - intros k Hk. apply V3; lia.
Qed.

(** ** Round trips *)
Lemma std_round m m' t r : addresses_ok m -> addresses_ok m' -> text_ok t -> zlen t < 2 ^ 58 -> stdP m t r ->
  exists f, save_basic r = Ok f /\ zlen f = 32 + 16 * nblk t + 64 * ne t (nblk t) /\ text_ok f /\
    (forall rest, text_ok rest -> exists r', load_basic m' (f ++ rest) = Ok (Loaded r' rest) /\ rb_text_len r' = zlen t /\ stdQ m' t r' /\ (1 <= ne t (nblk t) -> stdP m' t r')) /\
    (forall k, 0 <= k < zlen f -> load_basic m' (cut f k) = Ok Exits).
Proof.
  intros (A1 & A2 & A3 & A4) A' H Hl SP. pose proof SP as (L1 & L2 & E1 & E2 & E3 & _). pose proof (slack_ok _ A2). pose proof (slack_ok _ A4).
  destruct (nblk_small t Hl) as [N1 N2]. pose proof (zlen_nonneg t).
  destruct (basic_round m' r A' ltac:(lia) ltac:(lia) ltac:(lia) ltac:(lia) ltac:(lia)) as (f & F1 & F2 & F3 & F4 & F5).
  exists f. split; [exact F1|]. split; [lia|]. split; [exact F3|]. split; [|exact F5]. intros rest Hr. destruct (F4 rest Hr) as (r' & R1 & R2). exists r'. split; [exact R1|].
  split; [destruct R2 as (R2 & _); congruence|]. apply (std_same m m' t r r'); auto.
Qed.

Lemma bch_round m m' jf t temp r : addresses_ok m -> addresses_ok m' -> text_ok t -> zlen t < 2 ^ 58 -> bchP m jf t temp r ->
  exists f, save_basic r = Ok f /\ zlen f = 24 + 152 * (nblk t / 64 + 1) + 64 * ne t (nblk t) /\ text_ok f /\
    (forall rest, text_ok rest -> exists r', load_basic m' (f ++ rest) = Ok (Loaded r' rest) /\ rb_text_len r' = zlen t /\ bchQ m' jf t temp r') /\
    (forall k, 0 <= k < zlen f -> load_basic m' (cut f k) = Ok Exits).
Proof.
  intros (A1 & A2 & A3 & A4) A' H Hl SP. pose proof SP as (T & L1 & L2 & E1 & E2 & E3 & _). pose proof (slack_ok _ A2). pose proof (slack_ok _ A4).
  destruct (nblk_small t Hl) as [N1 N2]. pose proof (zlen_nonneg t).
  destruct (basic_round m' r A' ltac:(lia) ltac:(lia) ltac:(lia) ltac:(lia) ltac:(lia)) as (f & F1 & F2 & F3 & F4 & F5).
  exists f. split; [exact F1|]. split; [lia|]. split; [exact F3|]. split; [|exact F5]. intros rest Hr. destruct (F4 rest Hr) as (r' & R1 & R2). exists r'. split; [exact R1|].
  split; [destruct R2 as (R2 & _); congruence|]. apply (bch_same m m' jf t temp r r'); auto.
Qed.

Lemma cf_round_trip m m' t r : addresses_ok m -> addresses_ok m' -> text_ok t -> zlen t < 2 ^ 58 -> cfP m t r ->
  exists f, save_cf r = Ok f /\ zlen f = 40 + 56 * ne t (nblk t) + 16 * nblk t /\ text_ok f /\
    (forall rest, text_ok rest -> exists r', load_cf m' (f ++ rest) = Ok (Loaded r' rest) /\ cf_text_len r' = zlen t /\ cfP m' t r') /\
    (forall k, 0 <= k < zlen f -> load_cf m' (cut f k) = Ok Exits).
Proof.
  intros (A1 & A2 & A3 & A4) A' H Hl SP. pose proof SP as (E2 & L & E3 & EB & EBB & _). pose proof (slack_ok _ A2). pose proof (slack_ok _ A4).
  destruct (nblk_small t Hl) as [N1 N2]. pose proof (zlen_nonneg t).
  destruct (cf_round m' r A' ltac:(lia) ltac:(lia) ltac:(lia) ltac:(lia) ltac:(lia)) as (f & F1 & F2 & F3 & F4 & F5).
  exists f. split; [exact F1|]. split; [lia|]. split; [exact F3|]. split; [|exact F5]. intros rest Hr. destruct (F4 rest Hr) as (r' & R1 & R2). exists r'. split; [exact R1|].
  split; [destruct R2 as (R2 & _); congruence|]. apply (cf_same m m' t r r'); auto.
Qed.
