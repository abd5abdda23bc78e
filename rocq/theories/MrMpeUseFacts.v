(** Facts about MrMpeUse.  The file has the layout of a select structure's. *)
From Coq Require Import ZifyBool.
From Verif Require Import Base BaseFacts Words WordFacts Nodes Trees TreeBuild Mem MemFacts Spec SpecPerf Perf KernelFacts SpecText SpecFile SpecOrder SpecPoppy MrRank MrRankFacts MrRankFacts2 MrRankFacts3 MrRankProps MrSelect MrSelectFacts4
  MrFile MrFileFacts MrFileFacts2 MrFileFacts5 MrFileProps MrMpe SpecMpe MrMpeFacts MrMpeFacts2 MrMpeFacts3 MrMpeFacts5 MrMpeProps PerfBase OrderFacts PerfBaseFacts MrMpeUse.
Ltac Zify.zify_post_hook ::= Z.div_mod_to_equations.

Definition as_sel (r : rank_mpe) : select_basic :=
  {| sb_selects := mp_ranks r; sb_selects_len := mp_ranks_len r; sb_bits := mp_bits r; sb_bits_len := mp_bits_len r; sb_text_len := mp_text_len r |}.
Definition of_sel (s : select_basic) : rank_mpe :=
  {| mp_ranks := sb_selects s; mp_ranks_len := sb_selects_len s; mp_bits := sb_bits s; mp_bits_len := sb_bits_len s; mp_text_len := sb_text_len s |}.
Definition bytes_mem (m : memory) : memory :=
  {| m_junk_r := m_junk_r m; m_addr_r := m_addr_r m; m_junk_b := fun k => u8 (m_junk_b m k); m_addr_b := m_addr_b m; m_junk_t := m_junk_t m |}.

Lemma save_as r : save_mpe r = save_sel (as_sel r).
Proof. reflexivity. Qed.
Lemma load_as m f : load_mpe m f = (let* x := load_sel (bytes_mem m) f in match x with Loaded s rest => Ok (Loaded (of_sel s) rest) | Exits => Ok Exits end).
Proof.
  unfold load_mpe, load_sel. destruct (get64 f) as [x1 f1|]; cbn [andthen bind]; [|reflexivity]. destruct (get64 f1) as [x2 f2|]; cbn [andthen bind]; [|reflexivity].
  change (m_junk_r (bytes_mem m)) with (m_junk_r m). change (m_addr_r (bytes_mem m)) with (m_addr_r m). change (m_addr_b (bytes_mem m)) with (m_addr_b m).
  destruct (get_words (m_junk_r m) (m_addr_r m) x2 f2) as [[a f3|]| |]; cbn [andthen bind]; try reflexivity.
  destruct (get64 f3) as [x4 f4|]; cbn [andthen bind]; [|reflexivity]. change (m_junk_b (bytes_mem m)) with (fun k => u8 (m_junk_b m k)).
  destruct (get_bytes _ (m_addr_b m) x4 f4) as [[b f5|]| |]; cbn [andthen bind]; reflexivity.
Qed.
Lemma bytes_mem_ok m : addresses_ok m -> addresses_ok (bytes_mem m).
Proof. intros A. exact A. Qed.

Lemma text_ok_byteful l : byteful l -> text_ok l.
Proof.
  intros B. apply Forall_forall. intros x Hx. destruct (In_nth l x 0 Hx) as (k & Hk & E). specialize (B (Z.of_nat k) ltac:(lia)). unfold zn in B. rewrite Nat2Z.id, E in B.
  replace (Z.of_nat k <? 0) with false in B by lia. exact B.
Qed.
Lemma byteful_text_ok l : text_ok l -> byteful l.
Proof. intros H k _. apply tbyte. exact H. Qed.

Lemma mp_word_bound T jf t temp btc s k : zlen t < 2 ^ 58 -> 0 < nbig t -> tempM T t temp -> 0 <= s <= nbig t / 16 -> 0 <= k < 10 -> 0 <= mp_word T jf temp btc s k < 2 ^ 64.
Proof.
  intros Hl Hn (L & T1 & T2) Hs Hk. pose proof (zlen_nonneg t) as Z0. assert (NB : nbig t <= 2 ^ 52) by (unfold nbig; lia). unfold mp_word, lw. destruct (k =? 0).
  { rewrite T1 by lia. pose proof (ts_bound t 0 (1024 * (16 * s)) ltac:(lia)). lia. }
  destruct (k <=? 4); [apply wrap_bound; lia|]. destruct (k =? 5); [|destruct (k =? 6); apply wrap_bound; lia].
  rewrite T2 by lia. unfold po. pose proof (moff_mono T t 0 (Z.min (16 * s) (nbig t - 1)) ltac:(lia)) as M. rewrite moff_0 in M. lia.
Qed.

Lemma mpe_same T m m' jf t temp btc r s : addresses_ok m' -> zlen t < 2 ^ 58 -> 0 < nbig t -> mpeP T m jf t temp btc r -> sameS (bytes_mem m') (as_sel r) s -> text_ok (sb_bits s) ->
  mpeP T m' jf t temp btc (of_sel s).
Proof.
  intros A Hl Hn (P1 & P2 & P3 & P4 & P5 & P6 & P7 & P8 & P9 & P10) (S1 & S2 & S3 & (W1 & W2 & W3) & (V1 & V2 & V3)) TB.
  cbn [as_sel sb_selects sb_selects_len sb_bits sb_bits_len sb_text_len bytes_mem m_junk_r m_addr_r m_junk_b m_addr_b] in *. rewrite P5 in *. rewrite P6 in *. rewrite P7 in *.
  pose proof (moff_mono T t 0 (nbig t) ltac:(lia)) as M0. rewrite moff_0 in M0. replace (10 * (nbig t / 16 + 1) =? 0) with false in W1 by lia. replace (moff T t (nbig t) + 8 =? 0) with false in V1 by lia.
  split; [exact P1|]. split; [exact P2|]. cbn [of_sel mp_ranks mp_ranks_len mp_bits mp_bits_len mp_text_len]. split; [exact W1|]. split; [exact V1|]. split; [exact S2|]. split; [exact S3|]. split; [exact S1|].
  split; [apply byteful_text_ok; exact TB|]. split.
  - intros c k Hc Hk. rewrite W2 by lia. rewrite P9 by lia. apply Z.mod_small. eapply mp_word_bound; eauto.
  - intros c Hc Eh. pose proof (moff_mono T t 0 c ltac:(lia)) as M1. rewrite moff_0 in M1. pose proof (moff_mono T t (c + 1) (nbig t) ltac:(lia)) as M2. rewrite moff_succ in M2 by lia.
    assert (EL : stored T t c = blen T t c) by (unfold stored, blen; rewrite Eh; reflexivity).
    apply (blockOk_frame T t c (mp_bits r)); [lia| |apply P10; auto]. intros k Hk. apply V2. lia.
Qed.

Lemma mpe_file : forall T jf m m' t, addresses_ok m -> addresses_ok m' -> text_ok t -> zlen t < 2 ^ 58 -> t <> [] ->
  exists r f, build_mpe T false jf m t = Ok r /\ save_mpe r = Ok f /\ zlen f = 112 + 80 * (big_blocks t / 16) + stored_before T t (big_blocks t) /\
    (forall rest, text_ok rest -> exists r', load_mpe m' (f ++ rest) = Ok (Loaded r' rest) /\ mpe_text_size r' = zlen t /\
       forall i, 0 <= i <= 1024 * big_blocks t -> rank_of_mpe T false r' i = Ok (ones_before (text_bits t) i)) /\
    (forall k, 0 <= k < zlen f -> load_mpe m' (firstn (Z.to_nat k) f) = Ok Exits).
Proof.
  intros T jf m m' t A A' H Hl Ht. apply nbig_pos in Ht. destruct (build_mpe_gen T false jf m t A H Hl) as [B _].
  destruct (B Ht ltac:(auto)) as (temp & btc & r & E & P). pose proof P as (P1 & P2 & P3 & P4 & P5 & P6 & P7 & P8 & P9 & P10).
  pose proof (zlen_nonneg t) as Z0. assert (NB : nbig t <= 2 ^ 52) by (unfold nbig; lia). pose proof (moff_mono T t 0 (nbig t) ltac:(lia)) as M0. rewrite moff_0 in M0.
  pose proof A as (A1 & A2 & A3 & A4). pose proof (slack_ok _ A2). pose proof (slack_b_ok _ A4).
  destruct (sel_round (bytes_mem m') (as_sel r)) as (f & F1 & F2 & F3 & F4 & F5); cbn [as_sel sb_selects sb_selects_len sb_bits sb_bits_len sb_text_len];
    [exact A'|rewrite P7; lia|rewrite P5; lia|rewrite P5, P3; lia|rewrite P6; lia|rewrite P6, P4; lia|apply text_ok_byteful; exact P8|].
  cbn [as_sel sb_selects sb_selects_len sb_bits sb_bits_len sb_text_len] in *. exists r, f. split; [exact E|]. split; [rewrite save_as; exact F1|].
  split; [rewrite F2, P5, P6, before_ok; change (big_blocks t) with (nbig t); lia|]. split.
  - intros rest Hr. destruct (F4 rest Hr) as (s & R1 & R2). exists (of_sel s). rewrite load_as, R1. split; [reflexivity|].
    assert (TB : text_ok (sb_bits s)).
    { destruct R2 as (S1 & S2 & S3 & W & (V1 & V2 & V3)). cbn [as_sel sb_selects sb_selects_len sb_bits sb_bits_len sb_text_len bytes_mem m_junk_r m_addr_r m_junk_b m_addr_b] in *. rewrite P6 in *.
      replace (moff T t (nbig t) + 8 =? 0) with false in V1 by lia. apply text_ok_byteful. intros k Hk. destruct (Z_lt_le_dec k (moff T t (nbig t) + 8)); [rewrite V2 by lia; apply P8; exact Hk|].
      destruct (Z_lt_le_dec k (zlen (sb_bits s))); [rewrite V3 by lia; apply wrap_bound; lia|]. rewrite zn_over by lia. lia. }
    pose proof (mpe_same T m m' jf t temp btc r s A' Hl Ht P R2 TB) as P'. split; [apply P'|]. intros i Hi. change (big_blocks t) with (nbig t) in Hi.
    destruct (mpeP_Q T m' jf t temp btc (of_sel s) A' P') as [Q L]. rewrite <- ts_all by lia.
    destruct (rank_mpe_gen T false jf t temp btc (of_sel s) i H Hl Ht Q Hi) as [X1 X2]. destruct (Z.eq_dec (i / 1024) (nbig t)) as [En|En]; [apply X2; auto|]. rewrite X1 by lia. reflexivity.
  - intros k Hk. rewrite load_as. fold (cut f k). rewrite F5 by exact Hk. reflexivity.
Qed.

Lemma mpe_self_test : forall T jf m t, addresses_ok m -> text_ok t -> zlen t < 2 ^ 58 -> t <> [] ->
  exists r, build_mpe T false jf m t = Ok r /\ test_rank (rank_of_mpe T false r) t = Ok [].
Proof.
  intros T jf m t A H Hl Ht. destruct (mpe_rank T jf m t A H Hl Ht) as (r & E & R). exists r. split; [exact E|]. apply test_rank_iff; [exact Hl|]. intros i Hi. rewrite ts_all by lia. apply R.
  unfold big_blocks. lia.
Qed.

Lemma mpe_any : forall m f, addresses_ok m -> text_ok f -> let a := field f 8 in let b := field f (16 + 8 * a) in a < 2 ^ 64 - 16 -> b < 2 ^ 64 - 128 ->
  if zlen f <? 24 + 8 * a + b then load_mpe m f = Ok Exits
  else exists r, load_mpe m f = Ok (Loaded r (skipn (Z.to_nat (24 + 8 * a + b)) f)) /\ mpe_text_size r = field f 0 /\
    (forall k, 0 <= k < a -> zn 0 (mp_ranks r) k = field f (16 + 8 * k)) /\ (forall k, 0 <= k < b -> zn 0 (mp_bits r) k = zn 0 f (24 + 8 * a + k)).
Proof.
  intros m f A F a b Ha Hb. rewrite load_as. pose proof (sel_any (bytes_mem m) f A F Ha Hb) as X. fold a b in X. destruct (zlen f <? 24 + 8 * a + b).
  - rewrite X. reflexivity.
  - destruct X as (s & X1 & X2 & X3 & X4). exists (of_sel s). rewrite X1. auto.
Qed.

Lemma bench_mpe_rank : forall T jf m dbg n t op k runs measures, addresses_ok m -> 193 <= n < 2 ^ 58 ->
  let B := bench_bits 64 n t in
  bench_mpe T jf m dbg n t op k runs measures = printed dbg (ones_before (reversed 8 B)) op n (count_true B) k runs measures.
Proof.
  intros T jf m dbg n t op k runs measures A Hn. cbv zeta. apply bench_answers; [exact Hn|]. intros ws W L EB LB C. destruct (text_facts n t ws Hn L EB) as (T1 & T2 & T3 & T4 & T5 & T6 & T7).
  destruct (mpe_rank T jf m (bytes_of_words ws) A T2 T3) as (r & E & R).
  { intros E0. rewrite E0 in T6. cbn in T6. lia. }
  rewrite T1 in R. exists r. split; [exact E|]. intros q Hq _. apply query_bound in Hq; [|exact LB|lia]. apply R. unfold big_blocks, bench_len in *. rewrite zlen_text, L in *. lia.
Qed.
