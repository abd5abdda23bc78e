(** Files of RankBasic32 and RankCF32 and their self test: the statements of Properties25. *)
From Coq Require Import ZifyBool.
From Verif Require Import Base BaseFacts Mem MemFacts Words WordFacts NodeFacts Trees TreeBuild Spec BitmapFacts ProgramFacts KernelFacts SpecText SpecText32 SpecFile SpecFile32 MrRank MrRankFacts MrRankFacts2 MrRankFacts4 MrRankProps MrSelect MrSelectFacts MrSelectFacts4 MrFile MrFileFacts MrFileFacts2 MrRank32 MrRank32Facts MrRank32Facts2 MrRank32Facts3 MrRank32Facts4 MrRank32Props MrFile32Facts MrFile32Facts2.
Ltac Zify.zify_post_hook ::= Z.div_mod_to_equations.

Lemma std_file32 m m' t : addresses_ok m -> addresses_ok m' -> text_ok t -> zlen t <= 2 ^ 32 - 64 ->
  exists r f, build_std32 m t = Ok r /\ save_basic32 r = Ok f /\ zlen f = 16 + 8 * text_blocks t + 64 * kept_blocks t /\
    (forall rest, text_ok rest -> exists r', load_basic32 m' (f ++ rest) = Ok (Loaded r' rest) /\ basic_text_size32 r' = zlen t /\
       forall i, 0 <= i < 512 * text_blocks t -> i < 2 ^ 32 -> rank_std32 r' i = Ok (ones_before (text_bits t) i)) /\
    (forall k, 0 <= k < zlen f -> load_basic32 m' (firstn (Z.to_nat k) f) = Ok Exits).
Proof.
  intros A A' H Hl. destruct (build_std32_ok m t A H Hl) as (r & E & SP). destruct (std_round32 m m' t r A A' H Hl SP) as (f & F1 & F2 & F3 & F4 & F5).
  exists r, f. split; [exact E|]. split; [exact F1|]. rewrite kept_ne. change (text_blocks t) with (nblk t). split; [exact F2|]. split; [|exact F5].
  intros rest Hr. destruct (F4 rest Hr) as (r' & R1 & R2 & R3). exists r'. split; [exact R1|]. pose proof (zlen_nonneg t). split; [unfold basic_text_size32; rewrite R2; apply wrap_small; lia|].
  intros i Hi Hi2. rewrite <- ts_all by lia. eapply rank_std32_Q; eauto.
Qed.
Lemma bch_file32 jf m m' t : addresses_ok m -> addresses_ok m' -> text_ok t -> zlen t <= 2 ^ 32 - 64 ->
  exists r f, build_bch32 false jf m t = Ok r /\ save_basic32 r = Ok f /\ zlen f = 88 + 76 * (text_blocks t / 32) + 64 * kept_blocks t /\
    (forall rest, text_ok rest -> exists r', load_basic32 m' (f ++ rest) = Ok (Loaded r' rest) /\ basic_text_size32 r' = zlen t /\
       forall i, 0 <= i < 512 * text_blocks t \/ (1 <= kept_blocks t /\ i = 512 * text_blocks t) -> i < 2 ^ 32 -> rank_bch32 r' i = Ok (ones_before (text_bits t) i)) /\
    (forall k, 0 <= k < zlen f -> load_basic32 m' (firstn (Z.to_nat k) f) = Ok Exits).
Proof.
  intros A A' H Hl. destruct (build_bch_gen32 false jf m t A H Hl) as [B _]. destruct (B (or_introl eq_refl)) as (temp & r & E & SP). destruct (bch_round32 m m' jf t temp r A A' H Hl SP) as (f & F1 & F2 & F3 & F4 & F5).
  exists r, f. split; [exact E|]. split; [exact F1|]. rewrite kept_ne. change (text_blocks t) with (nblk t). split; [exact F2|]. split; [|exact F5].
  intros rest Hr. destruct (F4 rest Hr) as (r' & R1 & R2 & R3). exists r'. split; [exact R1|]. pose proof (zlen_nonneg t). split; [unfold basic_text_size32; rewrite R2; apply wrap_small; lia|].
  intros i Hi Hi2. pose proof (nblk_nonneg t). rewrite <- ts_all by lia. eapply rank_bch32_Q; eauto; lia.
Qed.

(** The answers of any structure built or read back. *)
Lemma cf_answers32 m t r : addresses_ok m -> text_ok t -> zlen t <= 2 ^ 32 - 64 -> cfP32 m t r -> forall al i, 0 <= i < 512 * text_blocks t -> i < 2 ^ 32 ->
    rank_of_cf32 al r i = if al && has_both t (i / 512) && Z.even (cf_place t (i / 512)) then Ub UB_align else Ok (ones_before (text_bits t) i).
Proof.
  intros A H Hl P al i Hi Hi2. change (text_blocks t) with (nblk t) in *. rewrite <- ts_all by lia. destruct (rank_cf32_in al m t r i A H Hl P Hi Hi2) as (sl & S1 & S2 & ->). rewrite <- mixed_block by lia.
  pose proof (nblk_nonneg t). pose proof (ne_bound t (nblk t) ltac:(lia)).
  unfold cf_place. rewrite kept_ne. destruct (i / 512 <? ne t (nblk t)) eqn:EB; [rewrite S2; reflexivity|].
  destruct (mixed t (i / 512)) eqn:EM; [|rewrite andb_false_r; reflexivity]. destruct (S2 eq_refl) as ((I1 & I2) & I3).
  rewrite !kept_before_ne by lia. rewrite <- I2. rewrite place_of_slot by (auto; lia). reflexivity.
Qed.
Lemma cf_file32 m m' t : addresses_ok m -> addresses_ok m' -> text_ok t -> zlen t <= 2 ^ 32 - 64 -> ~ (1 <= text_blocks t /\ forall b, 0 <= b < text_blocks t -> uniform_block t b) ->
  exists r f, build_cf32 m t = Ok r /\ save_cf32 r = Ok f /\ zlen f = 20 + 60 * kept_blocks t + 8 * text_blocks t /\
    (forall rest, text_ok rest -> exists r', load_cf32 m' (f ++ rest) = Ok (Loaded r' rest) /\ cf_text_size32 r' = zlen t /\
       forall al i, 0 <= i < 512 * text_blocks t -> i < 2 ^ 32 ->
         rank_of_cf32 al r' i = if al && has_both t (i / 512) && Z.even (cf_place t (i / 512)) then Ub UB_align else Ok (ones_before (text_bits t) i)) /\
    (forall k, 0 <= k < zlen f -> load_cf32 m' (firstn (Z.to_nat k) f) = Ok Exits).
Proof.
  intros A A' H Hl N. rewrite <- kept_zero, kept_ne in N. rewrite kept_ne. change (text_blocks t) with (nblk t) in *. destruct (build_cf_gen32 m t A H Hl) as [B _].
  pose proof (nblk_nonneg t). pose proof (ne_bound t (nblk t) ltac:(lia)). destruct (B ltac:(lia)) as (r & E & SP). destruct (cf_round_trip32 m m' t r A A' H Hl SP) as (f & F1 & F2 & F3 & F4 & F5).
  exists r, f. split; [exact E|]. split; [exact F1|]. split; [exact F2|]. split; [|exact F5].
  intros rest Hr. destruct (F4 rest Hr) as (r' & R1 & R2 & R3). exists r'. split; [exact R1|]. pose proof (zlen_nonneg t). split; [unfold cf_text_size32; rewrite R2; apply wrap_small; lia|].
  exact (cf_answers32 m' t r' A' H Hl R3).
Qed.

(** ** Any file *)
Lemma basic_any32 m f : addresses_ok m -> text_ok f -> let a := int_field f 4 in let b := int_field f (8 + 4 * a) in a < 2 ^ 32 - 32 -> b < 2 ^ 32 - 16 ->
  if zlen f <? 12 + 4 * a + 8 * b then load_basic32 m f = Ok Exits
  else exists r, load_basic32 m f = Ok (Loaded r (skipn (Z.to_nat (12 + 4 * a + 8 * b)) f)) /\ basic_text_size32 r = int_field f 0 /\
    (forall k, 0 <= k < a -> zn 0 (rb_ranks r) k = int_field f (8 + 4 * k)) /\ (forall k, 0 <= k < b -> zn 0 (rb_bits r) k = field f (12 + 4 * a + 8 * k)).
Proof.
  intros A F a b Ha Hb. pose proof (load_basic32_any m f A F Ha Hb) as X. fold a in X. fold b in X. destruct (zlen f <? 12 + 4 * a + 8 * b); [exact X|].
  destruct X as (r & X1 & X2). exists r. split; [exact X1|]. unfold basicL32 in X2. fold a in X2. fold b in X2. destruct X2 as (Y1 & Y2 & Y3 & (Y4 & Y5 & _) & (Y6 & Y7 & _)).
  split; [unfold basic_text_size32; rewrite Y1; apply wrap_small; apply int_bound; exact F|]. split; [exact Y5|exact Y7].
Qed.
Lemma cf_any32 m f : addresses_ok m -> text_ok f -> let b := int_field f 12 in b < 2 ^ 32 - 32 ->
  if zlen f <? 16 + 4 * b then load_cf32 m f = Ok Exits
  else exists r, load_cf32 m f = Ok (Loaded r (skipn (Z.to_nat (16 + 4 * b)) f)) /\ cf_text_size32 r = int_field f 0 /\ cf_border r = int_field f 4 /\ cf_block_border r = int_field f 8 /\
    (forall k, 0 <= k < b -> zn 0 (cf_bits r) k = int_field f (16 + 4 * k)).
Proof.
  intros A F b Hb. pose proof (load_cf32_any m f A F Hb) as X. fold b in X. destruct (zlen f <? 16 + 4 * b); [exact X|].
  destruct X as (r & X1 & X2). exists r. split; [exact X1|]. unfold cfL32 in X2. fold b in X2. destruct X2 as (Y1 & Y2 & Y3 & Y4 & (Y5 & Y6 & _)).
  split; [unfold cf_text_size32; rewrite Y1; apply wrap_small; apply int_bound; exact F|]. auto.
Qed.
Lemma ints_over junk addr len f : 2 ^ 32 - 32 <= len < 2 ^ 32 -> 124 < zlen f -> get_ints junk addr len f = Ub UB_bounds.
Proof.
  intros Hl Hf. unfold get_ints. replace (len >? 0) with true by lia. replace (u32 (len + 32)) with (len + 32 - 2 ^ 32) by (unfold wrap; rewrite <- (Z.mod_unique (len + 32) (2 ^ 32) 1 (len + 32 - 2 ^ 32)); lia).
  pose proof (Z.mod_pos_bound (- addr) 128 ltac:(lia)). replace (Z.min (4 * len) (zlen f) >? Z.max 0 (4 * (len + 32 - 2 ^ 32 - (- addr) mod 128 / 4))) with true by lia. reflexivity.
Qed.
Lemma words_over32 junk addr len f : 2 ^ 32 - 16 <= len < 2 ^ 32 -> 120 < zlen f -> get_words32 junk addr len f = Ub UB_bounds.
Proof.
  intros Hl Hf. unfold get_words32. replace (len >? 0) with true by lia. replace (u32 (len + 16)) with (len + 16 - 2 ^ 32) by (unfold wrap; rewrite <- (Z.mod_unique (len + 16) (2 ^ 32) 1 (len + 16 - 2 ^ 32)); lia).
  pose proof (Z.mod_pos_bound (- addr) 128 ltac:(lia)). replace (Z.min (8 * len) (zlen f) >? Z.max 0 (8 * (len + 16 - 2 ^ 32 - (- addr) mod 128 / 8))) with true by lia. reflexivity.
Qed.
Lemma basic_over32 m f : addresses_ok m -> text_ok f -> 132 < zlen f -> 2 ^ 32 - 32 <= int_field f 4 -> load_basic32 m f = Ub UB_bounds.
Proof.
  intros (A1 & A2 & A3 & A4) F Hf Hl. pose proof (int_bound f 4 F) as Ba. unfold load_basic32.
  pose proof (get32_at f 0 ltac:(lia)) as G0. change (drop 0 f) with f in G0. rewrite G0. clear G0. change (0 + 4) with 4. replace (4 <=? zlen f) with true by lia. cbn [andthen].
  rewrite get32_at by lia. change (4 + 4) with 8. replace (8 <=? zlen f) with true by lia. cbn [andthen]. rewrite ints_over by (rewrite ?zlen_drop_any; lia). reflexivity.
Qed.
Lemma basic_over_bits32 m f : addresses_ok m -> text_ok f -> let a := int_field f 4 in a < 2 ^ 32 - 32 -> 132 + 4 * a < zlen f -> 2 ^ 32 - 16 <= int_field f (8 + 4 * a) -> load_basic32 m f = Ub UB_bounds.
Proof.
  intros (A1 & A2 & A3 & A4) F a Ha Hf Hl. pose proof (int_bound f 4 F) as Ba. fold a in Ba. pose proof (int_bound f (8 + 4 * a) F) as Bb. unfold load_basic32.
  pose proof (get32_at f 0 ltac:(lia)) as G0. change (drop 0 f) with f in G0. rewrite G0. clear G0. change (0 + 4) with 4. replace (4 <=? zlen f) with true by lia. cbn [andthen].
  rewrite get32_at by lia. change (4 + 4) with 8. replace (8 <=? zlen f) with true by lia. cbn [andthen]. fold a.
  pose proof (get_ints_at (m_junk_r m) (m_addr_r m) a f 8 ltac:(lia) ltac:(lia) A2) as G1. replace (8 + 4 * a <=? zlen f) with true in G1 by lia. destruct G1 as (x & -> & _). cbn [bind andthen].
  rewrite get32_at by lia. replace (8 + 4 * a + 4 <=? zlen f) with true by lia. cbn [andthen]. rewrite words_over32 by (rewrite ?zlen_drop_any; lia). reflexivity.
Qed.
Lemma cf_over32 m f : addresses_ok m -> text_ok f -> 140 < zlen f -> 2 ^ 32 - 32 <= int_field f 12 -> load_cf32 m f = Ub UB_bounds.
Proof.
  intros (A1 & A2 & A3 & A4) F Hf Hl. pose proof (int_bound f 12 F) as Ba. unfold load_cf32.
  pose proof (get32_at f 0 ltac:(lia)) as G0. change (drop 0 f) with f in G0. rewrite G0. clear G0. change (0 + 4) with 4. replace (4 <=? zlen f) with true by lia. cbn [andthen].
  rewrite get32_at by lia. change (4 + 4) with 8. replace (8 <=? zlen f) with true by lia. cbn [andthen].
  rewrite get32_at by lia. change (8 + 4) with 12. replace (12 <=? zlen f) with true by lia. cbn [andthen].
  rewrite get32_at by lia. change (12 + 4) with 16. replace (16 <=? zlen f) with true by lia. cbn [andthen]. rewrite ints_over by (rewrite ?zlen_drop_any; lia). reflexivity.
Qed.
Lemma load_over_bad32 : exists m f g, addresses_ok m /\ text_ok f /\ text_ok g /\ zlen f = 9 /\ zlen g = 17 /\ load_basic32 m f = Ub UB_bounds /\ load_cf32 m g = Ub UB_bounds.
Proof.
  exists (mem_of 0 0), (put32 0 ++ put32 (2 ^ 32 - 32) ++ [1]), (put32 0 ++ put32 0 ++ put32 0 ++ put32 (2 ^ 32 - 32) ++ [1]).
  split; [apply mem_of_ok; [lia|reflexivity]|]. split; [vm_compute; repeat constructor; intros; discriminate|]. split; [vm_compute; repeat constructor; intros; discriminate|]. vm_compute. auto.
Qed.
Lemma load_zero_bad32 : exists f g, text_ok f /\ text_ok g /\ forall m, exists r s, load_basic32 m f = Ok (Loaded r []) /\ rank_std32 r 0 = Ub UB_bounds /\ rank_bch32 r 0 = Ub UB_bounds /\
  load_cf32 m g = Ok (Loaded s []) /\ rank_of_cf32 false s 0 = Ub UB_bounds.
Proof.
  exists (repeat 0 12), (repeat 0 16). split; [apply zeros_ok|]. split; [apply zeros_ok|]. intros m.
  exists {| rb_ranks := []; rb_ranks_len := 0; rb_bits := []; rb_bits_len := 0; rb_text_len := 0 |}, {| cf_bits := []; cf_bits_len := 0; cf_text_len := 0; cf_border := 0; cf_block_border := 0 |}.
  vm_compute. repeat split.
Qed.

(** ** Self test *)
Lemma rank_test32 rank t : test_rank32 rank t = Ok [] <->
  forall i, 1 <= i <= zlen (text_bits t) -> rank (i mod 2 ^ 32) = Ok (ones_before (text_bits t) i mod 2 ^ 32).
Proof.
  rewrite test_rank32_iff. rewrite zlen_text_bits. split; intros X i Hi; [rewrite <- ts_all by lia|]; specialize (X i Hi); [exact X|]. rewrite <- ts_all in X by lia. exact X.
Qed.
Lemma self_test32 rank t : (forall i, 0 <= i <= zlen (text_bits t) -> i < 2 ^ 32 -> rank i = Ok (ones_before (text_bits t) i)) ->
  (test_rank32 rank t = Ok [] <-> forall i, 1 <= i <= zlen (text_bits t) -> ones_before (text_bits t) (i mod 2 ^ 32) = ones_before (text_bits t) i mod 2 ^ 32).
Proof.
  intros R. rewrite rank_test32. split; intros X i Hi; specialize (X i Hi); pose proof (Z.mod_pos_bound i (2 ^ 32) ltac:(lia)); pose proof (Z.mod_le i (2 ^ 32) ltac:(lia) ltac:(lia)).
  - rewrite R in X by lia. injection X as X. exact X.
  - rewrite R by lia. f_equal. exact X.
Qed.
Lemma wrap_short t : zlen t < 2 ^ 29 -> forall i, 1 <= i <= zlen (text_bits t) -> ones_before (text_bits t) (i mod 2 ^ 32) = ones_before (text_bits t) i mod 2 ^ 32.
Proof.
  rewrite zlen_text_bits. intros H i Hi. rewrite Z.mod_small by lia. rewrite <- ts_all by lia. pose proof (ts_bound t 0 i ltac:(lia)). rewrite Z.mod_small; lia.
Qed.
Lemma wrap_long t : 2 ^ 29 <= zlen t -> 0 < ones_before (text_bits t) (2 ^ 32) < 2 ^ 32 ->
  ~ forall i, 1 <= i <= zlen (text_bits t) -> ones_before (text_bits t) (i mod 2 ^ 32) = ones_before (text_bits t) i mod 2 ^ 32.
Proof.
  rewrite zlen_text_bits. intros H Ho X. specialize (X (2 ^ 32) ltac:(lia)). rewrite Z.mod_same in X by lia. rewrite Z.mod_small in X by lia. rewrite <- ts_all in X by lia. rewrite ts_empty in X. lia.
Qed.
Lemma std_self32 m t : addresses_ok m -> text_ok t -> zlen t <= 2 ^ 32 - 64 -> zlen t mod 64 <> 0 \/ 2 ^ 29 <= zlen t ->
  exists r, build_std32 m t = Ok r /\ (test_rank32 (rank_std32 r) t = Ok [] <->
    forall i, 1 <= i <= zlen (text_bits t) -> ones_before (text_bits t) (i mod 2 ^ 32) = ones_before (text_bits t) i mod 2 ^ 32).
Proof.
  intros A H Hl M. destruct (basic_rank32 m t A H Hl) as (r & E & R). exists r. split; [exact E|]. apply self_test32. rewrite zlen_text_bits. intros i Hi Hi2. apply R; [|exact Hi2]. unfold text_blocks. lia.
Qed.
Lemma bch_self32 jf m t : addresses_ok m -> text_ok t -> zlen t <= 2 ^ 32 - 64 ->
  exists r, build_bch32 false jf m t = Ok r /\ (test_rank32 (rank_bch32 r) t = Ok [] <->
    forall i, 1 <= i <= zlen (text_bits t) -> ones_before (text_bits t) (i mod 2 ^ 32) = ones_before (text_bits t) i mod 2 ^ 32).
Proof.
  intros A H Hl. destruct (bch_rank32 jf m t A H Hl) as (r & E & R). exists r. split; [exact E|]. apply self_test32. rewrite zlen_text_bits. intros i Hi Hi2. apply R; [|exact Hi2]. unfold text_blocks. lia.
Qed.
Lemma cf_self32 m t : addresses_ok m -> text_ok t -> zlen t <= 2 ^ 32 - 64 -> zlen t mod 64 <> 0 \/ 2 ^ 29 <= zlen t -> ~ (1 <= text_blocks t /\ forall b, 0 <= b < text_blocks t -> uniform_block t b) ->
  exists r, build_cf32 m t = Ok r /\ (test_rank32 (rank_of_cf32 false r) t = Ok [] <->
    forall i, 1 <= i <= zlen (text_bits t) -> ones_before (text_bits t) (i mod 2 ^ 32) = ones_before (text_bits t) i mod 2 ^ 32).
Proof.
  intros A H Hl M N. destruct (cf_rank32 m t A H Hl N) as (r & E & R). exists r. split; [exact E|]. apply self_test32. rewrite zlen_text_bits. intros i Hi Hi2. apply R; [|exact Hi2]. unfold text_blocks. lia.
Qed.
Lemma std_silent32 m t : addresses_ok m -> text_ok t -> zlen t < 2 ^ 29 -> zlen t mod 64 <> 0 -> exists r, build_std32 m t = Ok r /\ test_rank32 (rank_std32 r) t = Ok [].
Proof. intros A H Hl M. destruct (std_self32 m t A H ltac:(lia) (or_introl M)) as (r & E & R). exists r. split; [exact E|]. apply R. apply wrap_short. exact Hl. Qed.
Lemma bch_silent32 jf m t : addresses_ok m -> text_ok t -> zlen t < 2 ^ 29 -> exists r, build_bch32 false jf m t = Ok r /\ test_rank32 (rank_bch32 r) t = Ok [].
Proof. intros A H Hl. destruct (bch_self32 jf m t A H ltac:(lia)) as (r & E & R). exists r. split; [exact E|]. apply R. apply wrap_short. exact Hl. Qed.
Lemma cf_silent32 m t : addresses_ok m -> text_ok t -> zlen t < 2 ^ 29 -> zlen t mod 64 <> 0 -> exists r, build_cf32 m t = Ok r /\ test_rank32 (rank_of_cf32 false r) t = Ok [].
Proof.
  intros A H Hl M. pose proof (zlen_nonneg t). destruct (cf_self32 m t A H ltac:(lia) (or_introl M)) as (r & E & R).
  { intros [N1 N2]. destruct (N2 (text_blocks t - 1) ltac:(lia)) as [N3 _]. rewrite zlen_text_bits in N3. unfold text_blocks in N3. lia. }
  exists r. split; [exact E|]. apply R. apply wrap_short. exact Hl.
Qed.
Lemma std_noisy32 m t : addresses_ok m -> text_ok t -> 2 ^ 29 <= zlen t <= 2 ^ 32 - 64 -> 0 < ones_before (text_bits t) (2 ^ 32) < 2 ^ 32 ->
  exists r, build_std32 m t = Ok r /\ test_rank32 (rank_std32 r) t <> Ok [].
Proof. intros A H Hl O. destruct (std_self32 m t A H ltac:(lia) (or_intror (proj1 Hl))) as (r & E & R). exists r. split; [exact E|]. rewrite R. apply wrap_long; [lia|exact O]. Qed.
Lemma bch_noisy32 jf m t : addresses_ok m -> text_ok t -> 2 ^ 29 <= zlen t <= 2 ^ 32 - 64 -> 0 < ones_before (text_bits t) (2 ^ 32) < 2 ^ 32 ->
  exists r, build_bch32 false jf m t = Ok r /\ test_rank32 (rank_bch32 r) t <> Ok [].
Proof. intros A H Hl O. destruct (bch_self32 jf m t A H ltac:(lia)) as (r & E & R). exists r. split; [exact E|]. rewrite R. apply wrap_long; [lia|exact O]. Qed.
Lemma cf_noisy32 m t : addresses_ok m -> text_ok t -> 2 ^ 29 <= zlen t <= 2 ^ 32 - 64 -> ~ (1 <= text_blocks t /\ forall b, 0 <= b < text_blocks t -> uniform_block t b) ->
  0 < ones_before (text_bits t) (2 ^ 32) < 2 ^ 32 -> exists r, build_cf32 m t = Ok r /\ test_rank32 (rank_of_cf32 false r) t <> Ok [].
Proof. intros A H Hl N O. destruct (cf_self32 m t A H ltac:(lia) (or_intror (proj1 Hl)) N) as (r & E & R). exists r. split; [exact E|]. rewrite R. apply wrap_long; [lia|exact O]. Qed.

(** A text that starts with the byte 1 starts with a zero, and bit 7 is a one. *)
Lemma noisy_case t n : zn 0 t 0 = 1 -> 8 <= n -> 0 < ones_before (text_bits t) n < n.
Proof.
  intros Z1 Hn. rewrite <- ts_all by lia. pose proof (ts_split t 0 8 n ltac:(lia)) as S1. pose proof (ts_bound t 8 n ltac:(lia)) as B.
  assert (E : ts t 0 8 = 1). { assert (G : forall j, 0 <= j < 8 -> tb t j = if j =? 7 then 1 else 0).
    { intros j Hj. unfold tb. replace (j / 8) with 0 by lia. rewrite Z1. assert (C : j = 0 \/ j = 1 \/ j = 2 \/ j = 3 \/ j = 4 \/ j = 5 \/ j = 6 \/ j = 7) by lia.
      repeat (destruct C as [->|C]; [reflexivity|]). subst j. reflexivity. }
    change 8 with (0 + 1 + 1 + 1 + 1 + 1 + 1 + 1 + 1). rewrite !ts_succ by lia. rewrite ts_empty. rewrite !G by lia. reflexivity. }
  lia.
Qed.
Lemma std_test_bad32 : exists m t r, addresses_ok m /\ text_ok t /\ build_std32 m t = Ok r /\ test_rank32 (rank_std32 r) t <> Ok [].
Proof.
  exists (mem_of 1000 16), (repeat 0 64). pose proof (mem_of_ok 1000 16 ltac:(lia) eq_refl) as A.
  destruct (basic_rank32_size (mem_of 1000 16) (repeat 0 64) A (zeros_ok 64) ltac:(cbn; lia) eq_refl) as (r & E & R). exists r.
  split; [exact A|]. split; [apply zeros_ok|]. split; [exact E|]. rewrite rank_test32. intros X. specialize (X (zlen (text_bits (repeat 0 64))) ltac:(rewrite zlen_text_bits; cbn; lia)).
  rewrite Z.mod_small in X by (rewrite zlen_text_bits; cbn; lia). rewrite R in X. vm_compute in X. discriminate.
Qed.
Lemma noisy_bad32 : exists m t r, addresses_ok m /\ text_ok t /\ zlen t = 2 ^ 29 /\ build_std32 m t = Ok r /\ (forall i, 0 <= i < 2 ^ 32 -> rank_std32 r i = Ok (ones_before (text_bits t) i)) /\
  test_rank32 (rank_std32 r) t <> Ok [].
Proof.
  assert (G : forall t, text_ok t -> zlen t = 2 ^ 29 -> zn 0 t 0 = 1 -> exists m t r, addresses_ok m /\ text_ok t /\ zlen t = 2 ^ 29 /\ build_std32 m t = Ok r /\ (forall i, 0 <= i < 2 ^ 32 -> rank_std32 r i = Ok (ones_before (text_bits t) i)) /\
    test_rank32 (rank_std32 r) t <> Ok []).
  { intros t H Hl Z1. pose proof (mem_of_ok 7 16 ltac:(lia) eq_refl) as A. exists (mem_of 7 16), t.
    destruct (std_noisy32 (mem_of 7 16) t A H ltac:(lia) (noisy_case t (2 ^ 32) Z1 ltac:(lia))) as (r & E & N). destruct (basic_rank32 (mem_of 7 16) t A H ltac:(lia)) as (r' & E' & R).
    rewrite E in E'. injection E' as <-. exists r. split; [exact A|]. split; [exact H|]. split; [exact Hl|]. split; [exact E|]. split; [|exact N]. intros i Hi. apply R; [|lia]. unfold text_blocks. rewrite Hl. lia. }
  apply (G (repeat 1 (Z.to_nat (2 ^ 29)))); clear G.
  - apply Forall_forall. intros x Hx. apply repeat_spec in Hx. lia.
  - rewrite zlen_repeat. lia.
  - apply zn_same. lia.
Qed.
