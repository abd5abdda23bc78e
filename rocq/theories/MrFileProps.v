(** Files of the mranisz structures and their self tests: the statements of Properties16. *)
From Coq Require Import ZifyBool.
From Verif Require Import Base BaseFacts Mem MemFacts Words WordFacts BlockFacts NodeFacts Trees TreeBuild Spec BitmapFacts ProgramFacts KernelFacts SpecPoppy PoppyFacts PoppyFacts2 SpecText SpecFile MrRank MrRankFacts MrRankFacts2 MrRankFacts3 MrRankFacts4 MrRankProps MrSelect MrSelectFacts MrSelectFacts2 MrSelectFacts3 MrSelectFacts4 MrSelectFacts5 MrSelectFacts6 MrSelectProps MrFile MrFileFacts MrFileFacts2 MrFileFacts3 MrFileFacts4 MrFileFacts5.
Ltac Zify.zify_post_hook ::= Z.div_mod_to_equations.

(** ** Rank *)
Lemma std_file m m' t : addresses_ok m -> addresses_ok m' -> text_ok t -> zlen t < 2 ^ 58 ->
  exists r f, build_std m t = Ok r /\ save_basic r = Ok f /\ zlen f = 32 + 16 * text_blocks t + 64 * kept_blocks t /\
    (forall rest, text_ok rest -> exists r', load_basic m' (f ++ rest) = Ok (Loaded r' rest) /\ basic_text_size r' = zlen t /\
       forall i, 0 <= i < 512 * text_blocks t -> rank_std r' i = Ok (ones_before (text_bits t) i)) /\
    (forall k, 0 <= k < zlen f -> load_basic m' (firstn (Z.to_nat k) f) = Ok Exits).
Proof.
  intros A A' H Hl. destruct (build_std_ok m t A H Hl) as (r & E & SP). destruct (std_round m m' t r A A' H Hl SP) as (f & F1 & F2 & F3 & F4 & F5).
  exists r, f. split; [exact E|]. split; [exact F1|]. rewrite kept_ne. change (text_blocks t) with (nblk t). split; [exact F2|]. split; [|exact F5].
  intros rest Hr. destruct (F4 rest Hr) as (r' & R1 & R2 & R3 & _). exists r'. split; [exact R1|]. split; [exact R2|]. intros i Hi. rewrite <- ts_all by lia. eapply rank_std_Q; eauto.
Qed.

Lemma bch_file jf m m' t : addresses_ok m -> addresses_ok m' -> text_ok t -> zlen t < 2 ^ 58 ->
  exists r f, build_bch false jf m t = Ok r /\ save_basic r = Ok f /\ zlen f = 176 + 152 * (text_blocks t / 64) + 64 * kept_blocks t /\
    (forall rest, text_ok rest -> exists r', load_basic m' (f ++ rest) = Ok (Loaded r' rest) /\ basic_text_size r' = zlen t /\
       forall i, 0 <= i < 512 * text_blocks t \/ (1 <= kept_blocks t /\ i = 512 * text_blocks t) -> rank_bch r' i = Ok (ones_before (text_bits t) i)) /\
    (forall k, 0 <= k < zlen f -> load_basic m' (firstn (Z.to_nat k) f) = Ok Exits).
Proof.
  intros A A' H Hl. destruct (build_bch_gen false jf m t A H Hl) as [B _]. destruct (B (or_introl eq_refl)) as (temp & r & E & SP). destruct (bch_round m m' jf t temp r A A' H Hl SP) as (f & F1 & F2 & F3 & F4 & F5).
  exists r, f. split; [exact E|]. split; [exact F1|]. rewrite kept_ne. change (text_blocks t) with (nblk t). split; [lia|]. split; [|exact F5].
  intros rest Hr. destruct (F4 rest Hr) as (r' & R1 & R2 & R3). exists r'. split; [exact R1|]. split; [exact R2|]. intros i Hi. pose proof (nblk_nonneg t). rewrite <- ts_all by lia. eapply rank_bch_Q; eauto; lia.
Qed.

Lemma cf_file m m' t : addresses_ok m -> addresses_ok m' -> text_ok t -> zlen t < 2 ^ 58 -> ~ (1 <= text_blocks t /\ forall b, 0 <= b < text_blocks t -> uniform_block t b) ->
  exists r f, build_cf m t = Ok r /\ save_cf r = Ok f /\ zlen f = 40 + 56 * kept_blocks t + 16 * text_blocks t /\
    (forall rest, text_ok rest -> exists r', load_cf m' (f ++ rest) = Ok (Loaded r' rest) /\ cf_text_size r' = zlen t /\
       forall i, 0 <= i < 512 * text_blocks t -> rank_of_cf r' i = Ok (ones_before (text_bits t) i)) /\
    (forall k, 0 <= k < zlen f -> load_cf m' (firstn (Z.to_nat k) f) = Ok Exits).
Proof.
  intros A A' H Hl N. rewrite <- kept_zero, kept_ne in N. rewrite kept_ne. change (text_blocks t) with (nblk t) in *. destruct (build_cf_gen m t A H Hl) as [B _].
  pose proof (nblk_nonneg t). pose proof (ne_bound t (nblk t) ltac:(lia)). destruct (B ltac:(lia)) as (r & E & SP). destruct (cf_round_trip m m' t r A A' H Hl SP) as (f & F1 & F2 & F3 & F4 & F5).
  exists r, f. split; [exact E|]. split; [exact F1|]. split; [exact F2|]. split; [|exact F5].
  intros rest Hr. destruct (F4 rest Hr) as (r' & R1 & R2 & R3). exists r'. split; [exact R1|]. split; [exact R2|]. intros i Hi. rewrite <- ts_all by lia. eapply rank_cf_in; eauto.
Qed.

(** ** Select *)
Lemma std_sel_file L T m m' t : 1 <= L -> T < 2 ^ 32 -> arguments_ok false L T = true -> addresses_ok m -> bytes_ok m -> addresses_ok m' -> text_ok t -> zlen t < 2 ^ 57 ->
  1 <= count_true (text_bits t) -> overflows L T (room_of (m_addr_b m)) (text_bits t) = false -> lost L T (text_bits t) = false ->
  exists r f, build_sel L T m t = Ok r /\ save_sel r = Ok f /\ zlen f = 40 + 16 * groups L (text_bits t) + sel_payload L T (text_bits t) /\
    (forall rest, text_ok rest -> exists r', load_sel m' (f ++ rest) = Ok (Loaded r' rest) /\ sel_text_size r' = zlen t /\
       forall k, 1 <= k <= count_true (text_bits t) -> select_std L T r' k = Ok (sel_answer L (text_bits t) k)) /\
    (forall k, 0 <= k < zlen f -> load_sel m' (firstn (Z.to_nat k) f) = Ok Exits).
Proof.
  intros HL HT AR A AB A' H Hl HK HO LO. apply args_std in AR. rewrite groups_nbk, <- K_ones in *. pose proof (build_sel_ok L T m t ltac:(lia) HT A H ltac:(lia) HK) as B. rewrite HO in B.
  destruct B as (r & E & R). destruct (sel_round_trip L T m m' t r ltac:(lia) HT A A' AB H Hl HK LO E R) as (f & F1 & F2 & F3 & F4 & F5).
  exists r, f. split; [exact E|]. split; [exact F1|]. rewrite payload_O1 by (try rewrite <- K_ones; lia). split; [exact F2|]. split; [|exact F5].
  intros rest Hr. destruct (F4 rest Hr) as (r' & R1 & R2). exists r'. split; [exact R1|]. split; [apply R2|]. intros k Hk. rewrite <- answer_spec with (T := T) by lia.
  eapply select_std_ok; eauto; lia.
Qed.

Lemma bch_sel_file L T m m' t : 1 <= L -> arguments_ok true L T = true -> addresses_ok m -> bytes_ok m -> addresses_ok m' -> text_ok t -> zlen t < 2 ^ 57 ->
  1 <= count_true (text_bits t) -> groups L (text_bits t) < 2 ^ 31 - 1 -> overflows L T (room_of (m_addr_b m)) (text_bits t) = false -> lost L T (text_bits t) = false ->
  exists r f, build_sel_bch L T m t = Ok r /\ save_sel r = Ok f /\ zlen f = 192 + 168 * (groups L (text_bits t) / 16) + sel_payload L T (text_bits t) /\
    (forall rest, text_ok rest -> exists r', load_sel m' (f ++ rest) = Ok (Loaded r' rest) /\ sel_text_size r' = zlen t /\
       forall k, 1 <= k <= count_true (text_bits t) -> select_bch L T r' k = Ok (sel_answer L (text_bits t) k)) /\
    (forall k, 0 <= k < zlen f -> load_sel m' (firstn (Z.to_nat k) f) = Ok Exits).
Proof.
  intros HL AR A AB A' H Hl HK HG HO LO. destruct (args_bounds L T HL AR) as (A1 & A2 & A3). rewrite groups_nbk, <- K_ones in *. pose proof (build_sel_bch_ok L T m t ltac:(lia) ltac:(lia) A H ltac:(lia) HK ltac:(lia)) as B. rewrite HO in B.
  destruct B as (r & E & R). destruct (selb_round_trip L T m m' t r ltac:(lia) ltac:(lia) A A' AB H Hl HK LO E R) as (f & F1 & F2 & F3 & F4 & F5).
  exists r, f. split; [exact E|]. split; [exact F1|]. rewrite payload_O1 by (try rewrite <- K_ones; lia). split; [lia|]. split; [|exact F5].
  intros rest Hr. destruct (F4 rest Hr) as (r' & R1 & R2). exists r'. split; [exact R1|]. split; [destruct R2 as (te & R2); apply R2|]. intros k Hk. rewrite <- answer_spec with (T := T) by lia.
  eapply select_bch_ok; eauto; lia.
Qed.

Lemma P_nth t k : nth_one (text_bits t) k = P t k.
Proof. reflexivity. Qed.

Lemma std_sel_lost L T m t : 1 <= L -> T < 2 ^ 32 -> arguments_ok false L T = true -> addresses_ok m -> bytes_ok m -> text_ok t -> zlen t < 2 ^ 57 ->
  overflows L T (room_of (m_addr_b m)) (text_bits t) = false -> lost L T (text_bits t) = true ->
  let n := count_true (text_bits t) in
  exists m' r f r', addresses_ok m' /\ bytes_ok m' /\ build_sel L T m t = Ok r /\ select_std L T r n = Ok (nth_one (text_bits t) n) /\
    save_sel r = Ok f /\ load_sel m' f = Ok (Loaded r' []) /\ select_std L T r' n <> Ok (nth_one (text_bits t) n).
Proof.
  intros HL HT AR A AB H Hl HO LO n. apply args_std in AR. assert (HK : 1 <= K t) by (rewrite K_ones; unfold lost in LO; lia).
  pose proof (build_sel_ok L T m t ltac:(lia) HT A H ltac:(lia) HK) as B. rewrite HO in B. destruct B as (r & E & R).
  destruct (std_lost L T m t r ltac:(lia) HT A AB H Hl HK LO E R) as (f & r' & F1 & F2 & F3). exists m127, r, f, r'. split; [exact m127_ok|]. split; [exact m127_bytes|]. split; [exact E|].
  unfold n. rewrite <- K_ones, P_nth. split; [|split; [exact F1|]; split; [exact F2|exact F3]].
  rewrite (select_std_ok L T m t r (K t) ltac:(lia) A ltac:(lia) R ltac:(lia)). rewrite answer_spec by lia. unfold sel_answer, misread, lost in *. rewrite <- K_ones in *. rewrite Z.div_small, Z.mod_small in * by lia.
  change (group_start L (text_bits t) 0) with 0. rewrite Z.sub_0_r. replace (nth_one (text_bits t) (K t) + 1 =? L) with false by lia. rewrite andb_false_r. reflexivity.
Qed.

Lemma bch_sel_lost L T m t : 1 <= L -> arguments_ok true L T = true -> addresses_ok m -> bytes_ok m -> text_ok t -> zlen t < 2 ^ 57 ->
  overflows L T (room_of (m_addr_b m)) (text_bits t) = false -> lost L T (text_bits t) = true ->
  let n := count_true (text_bits t) in
  exists m' r f r', addresses_ok m' /\ bytes_ok m' /\ build_sel_bch L T m t = Ok r /\ select_bch L T r n = Ok (nth_one (text_bits t) n) /\
    save_sel r = Ok f /\ load_sel m' f = Ok (Loaded r' []) /\ select_bch L T r' n <> Ok (nth_one (text_bits t) n).
Proof.
  intros HL AR A AB H Hl HO LO n. destruct (args_bounds L T HL AR) as (A1 & A2 & A3). assert (HK : 1 <= K t) by (rewrite K_ones; unfold lost in LO; lia).
  assert (KL : K t < L) by (rewrite K_ones; unfold lost in LO; lia). assert (N1 : nbk L t = 1) by (unfold nbk; symmetry; apply (Z.div_unique _ _ _ (K t - 1)); lia).
  pose proof (build_sel_bch_ok L T m t ltac:(lia) ltac:(lia) A H ltac:(lia) HK ltac:(lia)) as B. rewrite HO in B. destruct B as (r & E & R).
  destruct (bch_lost L T m t r ltac:(lia) ltac:(lia) A AB H Hl HK LO E R) as (f & r' & F1 & F2 & F3). exists m127, r, f, r'. split; [exact m127_ok|]. split; [exact m127_bytes|]. split; [exact E|].
  unfold n. rewrite <- K_ones, P_nth. split; [|split; [exact F1|]; split; [exact F2|exact F3]].
  rewrite (select_bch_ok L T m t r (K t) HL AR ltac:(lia) A R ltac:(lia)). rewrite answer_spec by lia. unfold sel_answer, misread, lost in *. rewrite <- K_ones in *. rewrite Z.div_small, Z.mod_small in * by lia.
  change (group_start L (text_bits t) 0) with 0. rewrite Z.sub_0_r. replace (nth_one (text_bits t) (K t) + 1 =? L) with false by lia. rewrite andb_false_r. reflexivity.
Qed.

(** ** Any file *)
Lemma basic_any m f : addresses_ok m -> text_ok f -> let a := field f 8 in let b := field f (16 + 8 * a) in a < 2 ^ 64 - 16 -> b < 2 ^ 64 - 16 ->
  if zlen f <? 24 + 8 * a + 8 * b then load_basic m f = Ok Exits
  else exists r, load_basic m f = Ok (Loaded r (skipn (Z.to_nat (24 + 8 * a + 8 * b)) f)) /\ basic_text_size r = field f 0 /\
    (forall k, 0 <= k < a -> zn 0 (rb_ranks r) k = field f (16 + 8 * k)) /\ (forall k, 0 <= k < b -> zn 0 (rb_bits r) k = field f (24 + 8 * a + 8 * k)).
Proof.
  intros A F a b Ha Hb. pose proof (load_basic_any m f A F Ha Hb) as X. fold a in X. fold b in X. destruct (zlen f <? 24 + 8 * a + 8 * b); [exact X|].
  destruct X as (r & X1 & X2). exists r. split; [exact X1|]. unfold basicL in X2. fold a in X2. fold b in X2. destruct X2 as (Y1 & Y2 & Y3 & (Y4 & Y5 & _) & (Y6 & Y7 & _)).
  split; [exact Y1|]. split; intros k Hk; [apply Y5|rewrite Y7 by exact Hk; f_equal]; lia.
Qed.
Lemma cf_any m f : addresses_ok m -> text_ok f -> let b := field f 24 in b < 2 ^ 64 - 16 ->
  if zlen f <? 32 + 8 * b then load_cf m f = Ok Exits
  else exists r, load_cf m f = Ok (Loaded r (skipn (Z.to_nat (32 + 8 * b)) f)) /\ cf_text_size r = field f 0 /\ cf_border r = field f 8 /\ cf_block_border r = field f 16 /\
    (forall k, 0 <= k < b -> zn 0 (cf_bits r) k = field f (32 + 8 * k)).
Proof.
  intros A F b Hb. pose proof (load_cf_any m f A F Hb) as X. fold b in X. destruct (zlen f <? 32 + 8 * b); [exact X|].
  destruct X as (r & X1 & X2). exists r. split; [exact X1|]. unfold cfL in X2. fold b in X2. destruct X2 as (Y1 & Y2 & Y3 & Y4 & (Y5 & Y6 & _)). auto.
Qed.
Lemma sel_any m f : addresses_ok m -> text_ok f -> let a := field f 8 in let b := field f (16 + 8 * a) in a < 2 ^ 64 - 16 -> b < 2 ^ 64 - 128 ->
  if zlen f <? 24 + 8 * a + b then load_sel m f = Ok Exits
  else exists r, load_sel m f = Ok (Loaded r (skipn (Z.to_nat (24 + 8 * a + b)) f)) /\ sel_text_size r = field f 0 /\
    (forall k, 0 <= k < a -> zn 0 (sb_selects r) k = field f (16 + 8 * k)) /\ (forall k, 0 <= k < b -> zn 0 (sb_bits r) k = zn 0 f (24 + 8 * a + k)).
Proof.
  intros A F a b Ha Hb. pose proof (load_sel_any m f A F Ha Hb) as X. fold a in X. fold b in X. destruct (zlen f <? 24 + 8 * a + b); [exact X|].
  destruct X as (r & X1 & X2). exists r. split; [exact X1|]. unfold selL in X2. fold a in X2. fold b in X2. destruct X2 as (Y1 & Y2 & Y3 & (Y4 & Y5 & _) & (Y6 & Y7 & _)).
  split; [exact Y1|]. split; intros k Hk; [apply Y5|rewrite Y7 by exact Hk; f_equal]; lia.
Qed.

(** Lengths whose number of words wraps. *)
Lemma words_over junk addr len f : 0 <= addr -> 2 ^ 64 - 16 <= len < 2 ^ 64 -> 120 < zlen f -> get_words junk addr len f = Ub UB_bounds.
Proof.
  intros A Hl Hf. unfold get_words. replace (len >? 0) with true by lia. replace (u64 (len + 16)) with (len + 16 - 2 ^ 64) by (unfold wrap; rewrite <- (Z.mod_unique (len + 16) (2 ^ 64) 1 (len + 16 - 2 ^ 64)); lia).
  pose proof (Z.mod_pos_bound (- addr) 128 ltac:(lia)). replace (Z.min (8 * len) (zlen f) >? Z.max 0 (8 * (len + 16 - 2 ^ 64 - (- addr) mod 128 / 8))) with true by lia. reflexivity.
Qed.
Lemma basic_over m f : addresses_ok m -> text_ok f -> 136 < zlen f -> 2 ^ 64 - 16 <= field f 8 -> load_basic m f = Ub UB_bounds.
Proof.
  intros (A1 & A2 & A3 & A4) F Hf Hl. pose proof (field_bound f 8 F) as Ba. unfold load_basic.
  pose proof (get64_at f 0 ltac:(lia)) as G0. change (drop 0 f) with f in G0. rewrite G0. clear G0. change (0 + 8) with 8. replace (8 <=? zlen f) with true by lia. cbn [andthen].
  rewrite get64_at by lia. change (8 + 8) with 16. replace (16 <=? zlen f) with true by lia. cbn [andthen]. rewrite words_over by (rewrite ?zlen_drop_any; lia). reflexivity.
Qed.
Lemma sel_over m f : addresses_ok m -> text_ok f -> 136 < zlen f -> 2 ^ 64 - 16 <= field f 8 -> load_sel m f = Ub UB_bounds.
Proof.
  intros (A1 & A2 & A3 & A4) F Hf Hl. pose proof (field_bound f 8 F) as Ba. unfold load_sel.
  pose proof (get64_at f 0 ltac:(lia)) as G0. change (drop 0 f) with f in G0. rewrite G0. clear G0. change (0 + 8) with 8. replace (8 <=? zlen f) with true by lia. cbn [andthen].
  rewrite get64_at by lia. change (8 + 8) with 16. replace (16 <=? zlen f) with true by lia. cbn [andthen]. rewrite words_over by (rewrite ?zlen_drop_any; lia). reflexivity.
Qed.
Lemma cf_over m f : addresses_ok m -> text_ok f -> 152 < zlen f -> 2 ^ 64 - 16 <= field f 24 -> load_cf m f = Ub UB_bounds.
Proof.
  intros (A1 & A2 & A3 & A4) F Hf Hl. pose proof (field_bound f 24 F) as Ba. unfold load_cf.
  pose proof (get64_at f 0 ltac:(lia)) as G0. change (drop 0 f) with f in G0. rewrite G0. clear G0. change (0 + 8) with 8. replace (8 <=? zlen f) with true by lia. cbn [andthen].
  rewrite get64_at by lia. change (8 + 8) with 16. replace (16 <=? zlen f) with true by lia. cbn [andthen].
  rewrite get64_at by lia. change (16 + 8) with 24. replace (24 <=? zlen f) with true by lia. cbn [andthen].
  rewrite get64_at by lia. change (24 + 8) with 32. replace (32 <=? zlen f) with true by lia. cbn [andthen]. rewrite words_over by (rewrite ?zlen_drop_any; lia). reflexivity.
Qed.

(** ** Self tests *)
Lemma rank_test rank t : zlen t < 2 ^ 58 ->
  test_rank rank t = Ok [] <-> forall i, 1 <= i <= zlen (text_bits t) -> rank i = Ok (ones_before (text_bits t) i).
Proof.
  intros Hl. rewrite test_rank_iff by exact Hl. rewrite zlen_text_bits. split; intros X i Hi; [rewrite <- ts_all by lia|rewrite ts_all by lia]; apply X; exact Hi.
Qed.
Lemma select_test select t : zlen t < 2 ^ 58 ->
  test_select select t = Ok [] <-> forall k, 1 <= k <= count_true (text_bits t) -> select k = Ok (nth_one (text_bits t) k).
Proof. intros Hl. rewrite test_select_iff by exact Hl. rewrite K_ones. reflexivity. Qed.

Lemma std_self_test m t : addresses_ok m -> text_ok t -> zlen t < 2 ^ 58 -> zlen t mod 64 <> 0 ->
  exists r, build_std m t = Ok r /\ test_rank (rank_std r) t = Ok [].
Proof.
  intros A H Hl M. destruct (basic_rank m t A H Hl) as (r & E & R). exists r. split; [exact E|]. apply rank_test; [exact Hl|]. rewrite zlen_text_bits. intros i Hi. apply R. unfold text_blocks. lia.
Qed.
Lemma bch_self_test jf m t : addresses_ok m -> text_ok t -> zlen t < 2 ^ 58 ->
  exists r, build_bch false jf m t = Ok r /\ test_rank (rank_bch r) t = Ok [].
Proof.
  intros A H Hl. destruct (bch_rank jf m t A H Hl) as (r & E & R). exists r. split; [exact E|]. apply rank_test; [exact Hl|]. rewrite zlen_text_bits. intros i Hi. apply R. unfold text_blocks. lia.
Qed.
Lemma cf_self_test m t : addresses_ok m -> text_ok t -> zlen t < 2 ^ 58 -> zlen t mod 64 <> 0 -> 
  exists r, build_cf m t = Ok r /\ test_rank (rank_of_cf r) t = Ok [].
Proof.
  intros A H Hl M. pose proof (zlen_nonneg t). destruct (cf_rank m t A H Hl) as (r & E & R).
  { intros [N1 N2]. destruct (N2 (text_blocks t - 1) ltac:(lia)) as [N3 _]. rewrite zlen_text_bits in N3. unfold text_blocks in N3. lia. }
  exists r. split; [exact E|]. apply rank_test; [exact Hl|]. rewrite zlen_text_bits. intros i Hi. apply R. unfold text_blocks. lia.
Qed.
Lemma std_sel_test L T m t : 1 <= L -> T < 2 ^ 32 -> arguments_ok false L T = true -> addresses_ok m -> text_ok t -> zlen t < 2 ^ 58 -> 1 <= count_true (text_bits t) ->
  overflows L T (room_of (m_addr_b m)) (text_bits t) = false ->
  exists r, build_sel L T m t = Ok r /\ (test_select (select_std L T r) t = Ok [] <-> misread L (text_bits t) = false).
Proof.
  intros HL HT AR A H Hl HK HO. destruct (std_select L T m t HL HT AR A H Hl HK HO) as (r & E & _ & R). exists r. split; [exact E|]. rewrite select_test by exact Hl.
  split; intros X.
  - destruct (misread L (text_bits t)) eqn:M; [|reflexivity]. exfalso. pose proof (answer_wrong L t HL M). specialize (X (count_true (text_bits t)) ltac:(lia)). rewrite R in X by lia. injection X as X. lia.
  - intros k Hk. rewrite R by exact Hk. rewrite answer_right by assumption. reflexivity.
Qed.
Lemma bch_sel_test L T m t : 1 <= L -> arguments_ok true L T = true -> addresses_ok m -> text_ok t -> zlen t < 2 ^ 58 -> 1 <= count_true (text_bits t) ->
  groups L (text_bits t) < 2 ^ 31 - 1 -> overflows L T (room_of (m_addr_b m)) (text_bits t) = false ->
  exists r, build_sel_bch L T m t = Ok r /\ (test_select (select_bch L T r) t = Ok [] <-> misread L (text_bits t) = false).
Proof.
  intros HL AR A H Hl HK HG HO. destruct (bch_select L T m t HL AR A H Hl HK HG HO) as (r & E & _ & R). exists r. split; [exact E|]. rewrite select_test by exact Hl.
  split; intros X.
  - destruct (misread L (text_bits t)) eqn:M; [|reflexivity]. exfalso. pose proof (answer_wrong L t HL M). specialize (X (count_true (text_bits t)) ltac:(lia)). rewrite R in X by lia. injection X as X. lia.
  - intros k Hk. rewrite R by exact Hk. rewrite answer_right by assumption. reflexivity.
Qed.

(** ** Cases where a claim does not hold *)
Lemma std_test_bad : exists m t r, addresses_ok m /\ text_ok t /\ build_std m t = Ok r /\ test_rank (rank_std r) t <> Ok [].
Proof.
  exists (mem_of 1000 16), (repeat 0 64). pose proof (mem_of_ok 1000 16 ltac:(lia) eq_refl) as A.
  destruct (basic_rank_size (mem_of 1000 16) (repeat 0 64) A (zeros_ok 64) ltac:(cbn; lia) eq_refl) as (r & E & R). exists r.
  split; [exact A|]. split; [apply zeros_ok|]. split; [exact E|]. rewrite rank_test by (cbn; lia). intros X. specialize (X (zlen (text_bits (repeat 0 64))) ltac:(rewrite zlen_text_bits; cbn; lia)).
  rewrite R in X. vm_compute in X. discriminate.
Qed.
Lemma sel_file_bad : exists m m' t r f r', addresses_ok m /\ addresses_ok m' /\ text_ok t /\ build_sel 128 4096 m t = Ok r /\ select_std 128 4096 r 2 = Ok 8 /\
  save_sel r = Ok f /\ load_sel m' f = Ok (Loaded r' []) /\ select_std 128 4096 r' 2 = Ok 9.
Proof.
  set (m := mem_of 0 0). set (t := [128; 128]). set (r := match build_sel 128 4096 m t with Ok r => r | _ => {| sb_selects := []; sb_selects_len := 0; sb_bits := []; sb_bits_len := 0; sb_text_len := 0 |} end).
  set (f := match save_sel r with Ok f => f | _ => [] end).
  set (r' := match load_sel (mem_of 127 0) f with Ok (Loaded r _) => r | _ => r end).
  exists m, (mem_of 127 0), t, r, f, r'. split; [apply mem_of_ok; [lia|reflexivity]|]. split; [apply mem_of_ok; [lia|reflexivity]|]. split; [repeat constructor; lia|].
  vm_compute. repeat split.
Qed.
Lemma sel_file_null : exists m t r f, addresses_ok m /\ text_ok t /\ build_sel 128 4096 m t = Ok r /\ select_std 128 4096 r 1 = Ok 0 /\ save_sel r = Ok f /\
  forall m', addresses_ok m' -> exists r', load_sel m' f = Ok (Loaded r' []) /\ select_std 128 4096 r' 1 = Ub UB_bounds.
Proof.
  set (m := mem_of 0 0). set (t := [128]). set (r := match build_sel 128 4096 m t with Ok r => r | _ => {| sb_selects := []; sb_selects_len := 0; sb_bits := []; sb_bits_len := 0; sb_text_len := 0 |} end).
  set (f := match save_sel r with Ok f => f | _ => [] end). exists m, t, r, f. split; [apply mem_of_ok; [lia|reflexivity]|]. split; [repeat constructor; lia|].
  split; [vm_compute; reflexivity|]. split; [vm_compute; reflexivity|]. split; [vm_compute; reflexivity|]. intros m' A'.
  assert (F : text_ok f). { replace f with (put64 1 ++ put64 4 ++ put64 0 ++ put64 0 ++ put64 1 ++ put64 0 ++ put64 0) by (vm_compute; reflexivity). vm_compute. repeat constructor; intros; discriminate. }
  pose proof (load_sel_any m' f A' F) as X. cbv zeta in X. replace (field f 8) with 4 in X by (vm_compute; reflexivity). change (16 + 8 * 4) with 48 in X. replace (field f 48) with 0 in X by (vm_compute; reflexivity).
  specialize (X ltac:(lia) ltac:(lia)). replace (zlen f) with 56 in X by (vm_compute; reflexivity). change (56 <? 24 + 8 * 4 + 0) with false in X. cbv iota in X. destruct X as (r' & X1 & X2).
  exists r'. split; [rewrite X1; f_equal|]. unfold selL in X2. replace (field f 8) with 4 in X2 by (vm_compute; reflexivity). change (16 + 8 * 4) with 48 in X2. replace (field f 48) with 0 in X2 by (vm_compute; reflexivity).
  destruct X2 as (_ & _ & _ & (Y1 & Y2 & _) & (Y3 & _)). change (0 =? 0) with true in Y3. cbv iota in Y3. change (4 =? 0) with false in Y1. cbv iota in Y1. destruct A' as (_ & A2 & _). pose proof (slack_ok _ A2).
  unfold select_std. change (1 / 128) with 0. change (1 mod 128) with 1. change (1 =? 0) with false. cbv iota. change (2 * 0) with 0. change (0 + 2) with 2. change (0 + 1) with 1.
  rewrite !geti_ok by lia. cbn [bind]. rewrite !Y2 by lia. replace (field f (16 + 8 * 0)) with 0 by (vm_compute; reflexivity). replace (field f (16 + 8 * 2)) with 1 by (vm_compute; reflexivity). replace (field f (16 + 8 * 1)) with 0 by (vm_compute; reflexivity).
  unfold in_block. destruct (sb_bits r') as [|x l]; [|rewrite zlen_cons in Y3; pose proof (zlen_nonneg l); lia]. vm_compute. reflexivity.
Qed.
Lemma load_over_bad : exists m f, addresses_ok m /\ text_ok f /\ zlen f = 17 /\ load_basic m f = Ub UB_bounds /\ load_sel m f = Ub UB_bounds.
Proof.
  exists (mem_of 0 0), (put64 0 ++ put64 (2 ^ 64 - 16) ++ [1]). split; [apply mem_of_ok; [lia|reflexivity]|]. split; [vm_compute; repeat constructor; intros; discriminate|]. vm_compute. auto.
Qed.
Lemma load_zero_bad : exists f, text_ok f /\ forall m, exists r s, load_basic m f = Ok (Loaded r []) /\ rank_std r 0 = Ub UB_bounds /\ rank_bch r 0 = Ub UB_bounds /\
  load_sel m f = Ok (Loaded s []) /\ select_std 128 4096 s 1 = Ub UB_bounds.
Proof.
  exists (repeat 0 24). split; [apply zeros_ok|]. intros m. exists {| rb_ranks := []; rb_ranks_len := 0; rb_bits := []; rb_bits_len := 0; rb_text_len := 0 |}, {| sb_selects := []; sb_selects_len := 0; sb_bits := []; sb_bits_len := 0; sb_text_len := 0 |}.
  vm_compute. repeat split.
Qed.
