(** RankMPE32 in the terms of the specification: the statements of Properties26. *)
From Coq Require Import ZifyBool.
From Verif Require Import Base BaseFacts Words WordFacts BlockFacts NodeFacts Trees TreeBuild Mem MemFacts Spec BitmapFacts KernelFacts SpecPoppy SpecText SpecFile SpecFile32 PoppyFacts MrRank MrRankFacts MrRankFacts2 MrRankFacts4 MrRankProps MrSelect MrSelectFacts4 MrFile MrFileFacts MrFileFacts2 MrRank32 MrRank32Facts2 MrRank32Facts3 MrRank32Props MrFile32Facts MrFile32Props
  MrMpe SpecMpe MrMpeFacts MrMpeFacts2 MrMpeFacts3 MrMpeFacts4 MrMpeFacts5 MrMpeProps MrMpeUseFacts MrMpe32 MrMpe32Facts MrMpe32Facts2 MrMpe32Facts3 MrMpe32Facts4.
Ltac Zify.zify_post_hook ::= Z.div_mod_to_equations.

Lemma mpeP_Q32 T m jf t temp btc r : addresses_ok m -> mpeP32 T m jf t temp btc r -> mpeQ32 T jf t temp btc r /\ moff T t (nbig t) + 24 <= zlen (mp_bits r).
Proof.
  intros (A1 & A2 & A3 & A4) (P1 & P2 & P3 & P4 & P5 & P6 & P7 & P8 & P9 & P10). pose proof (slack32_ok _ A2). pose proof (slack_b_ok _ A4).
  split; [|lia]. split; [exact P1|]. split; [exact P2|]. split; [lia|]. split; [lia|]. auto.
Qed.
Lemma mpe_answers32 T m jf t temp btc r : addresses_ok m -> 0 < nbig t -> mpeP32 T m jf t temp btc r ->
  forall i, 0 <= i <= 1024 * nbig t -> i < 2 ^ 32 -> rank_of_mpe32 T false r i = Ok (ones_before (text_bits t) i).
Proof.
  intros A Ht P i Hi Hi2. destruct (mpeP_Q32 T m jf t temp btc r A P) as [Q L]. rewrite <- ts_all by lia.
  destruct (rank_mpe32_gen T false jf t temp btc r i Ht Q Hi Hi2) as [R1 R2]. destruct (Z.eq_dec (i / 1024) (nbig t)) as [En|En]; [apply R2; auto|]. rewrite R1 by lia. reflexivity.
Qed.

(** ** C95 *)
Lemma mpe_rank32 T jf m t : addresses_ok m -> text_ok t -> zlen t <= 2 ^ 32 - 128 -> t <> [] -> stored_before T t (big_blocks t) < 2 ^ 32 - 136 ->
  exists r, build_mpe32 T false jf m t = Ok r /\ forall i, 0 <= i <= 1024 * big_blocks t -> i < 2 ^ 32 -> rank_of_mpe32 T false r i = Ok (ones_before (text_bits t) i).
Proof.
  intros A H Hl Ht Hs. apply nbig_pos in Ht. rewrite before_ok in Hs. change (big_blocks t) with (nbig t) in *. destruct (build_mpe32_gen T false jf m t A H Hl ltac:(lia)) as [B _].
  destruct (B Ht eq_refl) as (temp & btc & r & E & P). exists r. split; [exact E|]. exact (mpe_answers32 T m jf t temp btc r A Ht P).
Qed.
Lemma mpe_fits32 T t : zlen t <= 2 ^ 32 - 256 -> stored_before T t (big_blocks t) < 2 ^ 32 - 136.
Proof.
  intros Hl. rewrite before_ok. change (big_blocks t) with (nbig t). pose proof (nbig_nonneg t). pose proof (moff_mono T t 0 (nbig t) ltac:(lia)) as M. rewrite moff_0 in M. unfold nbig in *. lia.
Qed.

(** ** C96 *)
Lemma mpe_empty_build32 T strict jf m : addresses_ok m -> build_mpe32 T strict jf m [] = Ub UB_bounds.
Proof. intros A. apply (build_mpe32_gen T strict jf m [] A); [constructor|discriminate|reflexivity|]. left. reflexivity. Qed.
Lemma mpe_strict_build32 T jf m t : addresses_ok m -> text_ok t -> zlen t < 2 ^ 32 -> build_mpe32 T true jf m t = Ub UB_bounds.
Proof.
  intros A H Hl. destruct (Z_le_gt_dec (zlen t) (2 ^ 32 - 128)) as [L|L]; [|apply build_mpe32_long; lia].
  destruct (Z_lt_le_dec (moff T t (nbig t) + 136) (2 ^ 32)) as [M|M]; [|apply build_mpe32_wrap; auto]. apply (build_mpe32_gen T true jf m t A H L M). auto.
Qed.
Lemma mpe_wrap_build32 T strict jf m t : addresses_ok m -> text_ok t -> zlen t < 2 ^ 32 -> 2 ^ 32 - 136 <= stored_before T t (big_blocks t) -> build_mpe32 T strict jf m t = Ub UB_bounds.
Proof.
  intros A H Hl M. rewrite before_ok in M. change (big_blocks t) with (nbig t) in M. destruct (Z_le_gt_dec (zlen t) (2 ^ 32 - 128)) as [L|L]; [|apply build_mpe32_long; lia]. apply build_mpe32_wrap; auto. lia.
Qed.

Lemma mpe_build_iff32 T jf m t : addresses_ok m -> text_ok t -> zlen t < 2 ^ 32 ->
  ((exists r, build_mpe32 T false jf m t = Ok r) <-> t <> [] /\ zlen t <= 2 ^ 32 - 128 /\ stored_before T t (big_blocks t) < 2 ^ 32 - 136) /\
  ((exists r, build_mpe32 T false jf m t = Ok r) \/ build_mpe32 T false jf m t = Ub UB_bounds).
Proof.
  intros A H Hl. assert (C : (t <> [] /\ zlen t <= 2 ^ 32 - 128 /\ stored_before T t (big_blocks t) < 2 ^ 32 - 136 /\ exists r, build_mpe32 T false jf m t = Ok r) \/
    (~ (t <> [] /\ zlen t <= 2 ^ 32 - 128 /\ stored_before T t (big_blocks t) < 2 ^ 32 - 136) /\ build_mpe32 T false jf m t = Ub UB_bounds)).
  { destruct t as [|x t0] eqn:Et; [right; split; [intros (X & _); congruence|apply mpe_empty_build32; exact A]|]. rewrite <- Et in *. assert (N : t <> []) by (rewrite Et; discriminate). clear Et x t0.
    destruct (Z_le_gt_dec (zlen t) (2 ^ 32 - 128)) as [L|L]; [|right; split; [intros (_ & X & _); lia|apply build_mpe32_long; lia]].
    destruct (Z_lt_le_dec (stored_before T t (big_blocks t)) (2 ^ 32 - 136)) as [M|M].
    - left. split; [exact N|]. split; [exact L|]. split; [exact M|]. destruct (mpe_rank32 T jf m t A H L N M) as (r & E & _). eauto.
    - right. split; [intros (_ & _ & X); lia|]. apply mpe_wrap_build32; auto. }
  destruct C as [(N & L & M & r & E)|(N & E)]; rewrite E; split; eauto; split; eauto. intros (r & X). discriminate. intros X. contradiction.
Qed.

Lemma mpe_strict_rank32 T jf m t r : addresses_ok m -> text_ok t -> zlen t < 2 ^ 32 -> build_mpe32 T false jf m t = Ok r ->
  forall i, 0 <= i < 1024 * big_blocks t -> i < 2 ^ 32 -> let b := i / 1024 in let B := text_bits t in
  rank_of_mpe32 T true r i =
    if ((ones_before B (1024 * (b + 1)) - ones_before B (1024 * b)) mod 1024 =? 0) || (stored_before T t b mod 8 =? 0)
    then Ok (ones_before B i) else Ub UB_align.
Proof.
  intros A H Hl Er i Hi Hi2 b B. destruct (mpe_build_iff32 T jf m t A H Hl) as [[I _] _]. destruct (I (ex_intro _ r Er)) as (N & L & M). rewrite before_ok in M. change (big_blocks t) with (nbig t) in *.
  apply nbig_pos in N. destruct (build_mpe32_gen T false jf m t A H L ltac:(lia)) as [B1 _].
  destruct (B1 N eq_refl) as (temp & btc & r' & Er' & P). rewrite Er in Er'. injection Er' as <-. destruct (mpeP_Q32 T m jf t temp btc r A P) as [Q LB].
  destruct (rank_mpe32_gen T true jf t temp btc r i N Q ltac:(lia) Hi2) as [R1 _]. rewrite R1 by lia. fold b. unfold B. rewrite <- !ts_all by lia. rewrite before_ok.
  rewrite (ts_split t 0 (1024 * b) (1024 * (b + 1))) by lia. rewrite Z.add_simpl_l. fold (bsum t b). unfold bad. cbn [andb].
  destruct (moff T t b mod 8 =? 0), (bsum t b mod 1024 =? 0); reflexivity.
Qed.

Lemma mpe_build_bad32 : exists m t, addresses_ok m /\ text_ok t /\ t <> [] /\ forall T jf, build_mpe32 T true jf m t = Ub UB_bounds.
Proof.
  exists (mem_of 0 0), [5]. split; [exact mem0_ok|]. assert (H : text_ok [5]) by (repeat constructor; lia). split; [exact H|]. split; [discriminate|]. intros T jf.
  apply mpe_strict_build32; [exact mem0_ok|exact H|reflexivity].
Qed.
Lemma mpe_align_bad32 : exists m t, addresses_ok m /\ text_ok t /\ forall jf, exists r, build_mpe32 MPE2 false jf m t = Ok r /\
  rank_of_mpe32 MPE2 false r 1030 = Ok (ones_before (text_bits t) 1030) /\ rank_of_mpe32 MPE2 true r 1030 = Ub UB_align.
Proof.
  exists (mem_of 0 0), odd_text. split; [exact mem0_ok|]. split; [exact odd_text_ok|]. intros jf. assert (L : zlen odd_text = 129) by reflexivity. assert (BB : big_blocks odd_text = 2) by reflexivity.
  destruct (mpe_rank32 MPE2 jf (mem_of 0 0) odd_text mem0_ok odd_text_ok ltac:(lia) ltac:(discriminate) (mpe_fits32 MPE2 odd_text ltac:(lia))) as (r & E & R). exists r. split; [exact E|]. split; [apply R; lia|].
  rewrite (mpe_strict_rank32 MPE2 jf (mem_of 0 0) odd_text r mem0_ok odd_text_ok ltac:(lia) E) by lia.
  vm_compute. reflexivity.
Qed.

(** All bytes 1: no block is uniform, no pair is left out. *)
Lemma ones_stored T t b : (forall k, 0 <= k < zlen t -> zn 0 t k = 1) -> 0 <= b -> 128 * (b + 1) <= zlen t -> stored T t b = 128.
Proof.
  intros H1 Hb Hl. assert (I : forall v j, v <> 1 -> 0 <= j < 64 -> isp v t b j = false) by (intros v j Hv Hj; unfold isp; rewrite H1 by lia; replace (1 =? v) with false by lia; reflexivity).
  assert (N : forall v, v <> 1 -> np v t b 64 = 0) by (intros v Hv; apply sumf_const0; intros j Hj; rewrite I by auto; reflexivity).
  unfold stored. replace (homob2 t b) with false.
  2:{ symmetry. unfold homob2, bsum. apply andb_false_intro2.
      assert (T0 : tb t (1024 * b) = 0) by (unfold tb; replace (1024 * b / 8) with (128 * b) by lia; rewrite H1 by lia; replace ((1024 * b) mod 8) with 0 by lia; reflexivity).
      assert (T7 : tb t (1024 * b + 7) = 1) by (unfold tb; replace ((1024 * b + 7) / 8) with (128 * b) by lia; rewrite H1 by lia; replace ((1024 * b + 7) mod 8) with 7 by lia; reflexivity).
      destruct (ts t (1024 * b) (1024 * (b + 1)) =? 0) eqn:E0; [pose proof (ts_zero t (1024 * b) (1024 * (b + 1)) ltac:(lia) ltac:(lia) (1024 * b + 7) ltac:(lia)); lia|].
      destruct (ts t (1024 * b) (1024 * (b + 1)) =? 1024) eqn:E1; [pose proof (ts_full t (1024 * b) (1024 * (b + 1)) ltac:(lia) ltac:(lia) (1024 * b) ltac:(lia)); lia|]. reflexivity. }
  rewrite nrm_parts by lia. unfold dz, d1. rewrite !N by lia. destruct T; reflexivity.
Qed.
Lemma ones_moff T t b : (forall k, 0 <= k < zlen t -> zn 0 t k = 1) -> 0 <= b -> 128 * b <= zlen t -> moff T t b = 128 * b.
Proof.
  intros H1. revert b. apply (natlike_ind (fun b => 128 * b <= zlen t -> moff T t b = 128 * b)); [reflexivity|]. intros b Hb IH Hl. rewrite <- Z.add_1_r in *. rewrite moff_succ by lia.
  rewrite IH by lia. rewrite ones_stored by (auto; lia). lia.
Qed.
Lemma ones_before32 T t : (forall k, 0 <= k < zlen t -> zn 0 t k = 1) -> zlen t = 2 ^ 32 - 128 -> stored_before T t (big_blocks t) = 2 ^ 32 - 128.
Proof. intros H1 Hl. rewrite before_ok. assert (E : big_blocks t = 2 ^ 25 - 1) by (unfold big_blocks; lia). rewrite E. rewrite ones_moff by (auto; lia). reflexivity. Qed.
Lemma mpe_wrap_bad32 : exists m t, addresses_ok m /\ text_ok t /\ zlen t = 2 ^ 32 - 128 /\ forall T jf, build_mpe32 T false jf m t = Ub UB_bounds.
Proof.
  assert (G : forall t, text_ok t -> zlen t = 2 ^ 32 - 128 -> (forall k, 0 <= k < zlen t -> zn 0 t k = 1) -> exists m t, addresses_ok m /\ text_ok t /\ zlen t = 2 ^ 32 - 128 /\ forall T jf, build_mpe32 T false jf m t = Ub UB_bounds).
  { intros t H Hl H1. exists (mem_of 0 0), t. split; [exact mem0_ok|]. split; [exact H|]. split; [exact Hl|]. intros T jf. apply mpe_wrap_build32; [exact mem0_ok|exact H|lia|]. rewrite ones_before32 by auto. lia. }
  apply (G (repeat 1 (Z.to_nat (2 ^ 32 - 128)))); clear G.
  - apply Forall_forall. intros x Hx. apply repeat_spec in Hx. lia.
  - rewrite zlen_repeat. lia.
  - rewrite zlen_repeat. intros k Hk. apply zn_same. lia.
Qed.

(** ** C97 *)
Lemma mpe_sizes32 T jf m t r : addresses_ok m -> text_ok t -> zlen t < 2 ^ 32 -> build_mpe32 T false jf m t = Ok r ->
  mpe_text_size32 r = zlen t /\ mpe_size32 r = 72 * (big_blocks t / 16 + 1) + 292 + stored_before T t (big_blocks t).
Proof.
  intros A H Hl Er. destruct (mpe_build_iff32 T jf m t A H Hl) as [[I _] _]. destruct (I (ex_intro _ r Er)) as (N & L & M). rewrite before_ok in *. change (big_blocks t) with (nbig t) in *.
  apply nbig_pos in N. destruct (build_mpe32_gen T false jf m t A H L ltac:(lia)) as [B1 _].
  destruct (B1 N eq_refl) as (temp & btc & r' & Er' & P). rewrite Er in Er'. injection Er' as <-.
  destruct P as (P1 & P2 & P3 & P4 & P5 & P6 & P7 & _). unfold mpe_text_size32, mpe_size32. rewrite P5, P6, P7. pose proof (zlen_nonneg t). split; [apply wrap_small; lia|].
  pose proof (moff_mono T t 0 (nbig t) ltac:(lia)) as M0. rewrite moff_0 in M0. pose proof (nbig32 t L) as NB.
  replace (18 * (nbig t / 16 + 1) >? 0) with true by lia. replace (moff T t (nbig t) + 8 >? 0) with true by lia. rewrite (wrap_small 32 (18 * (nbig t / 16 + 1) + 32)) by lia.
  rewrite (wrap_small 32 (moff T t (nbig t) + 8 + 128)) by lia. rewrite wrap_small; lia.
Qed.

(** ** C98 *)
Lemma mp_int_bound T jf t temp btc s k : 0 < nbig t -> moff T t (nbig t) < 2 ^ 32 -> tempM32 T t temp -> 0 <= s <= nbig t / 16 -> 0 <= k < 18 -> 0 <= mp_int T jf temp btc s k < 2 ^ 32.
Proof.
  intros Hn Hm (L & T1 & T2) Hs Hk. unfold mp_int, lw32. destruct (k =? 0); [rewrite T1 by lia; apply wrap_bound; lia|].
  destruct (k <=? 8); [apply wrap_bound; lia|]. destruct (k =? 9); [|destruct (k =? 10); apply wrap_bound; lia].
  rewrite T2 by lia. unfold po. pose proof (moff_mono T t 0 (Z.min (16 * s) (nbig t - 1)) ltac:(lia)) as M. rewrite moff_0 in M.
  pose proof (moff_mono T t (Z.min (16 * s) (nbig t - 1)) (nbig t) ltac:(lia)) as M2. lia.
Qed.
Lemma mpe_same32 T m m' jf t temp btc r r' : addresses_ok m' -> 0 < nbig t -> moff T t (nbig t) < 2 ^ 32 -> mpeP32 T m jf t temp btc r -> sameM32 m' r r' -> mpeP32 T m' jf t temp btc r'.
Proof.
  intros A Hn Hm (P1 & P2 & P3 & P4 & P5 & P6 & P7 & P8 & P9 & P10) (S1 & S2 & S3 & (W1 & W2 & W3) & (V1 & V2 & V3)). rewrite P5 in *. rewrite P6 in *. rewrite P7 in *.
  pose proof (moff_mono T t 0 (nbig t) ltac:(lia)) as M0. rewrite moff_0 in M0. replace (18 * (nbig t / 16 + 1) =? 0) with false in W1 by lia. replace (moff T t (nbig t) + 8 =? 0) with false in V1 by lia.
  split; [exact P1|]. split; [exact P2|]. split; [exact W1|]. split; [exact V1|]. split; [exact S2|]. split; [exact S3|]. split; [exact S1|]. split; [|split].
  - intros k Hk. destruct (Z_lt_le_dec k (moff T t (nbig t) + 8)); [rewrite V2 by lia; apply P8; exact Hk|].
    destruct (Z_lt_le_dec k (zlen (mp_bits r'))); [rewrite V3 by lia; apply wrap_bound; lia|]. rewrite zn_over by lia. lia.
  - intros c k Hc Hk. rewrite W2 by lia. rewrite P9 by lia. apply Z.mod_small. eapply mp_int_bound; eauto.
  - intros c Hc Eh. pose proof (moff_mono T t 0 c ltac:(lia)) as M1. rewrite moff_0 in M1. pose proof (moff_mono T t (c + 1) (nbig t) ltac:(lia)) as M2. rewrite moff_succ in M2 by lia.
    assert (EL : stored T t c = blen T t c) by (unfold stored, blen; rewrite Eh; reflexivity).
    apply (blockOk_frame T t c (mp_bits r)); [lia| |apply P10; auto]. intros k Hk. apply V2. lia.
Qed.
Lemma mpe_file32 T jf m m' t : addresses_ok m -> addresses_ok m' -> text_ok t -> zlen t <= 2 ^ 32 - 128 -> t <> [] -> stored_before T t (big_blocks t) < 2 ^ 32 - 136 ->
  exists r f, build_mpe32 T false jf m t = Ok r /\ save_mpe32 r = Ok f /\ zlen f = 92 + 72 * (big_blocks t / 16) + stored_before T t (big_blocks t) /\
    (forall rest, text_ok rest -> exists r', load_mpe32 m' (f ++ rest) = Ok (Loaded r' rest) /\ mpe_text_size32 r' = zlen t /\
       forall i, 0 <= i <= 1024 * big_blocks t -> i < 2 ^ 32 -> rank_of_mpe32 T false r' i = Ok (ones_before (text_bits t) i)) /\
    (forall k, 0 <= k < zlen f -> load_mpe32 m' (firstn (Z.to_nat k) f) = Ok Exits).
Proof.
  intros A A' H Hl Ht Hs. apply nbig_pos in Ht. rewrite before_ok in *. change (big_blocks t) with (nbig t) in *. destruct (build_mpe32_gen T false jf m t A H Hl ltac:(lia)) as [B _].
  destruct (B Ht eq_refl) as (temp & btc & r & E & P). pose proof P as (P1 & P2 & P3 & P4 & P5 & P6 & P7 & P8 & P9 & P10).
  pose proof (zlen_nonneg t) as Z0. pose proof (nbig32 t Hl) as NB. pose proof (moff_mono T t 0 (nbig t) ltac:(lia)) as M0. rewrite moff_0 in M0.
  pose proof A as (A1 & A2 & A3 & A4). pose proof (slack32_ok _ A2). pose proof (slack_b_ok _ A4).
  destruct (mpe_round32 m' r A' ltac:(lia) ltac:(lia) ltac:(lia) ltac:(lia) ltac:(lia) (text_ok_byteful _ P8)) as (f & F1 & F2 & F3 & F4 & F5).
  exists r, f. split; [exact E|]. split; [exact F1|]. split; [lia|]. split.
  - intros rest Hr. destruct (F4 rest Hr) as (r' & R1 & R2). exists r'. split; [exact R1|]. pose proof (mpe_same32 T m m' jf t temp btc r r' A' Ht ltac:(lia) P R2) as P'.
    split; [destruct R2 as (S1 & _); unfold mpe_text_size32; rewrite S1, P7; apply wrap_small; lia|]. exact (mpe_answers32 T m' jf t temp btc r' A' Ht P').
  - exact F5.
Qed.
Lemma mpe_any32 m f : addresses_ok m -> text_ok f -> let a := int_field f 4 in let b := int_field f (8 + 4 * a) in a < 2 ^ 32 - 32 -> b < 2 ^ 32 - 128 ->
  if zlen f <? 12 + 4 * a + b then load_mpe32 m f = Ok Exits
  else exists r, load_mpe32 m f = Ok (Loaded r (skipn (Z.to_nat (12 + 4 * a + b)) f)) /\ mpe_text_size32 r = int_field f 0 /\
    (forall k, 0 <= k < a -> zn 0 (mp_ranks r) k = int_field f (8 + 4 * k)) /\ (forall k, 0 <= k < b -> zn 0 (mp_bits r) k = zn 0 f (12 + 4 * a + k)).
Proof.
  intros A F a b Ha Hb. pose proof (load_mpe32_any m f A F Ha Hb) as X. fold a in X. fold b in X. destruct (zlen f <? 12 + 4 * a + b); [exact X|].
  destruct X as (r & X1 & X2). exists r. split; [exact X1|]. unfold mpeL32 in X2. fold a in X2. fold b in X2. destruct X2 as (Y1 & Y2 & Y3 & (Y4 & Y5 & _) & (Y6 & Y7 & _)).
  split; [unfold mpe_text_size32; rewrite Y1; apply wrap_small; apply int_bound; exact F|]. split; [exact Y5|exact Y7].
Qed.
Lemma bytes_over32 junk addr len f : 2 ^ 32 - 128 <= len < 2 ^ 32 -> 127 < zlen f -> get_bytes32 junk addr len f = Ub UB_bounds.
Proof.
  intros Hl Hf. unfold get_bytes32. replace (len >? 0) with true by lia. replace (u32 (len + 128)) with (len + 128 - 2 ^ 32) by (unfold wrap; rewrite <- (Z.mod_unique (len + 128) (2 ^ 32) 1 (len + 128 - 2 ^ 32)); lia).
  pose proof (Z.mod_pos_bound (- addr) 128 ltac:(lia)). replace (Z.min len (zlen f) >? Z.max 0 (len + 128 - 2 ^ 32 - (- addr) mod 128)) with true by lia. reflexivity.
Qed.
Lemma mpe_over32 m f : addresses_ok m -> text_ok f -> 132 < zlen f -> 2 ^ 32 - 32 <= int_field f 4 -> load_mpe32 m f = Ub UB_bounds.
Proof.
  intros (A1 & A2 & A3 & A4) F Hf Hl. pose proof (int_bound f 4 F) as Ba. unfold load_mpe32.
  pose proof (get32_at f 0 ltac:(lia)) as G0. change (drop 0 f) with f in G0. rewrite G0. clear G0. change (0 + 4) with 4. replace (4 <=? zlen f) with true by lia. cbn [andthen].
  rewrite get32_at by lia. change (4 + 4) with 8. replace (8 <=? zlen f) with true by lia. cbn [andthen]. rewrite ints_over by (rewrite ?zlen_drop_any; lia). reflexivity.
Qed.
Lemma mpe_over_bits32 m f : addresses_ok m -> text_ok f -> let a := int_field f 4 in a < 2 ^ 32 - 32 -> 139 + 4 * a < zlen f -> 2 ^ 32 - 128 <= int_field f (8 + 4 * a) -> load_mpe32 m f = Ub UB_bounds.
Proof.
  intros (A1 & A2 & A3 & A4) F a Ha Hf Hl. pose proof (int_bound f 4 F) as Ba. fold a in Ba. pose proof (int_bound f (8 + 4 * a) F) as Bb. unfold load_mpe32.
  pose proof (get32_at f 0 ltac:(lia)) as G0. change (drop 0 f) with f in G0. rewrite G0. clear G0. change (0 + 4) with 4. replace (4 <=? zlen f) with true by lia. cbn [andthen].
  rewrite get32_at by lia. change (4 + 4) with 8. replace (8 <=? zlen f) with true by lia. cbn [andthen]. fold a.
  pose proof (get_ints_at (m_junk_r m) (m_addr_r m) a f 8 ltac:(lia) ltac:(lia) A2) as G1. replace (8 + 4 * a <=? zlen f) with true in G1 by lia. destruct G1 as (x & -> & _). cbn [bind andthen].
  rewrite get32_at by lia. replace (8 + 4 * a + 4 <=? zlen f) with true by lia. cbn [andthen]. rewrite bytes_over32 by (rewrite ?zlen_drop_any; lia). reflexivity.
Qed.
Lemma mpe_load_bad32 : exists m f, addresses_ok m /\ text_ok f /\ zlen f = 13 /\ load_mpe32 m f = Ub UB_bounds.
Proof.
  exists (mem_of 0 0), (put32 0 ++ put32 0 ++ put32 (2 ^ 32 - 128) ++ [1]).
  split; [exact mem0_ok|]. split; [vm_compute; repeat constructor; intros; discriminate|]. vm_compute. auto.
Qed.
Lemma mpe_zero_bad32 : exists f, text_ok f /\ forall m T strict, exists r, load_mpe32 m f = Ok (Loaded r []) /\ rank_of_mpe32 T strict r 0 = Ub UB_bounds.
Proof.
  exists (repeat 0 12). split; [apply zeros_ok|]. intros m T strict. exists {| mp_ranks := []; mp_ranks_len := 0; mp_bits := []; mp_bits_len := 0; mp_text_len := 0 |}. split; reflexivity.
Qed.

Lemma mpe_self32 T jf m t : addresses_ok m -> text_ok t -> zlen t <= 2 ^ 32 - 128 -> t <> [] -> stored_before T t (big_blocks t) < 2 ^ 32 - 136 ->
  exists r, build_mpe32 T false jf m t = Ok r /\ (test_rank32 (rank_of_mpe32 T false r) t = Ok [] <->
    forall i, 1 <= i <= zlen (text_bits t) -> ones_before (text_bits t) (i mod 2 ^ 32) = ones_before (text_bits t) i mod 2 ^ 32).
Proof.
  intros A H Hl Ht Hs. destruct (mpe_rank32 T jf m t A H Hl Ht Hs) as (r & E & R). exists r. split; [exact E|]. apply self_test32. rewrite zlen_text_bits. intros i Hi Hi2. apply R; [|exact Hi2]. unfold big_blocks. lia.
Qed.
Lemma mpe_silent32 T jf m t : addresses_ok m -> text_ok t -> zlen t < 2 ^ 29 -> t <> [] -> exists r, build_mpe32 T false jf m t = Ok r /\ test_rank32 (rank_of_mpe32 T false r) t = Ok [].
Proof. intros A H Hl Ht. destruct (mpe_self32 T jf m t A H ltac:(lia) Ht (mpe_fits32 T t ltac:(lia))) as (r & E & R). exists r. split; [exact E|]. apply R. apply wrap_short. exact Hl. Qed.
Lemma mpe_noisy32 T jf m t : addresses_ok m -> text_ok t -> 2 ^ 29 <= zlen t <= 2 ^ 32 - 128 -> stored_before T t (big_blocks t) < 2 ^ 32 - 136 -> 0 < ones_before (text_bits t) (2 ^ 32) < 2 ^ 32 ->
  exists r, build_mpe32 T false jf m t = Ok r /\ test_rank32 (rank_of_mpe32 T false r) t <> Ok [].
Proof.
  intros A H Hl Hs O. assert (Ht : t <> []) by (intros ->; change (zlen (@nil Z)) with 0 in Hl; lia). destruct (mpe_self32 T jf m t A H ltac:(lia) Ht Hs) as (r & E & R). exists r. split; [exact E|]. rewrite R. apply wrap_long; [lia|exact O].
Qed.
