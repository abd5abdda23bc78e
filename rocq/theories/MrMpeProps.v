(** RankMPE64 in the terms of the specification. *)
From Coq Require Import ZifyBool.
From Verif Require Import Base BaseFacts Words WordFacts BlockFacts NodeFacts Trees TreeBuild Mem MemFacts Spec BitmapFacts KernelFacts SpecPoppy PoppyFacts PoppyFacts2 SpecText MrRank MrRankFacts MrRankFacts2 MrRankFacts3 MrRankFacts4 MrRankProps MrMpe SpecMpe MrMpeFacts MrMpeFacts2 MrMpeFacts3 MrMpeFacts4 MrMpeFacts5.
Ltac Zify.zify_post_hook ::= Z.div_mod_to_equations.

Lemma big_bit t b k : 0 <= b -> 0 <= k < 1024 -> bit (big_bits t b) k = bit (text_bits t) (1024 * b + k).
Proof.
  intros Hb Hk. unfold bit, zn, big_bits. replace (Z.to_nat (1024 * b + k)) with (Z.to_nat (1024 * b) + Z.to_nat k)%nat by lia.
  rewrite <- nth_skipn'. remember (skipn (Z.to_nat (1024 * b)) (text_bits t)) as l. clear Heql.
  rewrite nth_firstn' by lia. reflexivity.
Qed.
Lemma zlen_big t b : 0 <= b -> zlen (big_bits t b) = Z.max 0 (Z.min 1024 (8 * zlen t - 1024 * b)).
Proof.
  intros Hb. unfold big_bits. unfold zlen at 1. rewrite firstn_length, skipn_length. pose proof (zlen_text_bits t) as Z1. unfold zlen in Z1 at 1. pose proof (zlen_nonneg t). lia.
Qed.
Lemma big_uniform_ok t b : 0 <= b -> big_uniform t b = homob2 t b.
Proof.
  intros Hb. unfold big_uniform, homob2, bsum. pose proof (zlen_nonneg t). pose proof (zlen_big t b Hb) as ZB.
  destruct (zlen (big_bits t b) =? 1024) eqn:E; cbn [andb].
  2:{ replace (128 * (b + 1) <=? zlen t) with false by lia. reflexivity. }
  replace (128 * (b + 1) <=? zlen t) with true by lia. cbn [andb].
  assert (BT : forall k, 0 <= k < 1024 -> b2z (bit (big_bits t b) k) = tb t (1024 * b + k)).
  { intros k Hk. rewrite big_bit by lia. rewrite tb_bit by lia. reflexivity. }
  f_equal.
  - apply eq_true_iff_eq. rewrite forallb_bits, Z.eqb_eq. split.
    + intros A. apply ts_all0. intros i Hi. specialize (A (i - 1024 * b) ltac:(lia)). specialize (BT (i - 1024 * b) ltac:(lia)).
      replace (1024 * b + (i - 1024 * b)) with i in BT by lia. rewrite <- BT. destruct (bit (big_bits t b) (i - 1024 * b)); [discriminate|reflexivity].
    + intros A k Hk. specialize (BT k ltac:(lia)). rewrite (ts_zero t (1024 * b) (1024 * (b + 1)) ltac:(lia) A) in BT by lia.
      destruct (bit (big_bits t b) k); [discriminate|reflexivity].
  - apply eq_true_iff_eq. rewrite forallb_bits, Z.eqb_eq. split.
    + intros A. rewrite ts_all1; [lia|lia|]. intros i Hi. specialize (A (i - 1024 * b) ltac:(lia)). specialize (BT (i - 1024 * b) ltac:(lia)).
      replace (1024 * b + (i - 1024 * b)) with i in BT by lia. rewrite <- BT, A. reflexivity.
    + intros A k Hk. specialize (BT k ltac:(lia)). rewrite (ts_full t (1024 * b) (1024 * (b + 1)) ltac:(lia) ltac:(lia)) in BT by lia.
      destruct (bit (big_bits t b) k); [reflexivity|discriminate].
Qed.

Lemma stored_ok T t b : 0 <= b -> stored_bytes T t b = stored T t b.
Proof.
  intros Hb. unfold stored_bytes, stored. rewrite big_uniform_ok by lia. destruct (homob2 t b); [reflexivity|]. rewrite !pairs_of_ok, nrm_parts by lia.
  unfold dz, d1, hd. destruct (drops_zeros T (np 0 t b 64) (np 255 t b 64)), (drops_ones T (np 0 t b 64) (np 255 t b 64)); cbn [b2z]; lia.
Qed.
Lemma before_ok T t b : stored_before T t b = moff T t b.
Proof. unfold stored_before, moff. apply sumf_ext. intros c Hc. apply stored_ok. lia. Qed.

Lemma nbig_pos t : t <> [] -> 0 < nbig t.
Proof. intros H. unfold nbig. pose proof (zlen_nonneg t). destruct t as [|x t]; [congruence|]. rewrite zlen_cons in *. pose proof (zlen_nonneg t). lia. Qed.
Lemma mpeP_Q T m jf t temp btc r : addresses_ok m -> mpeP T m jf t temp btc r -> mpeQ T jf t temp btc r /\ moff T t (nbig t) + 24 <= zlen (mp_bits r).
Proof.
  intros (A1 & A2 & A3 & A4) (P1 & P2 & P3 & P4 & P5 & P6 & P7 & P8 & P9 & P10). pose proof (slack_ok _ A2). pose proof (slack_b_ok _ A4).
  split; [|lia]. split; [exact P1|]. split; [exact P2|]. split; [lia|]. split; [lia|]. auto.
Qed.

(** ** C73 *)
Lemma mpe_rank : forall T jf m t, addresses_ok m -> text_ok t -> zlen t < 2 ^ 58 -> t <> [] ->
  exists r, build_mpe T false jf m t = Ok r /\ forall i, 0 <= i <= 1024 * big_blocks t -> rank_of_mpe T false r i = Ok (ones_before (text_bits t) i).
Proof.
  intros T jf m t A H Hl Ht. apply nbig_pos in Ht. destruct (build_mpe_gen T false jf m t A H Hl) as [B _].
  destruct (B Ht ltac:(auto)) as (temp & btc & r & E & P). exists r. split; [exact E|]. intros i Hi. change (big_blocks t) with (nbig t) in Hi.
  destruct (mpeP_Q T m jf t temp btc r A P) as [Q L]. rewrite <- ts_all by lia.
  destruct (rank_mpe_gen T false jf t temp btc r i H Hl Ht Q Hi) as [R1 R2]. destruct (Z.eq_dec (i / 1024) (nbig t)) as [En|En]; [apply R2; auto|]. rewrite R1 by lia. reflexivity.
Qed.

(** ** C74 *)
Lemma mpe_empty_build : forall T strict jf m, addresses_ok m -> build_mpe T strict jf m [] = Ub UB_bounds.
Proof. intros T strict jf m A. apply (build_mpe_gen T strict jf m [] A); [constructor|reflexivity|]. left. reflexivity. Qed.

Lemma mpe_strict_build : forall T jf m t, addresses_ok m -> text_ok t -> zlen t < 2 ^ 58 ->
  if big_blocks t mod 16 =? 15 then exists r, build_mpe T true jf m t = Ok r else build_mpe T true jf m t = Ub UB_bounds.
Proof.
  intros T jf m t A H Hl. change (big_blocks t) with (nbig t). destruct (build_mpe_gen T true jf m t A H Hl) as [B1 B2]. pose proof (nbig_nonneg t).
  destruct (nbig t mod 16 =? 15) eqn:E.
  - destruct (B1 ltac:(lia) ltac:(lia)) as (temp & btc & r & Er & _). eauto.
  - apply B2. right. split; [reflexivity|lia].
Qed.

Lemma mpe_strict_rank : forall T strict jf m t r, addresses_ok m -> text_ok t -> zlen t < 2 ^ 58 -> build_mpe T strict jf m t = Ok r ->
  forall i, 0 <= i < 1024 * big_blocks t -> let b := i / 1024 in let B := text_bits t in
  rank_of_mpe T true r i =
    if ((ones_before B (1024 * (b + 1)) - ones_before B (1024 * b)) mod 1024 =? 0) || (stored_before T t b mod 8 =? 0)
    then Ok (ones_before B i) else Ub UB_align.
Proof.
  intros T strict jf m t r A H Hl Er i Hi b B. change (big_blocks t) with (nbig t) in Hi. destruct (build_mpe_gen T strict jf m t A H Hl) as [B1 B2]. pose proof (nbig_nonneg t) as N0.
  destruct (Z.eq_dec (nbig t) 0) as [E0|E0]; [lia|].
  assert (C : strict = false \/ nbig t mod 16 = 15).
  { destruct strict; [|auto]. right. destruct (Z.eq_dec (nbig t mod 16) 15) as [E|E]; [exact E|]. rewrite B2 in Er by auto. discriminate. }
  destruct (B1 ltac:(lia) C) as (temp & btc & r' & Er' & P). rewrite Er in Er'. injection Er' as <-. destruct (mpeP_Q T m jf t temp btc r A P) as [Q L].
  destruct (rank_mpe_gen T true jf t temp btc r i H Hl ltac:(lia) Q ltac:(lia)) as [R1 _]. rewrite R1 by lia. fold b. unfold B. rewrite <- !ts_all by lia. rewrite before_ok.
  rewrite (ts_split t 0 (1024 * b) (1024 * (b + 1))) by lia. rewrite Z.add_simpl_l. fold (bsum t b). unfold bad. cbn [andb].
  destruct (moff T t b mod 8 =? 0), (bsum t b mod 1024 =? 0); reflexivity.
Qed.

Lemma mem0_ok : addresses_ok (mem_of 0 0).
Proof. apply mem_of_ok; [lia|reflexivity]. Qed.

Lemma mpe_empty_bad : exists m, addresses_ok m /\ forall T strict jf, build_mpe T strict jf m [] = Ub UB_bounds.
Proof. exists (mem_of 0 0). split; [exact mem0_ok|]. intros. apply mpe_empty_build. exact mem0_ok. Qed.
Lemma mpe_build_bad : exists m t, addresses_ok m /\ text_ok t /\ forall T jf, build_mpe T true jf m t = Ub UB_bounds.
Proof.
  exists (mem_of 0 0), [5]. split; [exact mem0_ok|]. assert (H : text_ok [5]) by (repeat constructor; lia). split; [exact H|]. intros T jf.
  apply (mpe_strict_build T jf (mem_of 0 0) [5] mem0_ok H). reflexivity.
Qed.

Definition odd_text : list Z := repeat 0 26 ++ repeat 1 102 ++ [7].
Lemma odd_text_ok : text_ok odd_text.
Proof. unfold odd_text, text_ok. rewrite !Forall_app. split; [|split]; [apply Forall_forall; intros x Hx; apply repeat_spec in Hx; lia..|]. repeat constructor; lia. Qed.
Lemma mpe_align_bad : exists m t, addresses_ok m /\ text_ok t /\ forall jf, exists r, build_mpe MPE2 false jf m t = Ok r /\
  rank_of_mpe MPE2 false r 1030 = Ok (ones_before (text_bits t) 1030) /\ rank_of_mpe MPE2 true r 1030 = Ub UB_align.
Proof.
  exists (mem_of 0 0), odd_text. split; [exact mem0_ok|]. split; [exact odd_text_ok|]. intros jf.
  destruct (mpe_rank MPE2 jf (mem_of 0 0) odd_text mem0_ok odd_text_ok ltac:(reflexivity) ltac:(discriminate)) as (r & E & R). exists r. split; [exact E|]. split; [apply R; change (big_blocks odd_text) with 2; lia|].
  rewrite (mpe_strict_rank MPE2 false jf (mem_of 0 0) odd_text r mem0_ok odd_text_ok ltac:(reflexivity) E) by (change (big_blocks odd_text) with 2; lia).
  vm_compute. reflexivity.
Qed.

(** ** C75 *)
Lemma mpe_sizes : forall T jf m t r, addresses_ok m -> text_ok t -> zlen t < 2 ^ 58 -> build_mpe T false jf m t = Ok r ->
  mpe_text_size r = zlen t /\ mpe_size r = 80 * (big_blocks t / 16 + 1) + 304 + stored_before T t (big_blocks t).
Proof.
  intros T jf m t r A H Hl Er. change (big_blocks t) with (nbig t). destruct (build_mpe_gen T false jf m t A H Hl) as [B1 B2]. pose proof (nbig_nonneg t) as N0.
  destruct (Z.eq_dec (nbig t) 0) as [E0|E0]; [rewrite B2 in Er by auto; discriminate|]. destruct (B1 ltac:(lia) ltac:(auto)) as (temp & btc & r' & Er' & P). rewrite Er in Er'. injection Er' as <-.
  destruct P as (P1 & P2 & P3 & P4 & P5 & P6 & P7 & _). unfold mpe_text_size, mpe_size. rewrite P5, P6, P7. split; [reflexivity|]. rewrite before_ok.
  pose proof (moff_mono T t 0 (nbig t) ltac:(lia)) as M. rewrite moff_0 in M. pose proof (zlen_nonneg t). assert (NB : nbig t <= 2 ^ 52) by (unfold nbig; lia).
  replace (10 * (nbig t / 16 + 1) >? 0) with true by lia. replace (moff T t (nbig t) + 8 >? 0) with true by lia. rewrite wrap_small; lia.
Qed.
Lemma mpe_stored : forall T t b, 0 <= b -> 0 <= stored_bytes T t b <= 128 /\
  (drops_zeros T (pairs_of 0 t b) (pairs_of 255 t b) = true \/ drops_ones T (pairs_of 0 t b) (pairs_of 255 t b) = true -> stored_bytes T t b <= 126).
Proof.
  intros T t b Hb. pose proof (stored_bound T t b) as S0. rewrite <- stored_ok in S0 by lia. split; [exact S0|]. unfold stored_bytes. rewrite !pairs_of_ok.
  pose proof (np_bound 0 t b). pose proof (np_bound 255 t b). set (n0 := np 0 t b 64) in *. set (n1 := np 255 t b 64) in *. clearbody n0 n1. intros D.
  destruct (big_uniform t b); [lia|]. destruct T; unfold drops_zeros, drops_ones in *.
  - destruct (n0 + n1 >? 8) eqn:E; lia.
  - destruct (n0 >? 4) eqn:E, (n1 >? 4) eqn:E1; lia.
  - destruct ((n0 >=? 10) && (n1 >=? 10) || (n0 >=? 18) && (n1 <=? 9)) eqn:E; destruct ((n0 >=? 10) && (n1 >=? 10) || (n1 >=? 18) && (n0 <=? 9)) eqn:E1; lia.
Qed.
