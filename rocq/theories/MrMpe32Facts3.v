(** RankMPE32: lengths that do not fit in unsigned int. *)
From Coq Require Import ZifyBool.
From Verif Require Import Base BaseFacts Words WordFacts BlockFacts NodeFacts Trees TreeBuild Mem MemFacts Spec BitmapFacts KernelFacts SpecPoppy PoppyFacts PoppyFacts2 SpecText MrRank MrRankFacts MrRankFacts2 MrRankFacts3 MrMpe SpecMpe MrMpeFacts MrMpeFacts2 MrMpeFacts3 MrRank32 MrRank32Facts MrRank32Facts2 MrMpe32 MrMpe32Facts.
Ltac Zify.zify_post_hook ::= Z.div_mod_to_equations.

Lemma seti_bad (l : list Z) k v : zlen l <= k -> seti l k v = Ub UB_bounds.
Proof. intros H. unfold seti. replace ((0 <=? k) && (k <? zlen l)) with false by lia. reflexivity. Qed.

Lemma cnt_all R : forall n, 0 <= n -> (forall j, 0 <= j < n -> R j = true) -> cnt R n = n.
Proof.
  apply (natlike_ind (fun n => (forall j, 0 <= j < n -> R j = true) -> cnt R n = n)); [reflexivity|]. intros n Hn IH H. rewrite <- Z.add_1_r, cnt_succ by lia.
  rewrite IH by (intros; apply H; lia). rewrite H by lia. reflexivity.
Qed.

Lemma one_bad v R t temp b off bits base : blockAt t temp b off -> (forall j, 0 <= j < 64 -> isp v t b j = R j) -> cnt R 64 < 64 -> 0 <= base -> zlen bits <= base ->
  foldM (one_pair v temp off) (zrange 0 64) (bits, base, 0) = Ub UB_bounds.
Proof.
  intros B HR C Hb Hl. pose proof B as (B0 & B1 & B2).
  destruct (fold_fail (one_pair v temp off) (fun k s => (exists w, s = (bits, base, w)) /\ forall j, 0 <= j < k -> R j = true) (fun _ => True) 64 ltac:(auto) 0 (bits, base, 0)) as [(s & _ & _ & A)|(E & _)].
  - split; [eauto|intros; lia].
  - intros k s Hk ((w & ->) & A). unfold one_pair. rewrite (pair_eq_ok v t temp b) by (auto; lia). cbn [bind]. rewrite HR by lia. destruct (R k) eqn:E.
    + left. eexists. split; [reflexivity|]. split; [eauto|]. intros j Hj. destruct (Z.eq_dec j k) as [->|]; [exact E|apply A; lia].
    + right. rewrite geti_ok by lia. cbn [bind]. rewrite seti_bad by lia. auto.
  - change (0 + Z.of_nat 64) with 64 in A. rewrite cnt_all in C by (auto; lia). lia.
  - exact E.
Qed.
Lemma both_bad R t temp b off bits base : blockAt t temp b off -> (forall j, 0 <= j < 64 -> isp 0 t b j || isp 255 t b j = R j) -> cnt R 64 < 64 -> 0 <= base -> zlen bits <= base ->
  foldM (both_pair temp off) (zrange 0 64) (bits, base, 0, 0) = Ub UB_bounds.
Proof.
  intros B HR C Hb Hl. pose proof B as (B0 & B1 & B2).
  destruct (fold_fail (both_pair temp off) (fun k s => (exists w w2, s = (bits, base, w, w2)) /\ forall j, 0 <= j < k -> R j = true) (fun _ => True) 64 ltac:(auto) 0 (bits, base, 0, 0)) as [(s & _ & _ & A)|(E & _)].
  - split; [eauto|intros; lia].
  - intros k s Hk ((w & w2 & ->) & A). unfold both_pair. rewrite !(pair_eq_ok _ t temp b) by (auto; lia). cbn [bind].
    assert (G : (if isp 0 t b k then Ok true else Ok (isp 255 t b k)) = Ok (R k)) by (rewrite <- HR by lia; destruct (isp 0 t b k); reflexivity).
    rewrite G. cbn [bind]. destruct (R k) eqn:E.
    + left. eexists. split; [reflexivity|]. split; [eauto|]. intros j Hj. destruct (Z.eq_dec j k) as [->|]; [exact E|apply A; lia].
    + right. rewrite geti_ok by lia. cbn [bind]. rewrite seti_bad by lia. auto.
  - change (0 + Z.of_nat 64) with 64 in A. rewrite cnt_all in C by (auto; lia). lia.
  - exact E.
Qed.
Lemma plain_bad t temp b off bits : blockAt t temp b off -> zlen bits <= 8 -> store_plain temp off bits 0 = Ub UB_bounds.
Proof.
  intros (B0 & B1 & B2) Hl. unfold store_plain. pose proof (zlen_nonneg bits).
  match goal with |- bind (foldM ?g _ _) _ = _ => destruct (fold_fail g (fun k l => zlen l = zlen bits /\ k <= zlen bits) (fun _ => True) 128 ltac:(auto) 0 bits) as [(s & _ & _ & A)|(E & _)] end.
  - split; [reflexivity|lia].
  - change (0 + Z.of_nat 128) with 128. intros k l Hk (L & A). rewrite geti_ok by lia. cbn [bind]. rewrite Z.add_0_l. destruct (Z_lt_le_dec k (zlen bits)).
    + left. rewrite seti_ok by lia. eexists. split; [reflexivity|]. rewrite zlen_upd. split; [exact L|lia].
    + right. rewrite seti_bad by lia. auto.
  - change (0 + Z.of_nat 128) with 128 in A. lia.
  - rewrite E. reflexivity.
Qed.

Lemma store_bad T t temp b off bits : blockAt t temp b off -> zlen bits <= 8 -> nrm T t b 64 < 64 ->
  (let f := code T (dz T t b) (d1 T t b) in match T with
         | MPE1 => if f =? 0 then store_plain temp off bits 0 else store_both temp off 0 bits 0
         | _ => if f =? 3 then store_both temp off 0 bits 0 else
                if f =? 1 then store_one 0 temp off 0 bits 0 else
                if f =? 2 then store_one 255 temp off 0 bits 0 else
                store_plain temp off bits 0
         end) = Ub UB_bounds.
Proof.
  intros B Hl Hn. change (nrm T t b 64) with (cnt (rmv T t b) 64) in Hn.
  assert (SB : dz T t b = true -> d1 T t b = true -> store_both temp off 0 bits 0 = Ub UB_bounds).
  { intros Z0 Z1. unfold store_both. rewrite (both_bad (rmv T t b) t temp b off bits) by (auto; try lia; intros; unfold rmv; rewrite Z0, Z1; reflexivity). reflexivity. }
  assert (S0 : dz T t b = true -> d1 T t b = false -> store_one 0 temp off 0 bits 0 = Ub UB_bounds).
  { intros Z0 Z1. unfold store_one. rewrite (one_bad 0 (rmv T t b) t temp b off bits) by (auto; try lia; intros; unfold rmv; rewrite Z0, Z1; cbn [andb orb]; rewrite orb_false_r; reflexivity). reflexivity. }
  assert (S1 : dz T t b = false -> d1 T t b = true -> store_one 255 temp off 0 bits 0 = Ub UB_bounds).
  { intros Z0 Z1. unfold store_one. rewrite (one_bad 255 (rmv T t b) t temp b off bits) by (auto; try lia; intros; unfold rmv; rewrite Z0, Z1; reflexivity). reflexivity. }
  pose proof (plain_bad t temp b off bits B Hl) as SP. destruct T.
  - cbv zeta. unfold code. pose proof (mpe1_same t b) as M. destruct (dz MPE1 t b) eqn:E0; cbn [b2z]; [apply SB; [reflexivity|exact M]|exact SP].
  - cbv zeta. unfold code. destruct (dz MPE2 t b) eqn:E0, (d1 MPE2 t b) eqn:E1; [apply SB|apply S0|apply S1|exact SP]; reflexivity.
  - cbv zeta. unfold code. destruct (dz MPE3 t b) eqn:E0, (d1 MPE3 t b) eqn:E1; [apply SB|apply S0|apply S1|exact SP]; reflexivity.
Qed.

(** The first block takes at least 120 bytes if all blocks together take that many. *)
Lemma first_big T t : zlen t <= 2 ^ 32 - 128 -> 2 ^ 32 <= moff T t (nbig t) + 136 -> 0 < nbig t /\ homob2 t 0 = false /\ nrm T t 0 64 < 64 /\ moff T t (nbig t) <= 2 ^ 32 - 128.
Proof.
  intros Hl HM. pose proof (nbig32 t Hl) as NM. assert (N1 : 0 < nbig t).
  { destruct (Z.eq_dec (nbig t) 0) as [E|]; [rewrite E, moff_0 in HM; lia|lia]. }
  pose proof (moff_mono T t 1 (nbig t) ltac:(lia)) as M1. pose proof (moff_mono T t 0 (nbig t) ltac:(lia)) as M0. pose proof (moff_succ T t 0 ltac:(lia)) as MS. rewrite moff_0 in *.
  change (0 + 1) with 1 in MS. unfold stored in MS. destruct (homob2 t 0); [lia|]. split; [exact N1|]. split; [reflexivity|]. split; [|lia].
  assert (hd (dz T t 0) (d1 T t 0) <= 16) by (unfold hd; destruct (dz T t 0), (d1 T t 0); cbn; lia). lia.
Qed.

Lemma build_mpe32_wrap T strict jf m t : addresses_ok m -> text_ok t -> zlen t <= 2 ^ 32 - 128 -> 2 ^ 32 <= moff T t (nbig t) + 136 -> build_mpe32 T strict jf m t = Ub UB_bounds.
Proof.
  intros (A1 & A2 & A3 & A4) H Hl HM. destruct (first_big T t Hl HM) as (N1 & Eh & Hn & M1). unfold build_mpe32. rewrite mp_empty32_ok by (auto; lia). cbn [bind]. rewrite not_empty2_ok, mp_blocks32_ok by lia.
  pose proof (nbig_nonneg t) as N0. pose proof (ne2_bound t (nbig t) N0) as NB. pose proof (nbig32 t Hl) as NM.
  rewrite !mp_temp_len_ok by lia. set (n := nbig t) in *. set (tl := 32 * (n / 16 + 1)) in *.
  rewrite (wrap_small 32 (ne2 t n * 128)) by lia.
  destruct (mscan_ok32 t (fresh32 (m_junk_t m) tl) (fresh_b (m_junk_t m) (ne2 t n * 128)) H Hl) as (r1 & temp & -> & L1 & L2 & P1 & P3).
  { rewrite zlen_fresh32 by lia. reflexivity. }
  { rewrite zlen_fresh_b by lia. fold n. lia. }
  rewrite zlen_fresh32 in L1 by lia. rewrite zlen_fresh_b in L2 by lia. cbn [bind]. fold n in P1, P3.
  assert (BA : forall c, 0 <= c < nbig t -> homob2 t c = false -> blockAt t temp c (128 * ne2 t c)).
  { intros c Hc Hh. fold n in Hc. unfold blockAt. pose proof (ne2_bound t c ltac:(lia)). pose proof (ne2_lt t c n ltac:(lia) Hh). split; [lia|]. split; [lia|]. intros k Hk. apply P3; auto. }
  destruct (choose_loop T t temp (fresh_b jf n)) as (btc & removed & heads & offset & E1 & C1 & C2 & C3 & C4 & C5); auto.
  { rewrite zlen_fresh_b by lia. fold n. lia. }
  fold n in E1, C2, C3, C4, C5. rewrite zlen_fresh_b in C1 by lia. rewrite E1. cbn [bind]. clear E1.
  replace (u32 (heads + (ne2 t n * 128 - 2 * removed) + 8)) with (moff T t n + 8) by (rewrite wrap_small; lia).
  set (bits := fresh_aligned_b32 (m_junk_b m) (m_addr_b m) (moff T t n + 8)).
  assert (LB : zlen bits <= 8).
  { unfold bits, fresh_aligned_b32. replace (u32 (moff T t n + 8 + 128)) with (moff T t n + 136 - 2 ^ 32) by (unfold wrap; rewrite <- (Z.mod_unique (moff T t n + 8 + 128) (2 ^ 32) 1 (moff T t n + 136 - 2 ^ 32)); lia).
    unfold fresh_b. rewrite zlen_map. unfold zlen. rewrite length_zrange. lia. }
  clearbody bits. replace (Z.to_nat n) with (S (Z.to_nat (n - 1))) by lia. cbn [zrange foldM]. unfold store_block at 1.
  rewrite seti_ok by lia. cbn [bind]. rewrite geti_ok by (rewrite zlen_flags2; fold n; lia). cbn [bind]. rewrite zn_flags2 by (fold n; lia). rewrite Eh. cbn [b2z]. change (0 =? 0) with true. cbv iota.
  rewrite geti_ok by lia. cbn [bind]. rewrite geti_ok by (rewrite zlen_upd; lia). cbn [bind]. rewrite C4, Eh by lia. rewrite zn_upd by lia. rewrite Z.eqb_refl.
  pose proof (store_bad T t temp 0 0 bits ltac:(exact (BA 0 ltac:(lia) Eh)) LB Hn) as SB. cbv zeta in SB. rewrite SB. reflexivity.
Qed.

Lemma build_mpe32_long T strict jf m t : 2 ^ 32 - 128 < zlen t < 2 ^ 32 -> build_mpe32 T strict jf m t = Ub UB_bounds.
Proof.
  intros H. unfold build_mpe32, mp_empty32, mp_scan32. rewrite (mp_blocks32_top (zlen t) H). generalize (zlen t). intros n. destruct T; vm_compute; reflexivity.
Qed.
