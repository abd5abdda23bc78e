(** RankMPE64: the headers of the superblocks and the whole of build. *)
From Coq Require Import ZifyBool.
From Verif Require Import Base BaseFacts Words WordFacts BlockFacts NodeFacts Trees TreeBuild Mem MemFacts Spec BitmapFacts KernelFacts SpecPoppy PoppyFacts PoppyFacts2 SpecText MrRank MrRankFacts MrRankFacts2 MrRankFacts3 MrMpe SpecMpe MrMpeFacts MrMpeFacts2.
Ltac Zify.zify_post_hook ::= Z.div_mod_to_equations.

(** ** Four 16-bit fields to a word *)
Definition lw (d : Z -> Z) (k : Z) : Z := u64 (sumf (fun l => d (4 * k + l) * 2 ^ (16 * l)) 0 (if k =? 3 then 3 else 4)).

Lemma lane_loop (g : list Z -> Z -> res (list Z)) (d : Z -> Z) base v0 : 0 <= base <= 6 -> zlen v0 = 10 -> (forall k, base <= k < base + 4 -> zn 0 v0 k = 0) ->
  (forall v j, zlen v = 10 -> 0 <= j < 15 -> g v j = (let* x := geti v (base + j / 4) in seti v (base + j / 4) (u64 (x + Z.shiftl (d j) (16 * (j mod 4)))))) ->
  exists v, foldM g (zrange 0 15) v0 = Ok v /\ zlen v = 10 /\ (forall k, 0 <= k < 4 -> zn 0 v (base + k) = lw d k) /\ (forall k, 0 <= k < base \/ base + 4 <= k -> zn 0 v k = zn 0 v0 k).
Proof.
  intros Hb L0 Z0 G.
  destruct (foldM_inv g (fun j v => zlen v = 10 /\ (forall k, 0 <= k < 4 -> zn 0 v (base + k) = u64 (sumf (fun l => d (4 * k + l) * 2 ^ (16 * l)) 0 (clamp (j - 4 * k)))) /\
    (forall k, 0 <= k < base \/ base + 4 <= k -> zn 0 v k = zn 0 v0 k)) 15 0 v0) as (v & E & L & P1 & P2).
  - split; [exact L0|]. split; [|auto]. intros k Hk. rewrite Z0 by lia. rewrite sumf_empty by (unfold clamp; lia). reflexivity.
  - intros j v Hj (L & P1 & P2). change (0 + Z.of_nat 15) with 15 in Hj. rewrite G by (auto; lia). rewrite geti_ok by lia. cbn [bind]. rewrite seti_ok by lia.
    eexists. split; [reflexivity|]. rewrite zlen_upd. split; [exact L|]. split.
    + intros k Hk. rewrite zn_upd by lia. destruct (base + k =? base + j / 4) eqn:E; [|rewrite P1 by lia; do 2 f_equal; unfold clamp; lia].
      replace (j / 4) with k by lia. rewrite P1 by lia. rewrite wrap_add_l.
      replace (clamp (j - 4 * k)) with (j mod 4) by (unfold clamp; lia). replace (clamp (j + 1 - 4 * k)) with (j mod 4 + 1) by (unfold clamp; lia).
      rewrite sumf_succ by lia. f_equal. f_equal. rewrite Z.shiftl_mul_pow2 by lia. do 2 f_equal. lia.
    + intros k Hk. rewrite zn_upd by lia. replace (k =? base + j / 4) with false by lia. apply P2. lia.
  - change (0 + Z.of_nat 15) with 15 in P1. exists v. split; [exact E|]. split; [exact L|]. split; [|exact P2].
    intros k Hk. rewrite P1 by lia. unfold lw. do 2 f_equal. unfold clamp. destruct (k =? 3) eqn:K; lia.
Qed.

Definition btcv (jf : Z -> Z) (btc : list Z) (k : Z) : Z := if (0 <=? k) && (k <? zlen btc) then zn 0 btc k else u8 (jf k).
Definition rdiff (temp : list Z) (s j : Z) : Z := u64 (zn 0 temp (2 * (16 * s + j + 1)) - zn 0 temp (2 * (16 * s))).
Definition odiff (T : mpe_type) (jf : Z -> Z) (temp btc : list Z) (s j : Z) : Z :=
  u64 (u64 (zn 0 temp (2 * (16 * s + j + 1) + 1) - zn 0 temp (2 * (16 * s) + 1)) + flag_in_offset T (btcv jf btc (16 * s + j + 1))).
Definition mp_word (T : mpe_type) (jf : Z -> Z) (temp btc : list Z) (s k : Z) : Z :=
  if k =? 0 then zn 0 temp (2 * (16 * s)) else
  if k <=? 4 then lw (rdiff temp s) (k - 1) else
  if k =? 5 then zn 0 temp (2 * (16 * s) + 1) else
  if k =? 6 then u64 (lw (odiff T jf temp btc s) 0 + flag_of_first T (btcv jf btc (16 * s))) else
  lw (odiff T jf temp btc s) (k - 6).

Lemma read_btc_ok strict jf btc k : (strict = true -> k < zlen btc) -> 0 <= k -> read_btc strict jf btc k = Ok (btcv jf btc k).
Proof.
  intros H Hk. unfold read_btc, btcv. destruct ((0 <=? k) && (k <? zlen btc)) eqn:E.
  - rewrite orb_true_r. apply geti_ok. lia.
  - destruct strict; [specialize (H eq_refl); lia|reflexivity].
Qed.

Lemma mp_bucket_ok T strict jf temp btc s : 0 <= s -> 32 * (s + 1) <= zlen temp -> (strict = true -> 16 * s + 16 <= zlen btc) ->
  exists v, mp_bucket T strict jf temp btc s = Ok v /\ zlen v = 10 /\ forall k, 0 <= k < 10 -> zn 0 v k = mp_word T jf temp btc s k.
Proof.
  intros Hs Ht Hst. unfold mp_bucket. rewrite geti_ok by lia. cbn [bind].
  rewrite seti_ok by (rewrite zlen_repeat; lia). cbn [bind].
  assert (Z0 : forall k, 0 <= k < 10 -> zn 0 (repeat 0 10) k = 0).
  { intros k Hk. unfold zn. rewrite nth_repeat. reflexivity. }
  match goal with |- context [foldM ?g (zrange 0 15) ?v0] => destruct (lane_loop g (rdiff temp s) 1 v0) as (v1 & -> & L1 & P1 & P2) end.
  - lia.
  - rewrite zlen_upd. reflexivity.
  - intros k Hk. rewrite zn_upd by (rewrite ?zlen_repeat; lia). replace (k =? 0) with false by lia. apply Z0. lia.
  - intros v j L Hj. rewrite geti_ok by lia. cbn [bind]. replace (j / 4 + 1) with (1 + j / 4) by lia. reflexivity.
  - cbn [bind]. rewrite geti_ok by lia. cbn [bind]. rewrite seti_ok by lia. cbn [bind].
    match goal with |- context [foldM ?g (zrange 0 15) ?v0] => destruct (lane_loop g (odiff T jf temp btc s) 6 v0) as (v2 & -> & L2 & Q1 & Q2) end.
    + lia.
    + rewrite zlen_upd. exact L1.
    + intros k Hk. rewrite zn_upd by lia. replace (k =? 5) with false by lia. rewrite P2 by lia. rewrite zn_upd by (rewrite ?zlen_repeat; lia). replace (k =? 0) with false by lia. apply Z0. lia.
    + intros v j L Hj. rewrite geti_ok by lia. cbn [bind]. rewrite read_btc_ok; [|intros E; specialize (Hst E); lia|lia]. cbn [bind]. replace (5 + 1 + j / 4) with (6 + j / 4) by lia. reflexivity.
    + cbn [bind]. rewrite read_btc_ok; [|intros E; specialize (Hst E); lia|lia]. cbn [bind]. rewrite geti_ok by lia. cbn [bind]. rewrite seti_ok by lia.
      eexists. split; [reflexivity|]. rewrite zlen_upd. split; [exact L2|]. intros k Hk. rewrite zn_upd by lia. unfold mp_word.
      destruct (k =? 6) eqn:K6.
      { replace (k =? 0) with false by lia. replace (k <=? 4) with false by lia. replace (k =? 5) with false by lia. specialize (Q1 0 ltac:(lia)). change (6 + 0) with 6 in Q1. rewrite Q1. reflexivity. }
      destruct (k =? 0) eqn:K0.
      { replace k with 0 by lia. rewrite Q2 by lia. rewrite zn_upd by lia. change (0 =? 5) with false. cbv iota. rewrite P2 by lia. rewrite zn_upd by (rewrite ?zlen_repeat; lia). reflexivity. }
      destruct (k <=? 4) eqn:K4.
      { rewrite Q2 by lia. rewrite zn_upd by lia. replace (k =? 5) with false by lia. specialize (P1 (k - 1) ltac:(lia)). replace (1 + (k - 1)) with k in P1 by lia. exact P1. }
      destruct (k =? 5) eqn:K5.
      { replace k with 5 by lia. rewrite Q2 by lia. rewrite zn_upd by lia. reflexivity. }
      specialize (Q1 (k - 6) ltac:(lia)). replace (6 + (k - 6)) with k in Q1 by lia. exact Q1.
Qed.

Lemma mp_bucket_fail T jf temp btc s : 0 <= s -> 32 * (s + 1) <= zlen temp -> zlen btc < 16 * s + 16 -> mp_bucket T true jf temp btc s = Ub UB_bounds.
Proof.
  intros Hs Ht He. unfold mp_bucket. rewrite geti_ok by lia. cbn [bind]. rewrite seti_ok by (rewrite zlen_repeat; lia). cbn [bind].
  match goal with |- context [foldM ?g (zrange 0 15) ?v0] => destruct (foldM_inv g (fun _ v => zlen v = 10) 15 0 v0) as (v1 & E1 & P1) end.
  - rewrite zlen_upd. reflexivity.
  - intros j v Hj L. change (0 + Z.of_nat 15) with 15 in Hj. rewrite geti_ok by lia. cbn [bind]. rewrite geti_ok by lia. cbn [bind]. rewrite seti_ok by lia.
    eexists. split; [reflexivity|]. rewrite zlen_upd. exact L.
  - rewrite E1. cbn [bind]. rewrite geti_ok by lia. cbn [bind]. rewrite seti_ok by lia. cbn [bind].
    match goal with |- context [foldM ?g (zrange 0 15) ?v0] => destruct (fold_fail g (fun j v => zlen v = 10 /\ (0 < j -> 16 * s + j + 1 <= zlen btc)) (fun _ => True) 15 ltac:(auto) 0 v0) as [(v2 & E2 & L2 & B2)|(E2 & _)] end.
    + rewrite zlen_upd. split; [exact P1|lia].
    + intros j v Hj (L & B). change (0 + Z.of_nat 15) with 15 in Hj. rewrite geti_ok by lia. cbn [bind]. unfold read_btc. cbn [orb]. unfold geti at 1 3.
      destruct ((0 <=? 16 * s + j + 1) && (16 * s + j + 1 <? zlen btc)) eqn:E; cbn [bind].
      * left. rewrite geti_ok by lia. cbn [bind]. rewrite seti_ok by lia. eexists. split; [reflexivity|]. rewrite zlen_upd. split; [exact L|lia].
      * right. auto.
    + change (0 + Z.of_nat 15) with 15 in B2. lia.
    + rewrite E2. reflexivity.
Qed.

(** ** The temporary headers *)
Definition po (T : mpe_type) (t : list Z) (c : Z) : Z := moff T t (Z.min c (nbig t - 1)).
Definition tempM (T : mpe_type) (t temp : list Z) : Prop :=
  zlen temp = 32 * (nbig t / 16 + 1) /\
  (forall c, 0 <= c <= nbig t -> zn 0 temp (2 * c) = ts t 0 (1024 * c)) /\
  (forall c, 0 <= c < 16 * (nbig t / 16 + 1) -> zn 0 temp (2 * c + 1) = po T t c).
Lemma po_mono T t a b : 0 < nbig t -> 0 <= a <= b -> po T t a <= po T t b <= po T t a + 128 * (b - a).
Proof. intros Hn H. unfold po. pose proof (moff_mono T t (Z.min a (nbig t - 1)) (Z.min b (nbig t - 1)) ltac:(lia)). lia. Qed.

Definition slack_b (addr : Z) : Z := 128 - (- addr) mod 128.
Lemma slack_b_ok addr : addr mod 16 = 0 -> 16 <= slack_b addr <= 128.
Proof. intros H. unfold slack_b. lia. Qed.
Lemma zlen_fresh_b j n : 0 <= n -> zlen (fresh_b j n) = n.
Proof. intros H. unfold fresh_b. rewrite zlen_map. unfold zlen. rewrite length_zrange. lia. Qed.
Lemma byteful_fresh_b j n : byteful (fresh_b j n).
Proof.
  intros k Hk. destruct (Z_lt_le_dec k (zlen (fresh_b j n))) as [H|H]; [|rewrite zn_over; lia].
  unfold fresh_b in *. rewrite zlen_map in H. unfold zlen in H. rewrite length_zrange in H. rewrite zn_map_zrange by lia. apply (wrap_bound 8). lia.
Qed.
Lemma zlen_aligned_b j a n : 0 <= n -> zlen (fresh_aligned_b j a n) = n + slack_b a.
Proof. intros H. unfold fresh_aligned_b, slack_b. rewrite zlen_fresh_b; lia. Qed.

Definition btcP (T : mpe_type) (t btc : list Z) : Prop := nbig t <= zlen btc /\ byteful btc /\
  forall c, 0 <= c < nbig t -> zn 0 btc c = if homob2 t c then 0 else code T (dz T t c) (d1 T t c).

Definition mpeP (T : mpe_type) (m : memory) (jf : Z -> Z) (t temp btc : list Z) (r : rank_mpe) : Prop :=
  tempM T t temp /\ btcP T t btc /\ zlen (mp_ranks r) = 10 * (nbig t / 16 + 1) + slack (m_addr_r m) /\ zlen (mp_bits r) = moff T t (nbig t) + 8 + slack_b (m_addr_b m) /\
  mp_ranks_len r = 10 * (nbig t / 16 + 1) /\ mp_bits_len r = moff T t (nbig t) + 8 /\ mp_text_len r = zlen t /\ byteful (mp_bits r) /\
  (forall s k, 0 <= s <= nbig t / 16 -> 0 <= k < 10 -> zn 0 (mp_ranks r) (10 * s + k) = mp_word T jf temp btc s k) /\
  (forall c, 0 <= c < nbig t -> homob2 t c = false -> blockOk T t c (mp_bits r) (moff T t c)).

Lemma foldM_app {S} (f : S -> Z -> res S) l1 : forall l2 s, foldM f (l1 ++ l2) s = (let* s' := foldM f l1 s in foldM f l2 s').
Proof. induction l1 as [|x l1 IH]; intros l2 s; [reflexivity|]. cbn [app foldM]. destruct (f s x); cbn [bind]; auto. Qed.

Lemma pad_loop n M r2 : 0 < n -> zlen r2 = 32 * (n / 16 + 1) -> zn 0 r2 (2 * (n - 1) + 1) = M -> let tl := 32 * (n / 16 + 1) in
  exists r3, foldM (fun ranks k => let* x := geti ranks (2 * (n - 1) + 1) in seti ranks (2 * n + 1 + 2 * k) x) (zrange 0 (Z.to_nat ((tl - (2 * n + 1) + 1) / 2))) r2 = Ok r3 /\
    zlen r3 = tl /\ (forall k, 0 <= k -> k mod 2 = 0 \/ k < 2 * n -> zn 0 r3 k = zn 0 r2 k) /\ (forall k, 0 <= k < tl / 2 - n -> zn 0 r3 (2 * (n + k) + 1) = M).
Proof.
  intros Hn Hl HM tl.
  destruct (foldM_inv (fun ranks k => let* x := geti ranks (2 * (n - 1) + 1) in seti ranks (2 * n + 1 + 2 * k) x) (fun j ranks => zlen ranks = tl /\
      (forall k, 0 <= k -> k mod 2 = 0 \/ k < 2 * n -> zn 0 ranks k = zn 0 r2 k) /\
      (forall k, 0 <= k < j -> zn 0 ranks (2 * (n + k) + 1) = M)) (Z.to_nat ((tl - (2 * n + 1) + 1) / 2)) 0 r2) as (r3 & E & T1 & T2 & T3).
  - split; [exact Hl|]. split; [auto|]. intros; lia.
  - intros k rk Hk (Q1 & Q2 & Q3). rewrite geti_ok by lia. cbn [bind]. rewrite seti_ok by lia. rewrite Q2, HM by lia. eexists. split; [reflexivity|]. rewrite zlen_upd. split; [exact Q1|]. split.
    + intros k' Hk0 Hk'. rewrite zn_upd by lia. replace (k' =? 2 * n + 1 + 2 * k) with false by (clear - Hk' Hk; lia). apply Q2; auto.
    + intros k' Hk'. rewrite zn_upd by lia. destruct (2 * (n + k') + 1 =? 2 * n + 1 + 2 * k) eqn:Ek; [reflexivity|]. apply Q3. lia.
  - exists r3. split; [exact E|]. split; [exact T1|]. split; [exact T2|]. intros k Hk. apply T3. lia.
Qed.

Lemma words_loop T strict jf r3 btc n k w0 : zlen r3 = 32 * (n / 16 + 1) -> zlen btc = n + 1 -> (strict = true -> 16 * k <= n + 1) -> 0 <= k <= n / 16 + 1 -> 10 * (n / 16 + 1) <= zlen w0 ->
  exists ranks, foldM (fun words s => let* v := mp_bucket T strict jf r3 btc s in put_words words (10 * s) v) (zrange 0 (Z.to_nat k)) w0 = Ok ranks /\ zlen ranks = zlen w0 /\
    forall s k', 0 <= s < k -> 0 <= k' < 10 -> zn 0 ranks (10 * s + k') = mp_word T jf r3 btc s k'.
Proof.
  intros TL C1 HS Hk HL.
  destruct (foldM_inv (fun ranks s => let* v := mp_bucket T strict jf r3 btc s in put_words ranks (10 * s) v) (fun j ranks =>
        zlen ranks = zlen w0 /\ forall s k', 0 <= s < j -> 0 <= k' < 10 -> zn 0 ranks (10 * s + k') = mp_word T jf r3 btc s k')
        (Z.to_nat k) 0 w0) as (ranks & E & L & Q).
  - split; [reflexivity|]. intros; lia.
  - intros j ranks Hj (L & Q).
    destruct (mp_bucket_ok T strict jf r3 btc j ltac:(lia) ltac:(lia)) as (v & -> & LV & V).
    { intros ES. specialize (HS ES). lia. }
    cbn [bind]. destruct (put_words_ok ranks (10 * j) v ltac:(lia) ltac:(lia)) as (ranks' & -> & L' & Q'). exists ranks'. split; [reflexivity|].
    split; [lia|]. intros s k' Hs Hk'. rewrite Q' by lia. destruct ((10 * j <=? 10 * s + k') && (10 * s + k' <? 10 * j + zlen v)) eqn:E.
    + assert (s = j) by lia. subst s. replace (10 * j + k' - 10 * j) with k' by lia. apply V. lia.
    + apply Q; lia.
  - exists ranks. split; [exact E|]. split; [exact L|]. intros. apply Q; lia.
Qed.

Lemma build_mpe_gen T strict jf m t : addresses_ok m -> text_ok t -> zlen t < 2 ^ 58 ->
  (0 < nbig t -> strict = false \/ nbig t mod 16 = 15 -> exists temp btc r, build_mpe T strict jf m t = Ok r /\ mpeP T m jf t temp btc r) /\
  (nbig t = 0 \/ strict = true /\ nbig t mod 16 <> 15 -> build_mpe T strict jf m t = Ub UB_bounds).
Proof.
  intros (A1 & A2 & A3 & A4) H Hl. unfold build_mpe. rewrite mp_empty_ok by (auto; lia). cbn [bind]. rewrite not_empty2_ok, mp_blocks_ok by lia.
  pose proof (nbig_nonneg t) as N0. pose proof (ne2_bound t (nbig t) N0) as NB. pose proof (slack_ok _ A2) as S1. pose proof (slack_b_ok _ A4) as S2.
  assert (NM : nbig t <= 2 ^ 52) by (unfold nbig; pose proof (zlen_nonneg t); lia).
  rewrite !mp_temp_len_ok by lia. set (n := nbig t) in *. set (tl := 32 * (n / 16 + 1)) in *.
  destruct (mscan_ok t (fresh (m_junk_t m) tl) (fresh_b (m_junk_t m) (ne2 t n * 128)) H Hl) as (r1 & temp & -> & L1 & L2 & P1 & P2 & P3).
  { rewrite zlen_fresh by lia. reflexivity. }
  { rewrite zlen_fresh_b by lia. fold n. lia. }
  rewrite zlen_fresh in L1 by lia. rewrite zlen_fresh_b in L2 by lia. cbn [bind]. fold n in P1, P2, P3.
  assert (BA : forall c, 0 <= c < nbig t -> homob2 t c = false -> blockAt t temp c (128 * ne2 t c)).
  { intros c Hc Hh. fold n in Hc. unfold blockAt. pose proof (ne2_bound t c ltac:(lia)). pose proof (ne2_lt t c n ltac:(lia) Hh). split; [lia|]. split; [lia|]. intros k Hk. apply P3; auto. }
  destruct (choose_loop T t temp (fresh_b jf (n + 1))) as (btc & removed & heads & offset & E1 & C1 & C2 & C3 & C4 & C5); auto.
  { rewrite zlen_fresh_b by lia. fold n. lia. }
  fold n in E1, C2, C3, C4, C5. rewrite zlen_fresh_b in C1 by lia. rewrite E1. cbn [bind]. clear E1.
  pose proof (moff_mono T t 0 n ltac:(lia)) as MB. rewrite moff_0 in MB.
  replace (u64 (heads + (ne2 t n * 128 - 2 * removed) + 8)) with (moff T t n + 8) by (rewrite wrap_small; lia).
  destruct (store_loop T t r1 temp btc (fresh_aligned_b (m_junk_b m) (m_addr_b m) (moff T t n + 8)) H) as (r2 & bits & bc & off & E2 & D1 & D2 & D3 & D4 & D5 & D6 & D7 & D8); auto.
  { fold n. lia. }
  { fold n. lia. }
  { rewrite zlen_aligned_b by lia. fold n. lia. }
  { apply byteful_fresh_b. }
  fold n in E2, D4, D5, D6, D7, D8. rewrite zlen_aligned_b in D2 by lia. rewrite E2. cbn [bind]. clear E2.
  assert (BB : byteful btc).
  { intros k Hk. destruct (Z_lt_le_dec k n) as [Hkn|Hkn].
    - rewrite C4 by lia. destruct (homob2 t k); [lia|]. generalize (dz T t k), (d1 T t k). intros z o. destruct T, z, o; cbn; lia.
    - rewrite C5 by lia. apply byteful_fresh_b. exact Hk. }
  destruct (Z.eq_dec n 0) as [En|En].
  { split; [lia|]. intros _. rewrite En. replace tl with 32 by lia. change (u64 (2 * 0 + 1 - 2)) with (2 ^ 64 - 1).
    change (Z.to_nat ((32 - (2 * 0 + 1) + 1) / 2)) with 16%nat. cbn [zrange foldM]. unfold geti at 1.
    replace ((0 <=? 2 ^ 64 - 1) && (2 ^ 64 - 1 <? zlen r2)) with false by lia. reflexivity. }
  assert (U : u64 (2 * n + 1 - 2) = 2 * (n - 1) + 1) by (clear - NM En N0; rewrite wrap_small; lia). rewrite U. clear U.
  destruct (pad_loop n (moff T t (n - 1)) r2 ltac:(clear - En N0; lia) ltac:(unfold tl in *; clear - D1 L1; lia) ltac:(apply D6; clear - En N0; lia)) as (r3 & E3 & T1 & T2 & T3).
  fold tl in E3, T1, T3. rewrite E3. clear E3.
  assert (TP : tempM T t r3).
  { unfold tempM. fold n. split; [exact T1|]. split.
    - intros c Hc. rewrite T2 by (clear - Hc; lia). rewrite D7 by (clear - Hc; lia). apply P1. exact Hc.
    - intros c Hc. unfold po. fold n. destruct (Z_lt_le_dec c n).
      + rewrite T2 by (clear - Hc l; lia). rewrite D6 by (clear - Hc l; lia). f_equal. lia.
      + replace (2 * c + 1) with (2 * (n + (c - n)) + 1) by (clear; lia). rewrite T3 by (unfold tl; clear - Hc l; lia). f_equal. lia. }
  cbn [bind]. replace (tl / 2 / 16) with (n / 16 + 1) by (unfold tl; clear; lia). replace (tl / 32 * 10) with (10 * (n / 16 + 1)) by (unfold tl; clear; lia).
  assert (TL : zlen r3 = 32 * (n / 16 + 1)) by exact T1. clearbody tl. clear T1 T2 T3 L1 P1 P2 P3 D6 D7.
  split.
  - intros _ C. destruct (words_loop T strict jf r3 btc n (n / 16 + 1) (fresh_aligned (m_junk_r m) (m_addr_r m) (10 * (n / 16 + 1))) TL C1) as (ranks & -> & L & Q).
    { intros ES. destruct C as [C|C]; [congruence|clear - C; lia]. }
    { clear - N0; lia. }
    { rewrite zlen_aligned by (auto; clear - N0; lia). clear - S1; lia. }
    rewrite zlen_aligned in L by (auto; clear - N0; lia).
    cbn [bind]. eexists r3, btc, _. split; [reflexivity|]. unfold mpeP, btcP. fold n. cbn [mp_ranks mp_bits mp_ranks_len mp_bits_len mp_text_len].
    split; [exact TP|]. split; [split; [lia|auto]|]. split; [lia|]. split; [lia|]. split; [lia|]. split; [lia|]. split; [reflexivity|]. split; [exact D3|]. split; [|exact D8].
    intros s k Hs Hk. apply Q; lia.
  - intros [Hn|[ES Hn]]; [lia|]. replace (Z.to_nat (n / 16 + 1)) with (S (Z.to_nat (n / 16))) by lia. rewrite zrange_last.
    rewrite foldM_app. destruct (words_loop T strict jf r3 btc n (n / 16) (fresh_aligned (m_junk_r m) (m_addr_r m) (10 * (n / 16 + 1))) TL C1) as (ranks & -> & L & Q).
    { intros _. clear - N0; lia. }
    { clear - N0; lia. }
    { rewrite zlen_aligned by (auto; clear - N0; lia). clear - S1; lia. }
    cbn [bind foldM]. subst strict. rewrite mp_bucket_fail; [reflexivity|lia|lia|lia].
Qed.
