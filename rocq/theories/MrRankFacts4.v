(** RankCF64. *)
From Coq Require Import ZifyBool.
From Verif Require Import Base BaseFacts Words WordFacts BlockFacts NodeFacts Trees TreeBuild MemFacts Spec BitmapFacts KernelFacts SpecPoppy PoppyFacts PoppyFacts2 SpecText MrRank MrRankFacts MrRankFacts2.
Ltac Zify.zify_post_hook ::= Z.div_mod_to_equations.

(** lia, without the hypotheses it has no use for. *)
Ltac zl := repeat match goal with H : forall _, _ |- _ => clear H | H : homob _ _ = _ |- _ => clear H | H : zlen _ = zlen _ |- _ => revert H end; intros; lia.

(** ** The border *)
Lemma find_border_gen t total : 0 <= total <= 2 ^ 53 -> forall n c, 0 <= c -> c + Z.of_nat n <= 2 ^ 53 -> c < Z.max 1 total -> ne t c <= total ->
  ne t (c + Z.of_nat n) <= total -> Z.max 1 total <= c + Z.of_nat n ->
  find_border (map (fun b => b2z (homob t b)) (zrange c n)) c (c - ne t c) (total - ne t c) = Z.max 1 total.
Proof.
  intros HT. induction n; intros c Hc Hn Hlt Hne Hend Hmax; [lia|].
  cbn [zrange map find_border]. pose proof (ne_succ t c Hc) as NS. pose proof (ne_bound t c Hc) as NB.
  replace (c + Z.of_nat (S n)) with (c + 1 + Z.of_nat n) in * by lia. pose proof (ne_mono t (c + 1) (c + 1 + Z.of_nat n) ltac:(lia)) as NM.
  assert (E : (if b2z (homob t c) =? 0 then c - ne t c else u64 (c - ne t c + 1)) = c + 1 - ne t (c + 1) /\
    (if b2z (homob t c) =? 0 then u64 (total - ne t c - 1) else total - ne t c) = total - ne t (c + 1)).
  { destruct (homob t c); cbn [b2z]; [change (1 =? 0) with false|change (0 =? 0) with true]; cbv iota; split; try lia; rewrite wrap_small; lia. }
  destruct E as [-> ->]. destruct (c + 1 - ne t (c + 1) >=? total - ne t (c + 1)) eqn:G; [lia|]. apply IHn; lia.
Qed.

Lemma ne_lip t a b : 0 <= a <= b -> ne t b <= ne t a + (b - a).
Proof.
  intros H. unfold ne. rewrite (sumf_split _ 0 a b) by lia.
  pose proof (sumf_bound (fun c => if homob t c then 0 else 1) 1 a b ltac:(lia) ltac:(intros i _; cbn beta; destruct (homob t i); lia)) as B. lia.
Qed.

Lemma border_ok t : zlen t < 2 ^ 58 -> find_border (flags t) 0 0 (ne t (nblk t)) = if nblk t =? 0 then 0 else Z.max 1 (ne t (nblk t)).
Proof.
  intros Hl. pose proof (nblk_nonneg t) as N0. pose proof (zlen_nonneg t). assert (NB : nblk t <= 2 ^ 53) by (unfold nblk; lia).
  pose proof (ne_bound t (nblk t) N0). destruct (nblk t =? 0) eqn:E.
  - unfold flags. replace (nblk t) with 0 by lia. reflexivity.
  - assert (E0 : ne t 0 = 0) by (unfold ne; apply sumf_empty; lia).
    pose proof (find_border_gen t (ne t (nblk t)) ltac:(lia) (Z.to_nat (nblk t)) 0) as G. rewrite E0, !Z.sub_0_r, Z.add_0_l, Z2Nat.id in G by lia.
    apply G; lia.
Qed.

Lemma find_right_ok t : forall fuel rc, 0 <= rc <= nblk t -> nblk t - rc < Z.of_nat fuel -> ne t rc < ne t (nblk t) ->
  exists c, find_right fuel (flags t) rc = Ok c /\ rc <= c < nblk t /\ homob t c = false /\ ne t c = ne t rc.
Proof.
  induction fuel; intros rc Hrc Hf Hne; [lia|]. cbn [find_right].
  destruct (Z.eq_dec rc (nblk t)) as [->|]; [lia|]. rewrite geti_ok by (rewrite zlen_flags; lia). cbn [bind]. rewrite zn_flags by lia.
  pose proof (ne_succ t rc ltac:(lia)) as NS. destruct (homob t rc) eqn:E; cbn [b2z].
  - change (1 =? 0) with false. cbv iota. destruct (IHfuel (rc + 1) ltac:(lia) ltac:(lia) ltac:(lia)) as (c & -> & C1 & C2 & C3). exists c. repeat split; auto; lia.
  - change (0 =? 0) with true. cbv iota. exists rc. repeat split; auto; lia.
Qed.
Lemma find_right_off t : forall fuel rc, 0 <= rc <= nblk t -> nblk t - rc < Z.of_nat fuel -> ne t rc = ne t (nblk t) ->
  find_right fuel (flags t) rc = Ub UB_bounds.
Proof.
  induction fuel; intros rc Hrc Hf Hne; [lia|]. cbn [find_right]. unfold geti. rewrite zlen_flags.
  destruct ((0 <=? rc) && (rc <? nblk t)) eqn:G; [|reflexivity]. cbn [bind]. rewrite zn_flags by lia.
  pose proof (ne_succ t rc ltac:(lia)) as NS. pose proof (ne_mono t (rc + 1) (nblk t) ltac:(lia)) as NM.
  destruct (homob t rc) eqn:E; cbn [b2z]; [|lia]. change (1 =? 0) with false. cbv iota. apply IHfuel; lia.
Qed.

Lemma copy_block_ok dst lc src off : 0 <= lc -> lc + 8 <= zlen dst -> 0 <= off -> off + 8 <= zlen src ->
  exists d, copy_block dst lc src off = Ok d /\ zlen d = zlen dst /\
    forall k, 0 <= k -> zn 0 d k = if (lc <=? k) && (k <? lc + 8) then zn 0 src (off + (k - lc)) else zn 0 dst k.
Proof.
  intros Hlc Hd Ho Hs. unfold copy_block.
  destruct (foldM_inv (fun dst j => let* w := geti src (off + j) in seti dst (lc + j) w) (fun j d => zlen d = zlen dst /\
    forall k, 0 <= k -> zn 0 d k = if (lc <=? k) && (k <? lc + j) then zn 0 src (off + (k - lc)) else zn 0 dst k) 8 0 dst) as (d & E & L & P).
  - split; [reflexivity|]. intros k Hk. replace ((lc <=? k) && (k <? lc + 0)) with false by lia. reflexivity.
  - intros j d Hj (L & P). rewrite geti_ok by lia. cbn [bind]. rewrite seti_ok by lia. eexists. split; [reflexivity|]. rewrite zlen_upd. split; [exact L|].
    intros k Hk. rewrite zn_upd by lia. rewrite P by lia. destruct (k =? lc + j) eqn:E.
    + replace ((lc <=? k) && (k <? lc + (j + 1))) with true by lia. f_equal. lia.
    + replace ((lc <=? k) && (k <? lc + (j + 1))) with ((lc <=? k) && (k <? lc + j)) by lia. reflexivity.
  - exists d. auto.
Qed.

(** ** The left part *)
Definition leftP (t f : list Z) (K b : Z) (st : list Z * Z * list Z) : Prop :=
  let '(bits, rc, ranks) := st in
  zlen bits = zlen f /\ zlen ranks = 2 * nblk t + 1 /\ K <= rc <= nblk t /\ ne t rc - ne t K = b - ne t b /\
  (forall c, 0 <= c <= nblk t -> zn 0 ranks (2 * c) = ts t 0 (512 * c)) /\
  (forall c, 0 <= c < K \/ rc <= c < nblk t -> zn 0 ranks (2 * c + 1) = 8 * ne t c) /\
  (forall c, K <= c < rc -> homob t c = false -> 0 <= zn 0 ranks (2 * c + 1) <= 9 * b - 8 /\
      forall k, 0 <= k < 8 -> zn 0 bits (zn 0 ranks (2 * c + 1) + k) = tword t (8 * c + k)) /\
  (forall c, 0 <= c < b -> zn 0 bits (9 * c) = ts t 0 (512 * c)) /\
  (forall c k, 0 <= c < b -> homob t c = false -> 0 <= k < 8 -> zn 0 bits (9 * c + 1 + k) = tword t (8 * c + k)) /\
  (forall k, 9 * b <= k -> zn 0 bits k = zn 0 f k).

Lemma left_step t temp f b st : let K := ne t (nblk t) in text_ok t -> zlen t < 2 ^ 58 -> 9 * K <= zlen f -> zlen temp = 8 * K ->
  (forall c k, 0 <= c < nblk t -> homob t c = false -> 0 <= k < 8 -> zn 0 temp (8 * ne t c + k) = tword t (8 * c + k)) ->
  0 <= b < K -> leftP t f K b st -> exists st', left_block (flags t) temp st b = Ok st' /\ leftP t f K (b + 1) st'.
Proof.
  intros K H Hl Hf Ht HT Hb. destruct st as [[bits rc] ranks]. intros (L1 & L2 & Hrc & Hne & R1 & R2 & R3 & B1 & B2 & B3).
  pose proof (nblk_nonneg t) as N0. pose proof (ne_bound t (nblk t) N0) as NB. fold K in NB. set (n := nblk t) in *.
  assert (En : nblk t = n) by reflexivity. assert (EK : ne t n = K) by reflexivity. clearbody K. clearbody n.
  unfold left_block. rewrite geti_ok by lia. cbn [bind]. rewrite seti_ok by lia. cbn [bind]. rewrite geti_ok by (rewrite zlen_flags; lia). cbn [bind].
  rewrite zn_flags by lia. rewrite R1 by lia. pose proof (ne_succ t b ltac:(lia)) as NS.
  set (bits0 := upd bits (9 * b) (ts t 0 (512 * b))). assert (L0 : zlen bits0 = zlen f) by (unfold bits0; rewrite zlen_upd; exact L1).
  assert (Z0 : forall k, 0 <= k -> zn 0 bits0 k = if k =? 9 * b then ts t 0 (512 * b) else zn 0 bits k) by (intros; unfold bits0; apply zn_upd; lia).
  (* after any copy of a block into the slot *)
  assert (G : forall d src, zlen d = zlen f -> (forall k, 0 <= k -> zn 0 d k = if (9 * b + 1 <=? k) && (k <? 9 * b + 1 + 8) then zn 0 src (k - (9 * b + 1)) else zn 0 bits0 k) ->
     (forall k, 0 <= k < 9 * b -> zn 0 d k = zn 0 bits k) /\ zn 0 d (9 * b) = ts t 0 (512 * b) /\
     (forall k, 0 <= k < 8 -> zn 0 d (9 * b + 1 + k) = zn 0 src k) /\ (forall k, 9 * (b + 1) <= k -> zn 0 d k = zn 0 f k)).
  { intros d src Ld Q. split; [|split; [|split]].
    - intros k Hk. rewrite Q by lia. replace ((9 * b + 1 <=? k) && (k <? 9 * b + 1 + 8)) with false by lia. rewrite Z0 by lia. replace (k =? 9 * b) with false by lia. reflexivity.
    - rewrite Q by lia. replace ((9 * b + 1 <=? 9 * b) && (9 * b <? 9 * b + 1 + 8)) with false by lia. rewrite Z0 by lia. rewrite Z.eqb_refl. reflexivity.
    - intros k Hk. rewrite Q by lia. replace ((9 * b + 1 <=? 9 * b + 1 + k) && (9 * b + 1 + k <? 9 * b + 1 + 8)) with true by lia. f_equal. lia.
    - intros k Hk. rewrite Q by lia. replace ((9 * b + 1 <=? k) && (k <? 9 * b + 1 + 8)) with false by lia. rewrite Z0 by lia. replace (k =? 9 * b) with false by lia. apply B3. lia. }
  destruct (homob t b) eqn:Eh; cbn [b2z].
  - change (1 =? 0) with false. cbv iota.
    assert (NK : ne t (b + 1) <= ne t K) by (apply ne_mono; zl).
    assert (KB : K - ne t K >= b + 1 - ne t (b + 1)).
    { assert (X : ne t K <= ne t (b + 1) + (K - (b + 1))).
      { apply ne_lip. zl. }
      zl. }
    destruct (find_right_ok t (S (length (flags t))) rc) as (c & -> & C1 & C2 & C3).
    { zl. } { pose proof (zlen_flags t) as LF. unfold zlen in LF. zl. } { rewrite En. zl. }
    rewrite En in C1. cbn [bind]. rewrite geti_ok by zl. cbn [bind]. rewrite seti_ok by zl. cbn [bind]. rewrite R2 by zl.
    pose proof (ne_lt t c n ltac:(zl) C2) as CL. rewrite EK in CL. pose proof (ne_bound t c ltac:(zl)).
    destruct (copy_block_ok bits0 (9 * b + 1) temp (8 * ne t c)) as (d & -> & LD & D); try zl. cbn [bind].
    eexists. split; [reflexivity|]. unfold leftP. rewrite En.
    destruct (G d (map (fun k => tword t (8 * c + k)) (zrange 0 8)) ltac:(zl)) as (G1 & G2 & G3 & G4).
    { intros k Hk. rewrite D by zl. destruct ((9 * b + 1 <=? k) && (k <? 9 * b + 1 + 8)) eqn:E; [|reflexivity].
      rewrite zn_map_zrange by zl. apply HT; auto; zl. }
    assert (G3' : forall k, 0 <= k < 8 -> zn 0 d (9 * b + 1 + k) = tword t (8 * c + k)).
    { intros k Hk. rewrite G3 by zl. rewrite zn_map_zrange by zl. reflexivity. }
    split; [rewrite LD; exact L0|]. split; [rewrite zlen_upd; exact L2|]. split; [zl|]. split.
    { pose proof (ne_succ t c ltac:(zl)) as NC. rewrite C2 in NC. clear - NC Hne NS C3 C2. zl. }
    assert (ZR : forall k, 0 <= k -> zn 0 (upd ranks (2 * c + 1) (9 * b + 1)) k = if k =? 2 * c + 1 then 9 * b + 1 else zn 0 ranks k) by (intros; apply zn_upd; zl).
    split. { intros c' Hc'. rewrite ZR by zl. replace (2 * c' =? 2 * c + 1) with false by zl. apply R1. zl. }
    split. { intros c' Hc'. rewrite ZR by zl. replace (2 * c' + 1 =? 2 * c + 1) with false by zl. apply R2. zl. }
    split.
    { intros c' Hc' Hh. rewrite ZR by zl. destruct (Z.eq_dec c' c) as [->|].
      - rewrite Z.eqb_refl. split; [zl|]. exact G3'.
      - replace (2 * c' + 1 =? 2 * c + 1) with false by zl. destruct (Z_lt_le_dec c' rc).
        + destruct (R3 c' ltac:(zl) Hh) as (R31 & R32). split; [zl|]. intros k Hk. rewrite G1 by zl. apply R32. zl.
        + pose proof (ne_lt t c' c ltac:(zl) Hh). pose proof (ne_mono t rc c' ltac:(zl)). zl. }
    split. { intros c' Hc'. destruct (Z.eq_dec c' b) as [->|]; [exact G2|]. rewrite G1 by zl. apply B1. zl. }
    split. { intros c' k Hc' Hh Hk. destruct (Z.eq_dec c' b) as [->|]; [congruence|]. rewrite G1 by zl. apply B2; auto; zl. }
    exact G4.
  - change (0 =? 0) with true. cbv iota. rewrite geti_ok by zl. cbn [bind]. rewrite R2 by zl.
    pose proof (ne_lt t b n ltac:(zl) Eh) as CL. rewrite EK in CL. pose proof (ne_bound t b ltac:(zl)).
    destruct (copy_block_ok bits0 (9 * b + 1) temp (8 * ne t b)) as (d & -> & LD & D); try zl. cbn [bind].
    eexists. split; [reflexivity|]. unfold leftP. rewrite En.
    destruct (G d (map (fun k => tword t (8 * b + k)) (zrange 0 8)) ltac:(zl)) as (G1 & G2 & G3 & G4).
    { intros k Hk. rewrite D by zl. destruct ((9 * b + 1 <=? k) && (k <? 9 * b + 1 + 8)) eqn:E; [|reflexivity].
      rewrite zn_map_zrange by zl. apply HT; auto; zl. }
    split; [zl|]. split; [zl|]. split; [zl|]. split; [zl|]. split; [exact R1|]. split; [exact R2|]. split.
    { intros c' Hc' Hh. destruct (R3 c' ltac:(zl) Hh) as (R31 & R32). split; [zl|]. intros k Hk. rewrite G1 by zl. apply R32. zl. }
    split. { intros c' Hc'. destruct (Z.eq_dec c' b) as [->|]; [exact G2|]. rewrite G1 by zl. apply B1. zl. }
    split. { intros c' k Hc' Hh Hk. destruct (Z.eq_dec c' b) as [->|]; [rewrite G3, zn_map_zrange by zl; reflexivity|]. rewrite G1 by zl. apply B2; auto; zl. }
    exact G4.
Qed.

(** ** The structure *)
Definition cfP (m : memory) (t : list Z) (r : rank_cf) : Prop :=
  let n := nblk t in let K := ne t n in
  cf_bits_len r = 7 * K + 2 * n + 1 /\ zlen (cf_bits r) = 7 * K + 2 * n + 1 + slack (m_addr_b m) /\ cf_text_len r = zlen t /\ cf_border r = K /\ cf_block_border r = 9 * K /\
  (forall c, 0 <= c < K -> zn 0 (cf_bits r) (9 * c) = ts t 0 (512 * c)) /\
  (forall c k, 0 <= c < K -> homob t c = false -> 0 <= k < 8 -> zn 0 (cf_bits r) (9 * c + 1 + k) = tword t (8 * c + k)) /\
  (forall c, K <= c <= n -> zn 0 (cf_bits r) (9 * K + 2 * (c - K)) = ts t 0 (512 * c)) /\
  (forall c, K <= c < n -> homob t c = false -> let p := zn 0 (cf_bits r) (9 * K + 2 * (c - K) + 1) in 0 <= p <= 9 * K - 8 /\
      forall k, 0 <= k < 8 -> zn 0 (cf_bits r) (p + k) = tword t (8 * c + k)) /\
  (forall k, 7 * K + 2 * n + 1 <= k < 7 * K + 2 * n + 1 + slack (m_addr_b m) -> zn 0 (cf_bits r) k = m_junk_b m k).

Lemma build_cf_gen m t : addresses_ok m -> text_ok t -> zlen t < 2 ^ 58 ->
  (nblk t = 0 \/ 1 <= ne t (nblk t) -> exists r, build_cf m t = Ok r /\ cfP m t r) /\
  (1 <= nblk t -> ne t (nblk t) = 0 -> build_cf m t = Ub UB_bounds).
Proof.
  intros (A1 & A2 & A3 & A4) H Hl. unfold build_cf. rewrite empty_blocks_ok by (auto; lia). cbn [bind]. rewrite not_empty_ok, block_count_ok by lia.
  pose proof (nblk_nonneg t) as N0. pose proof (ne_bound t (nblk t) N0) as NB. pose proof (slack_ok _ A2) as S1. pose proof (slack_ok _ A4) as S2.
  pose proof (zlen_nonneg t) as L00. assert (NN : nblk t <= 2 ^ 53) by (unfold nblk; lia).
  rewrite border_ok by lia. set (n := nblk t) in *. set (K := ne t n) in *.
  assert (En : nblk t = n) by reflexivity. assert (EK : ne t n = K) by reflexivity. clearbody K. clearbody n.
  destruct (scan_ok t (fresh (m_junk_r m) (2 * n + 1)) (fresh (m_junk_t m) (K * 8)) H Hl) as (r1 & temp & -> & L1 & L2 & P1 & P2 & P3 & P4 & P5).
  { rewrite zlen_fresh by lia. rewrite ?En. lia. } { rewrite zlen_fresh by lia. rewrite ?En. rewrite ?EK. lia. }
  rewrite zlen_fresh in L1, L2 by lia. cbn [bind]. rewrite En in P1, P2, P3, P4, P5. rewrite EK in P5. split.
  - intros C. replace (if n =? 0 then 0 else Z.max 1 K) with K by (destruct (n =? 0) eqn:E; zl).
    replace (u64 ((K - 1) * 9 + (n - (K - 1)) * 2 + 8)) with (7 * K + 2 * n + 1) by (rewrite wrap_small; zl).
    set (f := fresh_aligned _ _ _). assert (LF : zlen f = 7 * K + 2 * n + 1 + slack (m_addr_b m)) by (unfold f; rewrite zlen_aligned; zl).
    destruct (foldM_inv (left_block (flags t) temp) (leftP t f K) (Z.to_nat K) 0 (f, K, r1)) as ([[bits rc] ranks] & -> & P).
    { unfold leftP. rewrite ?En. assert (E0 : ne t 0 = 0) by (unfold ne; apply sumf_empty; zl). split; [reflexivity|]. split; [zl|]. split; [zl|]. split; [zl|]. split; [exact P1|].
      split; [intros; apply P2; zl|]. split; [intros; zl|]. split; [intros; zl|]. split; [intros; zl|]. auto. }
    { intros k s Hk HP. pose proof (left_step t temp f k s) as LS. cbv zeta in LS. rewrite En, EK in LS. apply LS; auto; zl. }
    rewrite Z.add_0_l, Z2Nat.id in P by zl. destruct P as (Q1 & Q2 & Q3 & Q4 & Q5 & Q6 & Q7 & Q8 & Q9 & Q10). rewrite En in Q2, Q3, Q5, Q6. cbn [bind].
    destruct (foldM_inv (fun bits i => let* r := geti ranks i in seti bits (9 * K + (i - 2 * K)) r) (fun i bits' => zlen bits' = zlen f /\
      (forall k, 0 <= k -> zn 0 bits' k = if (9 * K <=? k) && (k <? 9 * K + (i - 2 * K)) then zn 0 ranks (2 * K + (k - 9 * K)) else zn 0 bits k)) (Z.to_nat (2 * n + 1 - 2 * K)) (2 * K) bits) as (bits' & -> & LB & PB).
    { split; [exact Q1|]. intros k Hk. replace ((9 * K <=? k) && (k <? 9 * K + (2 * K - 2 * K))) with false by zl. reflexivity. }
    { intros i bs Hi (LB & PB). rewrite geti_ok by zl. cbn [bind]. rewrite seti_ok by zl. eexists. split; [reflexivity|]. rewrite zlen_upd. split; [exact LB|].
      intros k Hk. rewrite zn_upd by zl. rewrite PB by zl. destruct (k =? 9 * K + (i - 2 * K)) eqn:E.
      - replace ((9 * K <=? k) && (k <? 9 * K + (i + 1 - 2 * K))) with true by zl. f_equal. zl.
      - replace ((9 * K <=? k) && (k <? 9 * K + (i + 1 - 2 * K))) with ((9 * K <=? k) && (k <? 9 * K + (i - 2 * K))) by zl. reflexivity. }
    replace (2 * K + Z.of_nat (Z.to_nat (2 * n + 1 - 2 * K)) - 2 * K) with (2 * n + 1 - 2 * K) in PB by zl. cbn [bind].
    eexists. split; [reflexivity|]. unfold cfP. rewrite ?En. rewrite ?EK. cbn [cf_bits cf_bits_len cf_text_len cf_border cf_block_border].
    assert (LO : forall k, 0 <= k < 9 * K -> zn 0 bits' k = zn 0 bits k).
    { intros k Hk. rewrite PB by zl. replace ((9 * K <=? k) && (k <? 9 * K + (2 * n + 1 - 2 * K))) with false by zl. reflexivity. }
    assert (HI : forall k, 2 * K <= k <= 2 * n -> zn 0 bits' (9 * K + (k - 2 * K)) = zn 0 ranks k).
    { intros k Hk. rewrite PB by zl. replace ((9 * K <=? 9 * K + (k - 2 * K)) && (9 * K + (k - 2 * K) <? 9 * K + (2 * n + 1 - 2 * K))) with true by zl. f_equal. zl. }
    split; [reflexivity|]. split; [zl|]. split; [reflexivity|]. split; [reflexivity|]. split; [zl|].
    split; [intros c Hc; rewrite LO by zl; apply Q8; zl|]. split; [intros c k Hc Hh Hk; rewrite LO by zl; apply Q9; auto|].
    split. { intros c Hc. replace (9 * K + 2 * (c - K)) with (9 * K + (2 * c - 2 * K)) by zl. rewrite HI by zl. apply Q5. zl. }
    split.
    { intros c Hc Hh. replace (9 * K + 2 * (c - K) + 1) with (9 * K + (2 * c + 1 - 2 * K)) by zl. rewrite HI by zl. cbv zeta.
      assert (Hrc : c < rc). { destruct (Z_lt_le_dec c rc); auto. pose proof (ne_lt t c n ltac:(zl) Hh). rewrite EK in H0. pose proof (ne_mono t rc c ltac:(zl)). zl. }
      destruct (Q7 c ltac:(zl) Hh) as (Q71 & Q72). split; [exact Q71|]. intros k Hk. rewrite LO by zl. apply Q72. exact Hk. }
    intros k Hk. rewrite PB by zl. replace ((9 * K <=? k) && (k <? 9 * K + (2 * n + 1 - 2 * K))) with false by zl. rewrite Q10 by zl. unfold f. apply zn_aligned. zl.
  - intros Hn HK. replace (if n =? 0 then 0 else Z.max 1 K) with 1 by (destruct (n =? 0) eqn:E; zl).
    change (Z.to_nat 1) with 1%nat. cbn [zrange foldM]. set (f := fresh_aligned _ _ _).
    assert (LF : 1 <= zlen f) by (unfold f; rewrite zlen_aligned; rewrite ?wrap_small; zl).
    unfold left_block. rewrite geti_ok by zl. cbn [bind]. rewrite seti_ok by zl. cbn [bind]. rewrite geti_ok by (rewrite zlen_flags; rewrite ?En; zl). cbn [bind].
    rewrite zn_flags by (rewrite ?En; zl). pose proof (ne_succ t 0 ltac:(zl)) as NS. pose proof (ne_mono t (0 + 1) n ltac:(zl)) as NM. rewrite EK in NM.
    pose proof (ne_bound t 0 ltac:(zl)). pose proof (ne_bound t (0 + 1) ltac:(zl)).
    destruct (homob t 0); [|zl]. cbn [b2z]. change (1 =? 0) with false. cbv iota.
    rewrite find_right_off; [reflexivity|rewrite ?En; zl| |].
    + pose proof (zlen_flags t) as LFF. unfold zlen in LFF.  zl.
    + rewrite ?En. rewrite ?EK. change 1 with (0 + 1). zl.
Qed.

Lemma rank_cf_in m t r i : addresses_ok m -> text_ok t -> zlen t < 2 ^ 58 -> cfP m t r -> 0 <= i < 512 * nblk t -> rank_of_cf r i = Ok (ts t 0 i).
Proof.
  intros (A1 & A2 & A3 & A4) H Hl (_ & L & _ & EB & EBB & Q1 & Q2 & Q3 & Q4 & _) Hi. unfold rank_of_cf. rewrite EB, EBB.
  pose proof (slack_ok _ A4) as S2. set (n := nblk t) in *. set (K := ne t n) in *. set (b := i / 512). assert (Hb : 0 <= b < n) by lia.
  pose proof (ne_bound t n ltac:(lia)) as NB. fold K in NB.
  destruct (b <? K) eqn:E.
  - replace (b * 8 + b) with (9 * b) by lia. rewrite geti_ok by lia. cbn [bind]. rewrite geti_ok by lia. cbn [bind]. rewrite Q1 by lia.
    assert (EN : zn 0 (cf_bits r) (9 * b + 9) = ts t 0 (512 * (b + 1))).
    { destruct (Z.eq_dec (b + 1) K) as [E1|E1].
      - replace (9 * b + 9) with (9 * K + 2 * (K - K)) by lia. rewrite Q3 by lia. rewrite E1. reflexivity.
      - replace (9 * b + 9) with (9 * (b + 1)) by lia. apply Q1. lia. }
    rewrite EN.
    change (answer (ts t 0 (512 * b)) (ts t 0 (512 * (b + 1))) (i mod 512) (count_block (cf_bits r) (9 * b + 1) (i mod 512) (ts t 0 (512 * b))) = Ok (ts t 0 i)).
    rewrite answer_ok; auto; [do 2 f_equal; lia|lia|]. intros Eh. apply count_block_ok; auto; try (fold n; lia); try lia. intros k Hk. apply Q2; auto; lia.
  - rewrite geti_ok by lia. cbn [bind]. rewrite geti_ok by lia. cbn [bind]. rewrite Q3 by lia.
    replace (9 * K + 2 * (b - K) + 2) with (9 * K + 2 * (b + 1 - K)) by lia. rewrite Q3 by lia.
    change (answer (ts t 0 (512 * b)) (ts t 0 (512 * (b + 1))) (i mod 512)
      (let* p := geti (cf_bits r) (9 * K + 2 * (b - K) + 1) in count_block (cf_bits r) p (i mod 512) (ts t 0 (512 * b))) = Ok (ts t 0 i)).
    rewrite answer_ok; auto; [do 2 f_equal; lia|lia|]. intros Eh. rewrite geti_ok by lia. cbn [bind].
    destruct (Q4 b ltac:(lia) Eh) as (Q41 & Q42). apply count_block_ok; auto; try (fold n; lia); try lia.
Qed.

Lemma rank_cf_end m t r : addresses_ok m -> text_ok t -> zlen t < 2 ^ 58 -> cfP m t r ->
  let e := 7 * ne t (nblk t) + 2 * nblk t + 1 in
  rank_of_cf r (512 * nblk t) =
    if (Z.land (u64 (m_junk_b m (e + 1) - ts t 0 (512 * nblk t))) 511 =? 0) ||
       ((0 <=? m_junk_b m e) && (m_junk_b m e <? e + slack (m_addr_b m)))
    then Ok (ts t 0 (512 * nblk t)) else Ub UB_bounds.
Proof.
  intros (A1 & A2 & A3 & A4) H Hl (_ & L & _ & EB & EBB & Q1 & Q2 & Q3 & Q4 & Q5). cbv zeta. unfold rank_of_cf. rewrite EB, EBB.
  pose proof (slack_ok _ A4) as S2. set (n := nblk t) in *. set (K := ne t n) in *. pose proof (nblk_nonneg t) as N0. fold n in N0.
  pose proof (ne_bound t n ltac:(lia)) as NB. fold K in NB. pose proof (zlen_nonneg t). assert (NN : n <= 2 ^ 53) by (unfold n, nblk; lia).
  pose proof (ts_bound t 0 (512 * n) ltac:(lia)) as TB.
  replace (512 * n / 512) with n by lia. replace ((512 * n) mod 512) with 0 by lia. replace (n <? K) with false by lia.
  rewrite geti_ok by lia. cbn [bind]. rewrite geti_ok by lia. cbn [bind]. rewrite Q3 by lia. rewrite Q5 by lia.
  replace (9 * K + 2 * (n - K) + 2) with (7 * K + 2 * n + 1 + 1) by lia.
  destruct (Z.land (u64 (m_junk_b m (7 * K + 2 * n + 1 + 1) - ts t 0 (512 * n))) 511 =? 0) eqn:E; cbn [orb].
  - f_equal. rewrite Z.mul_0_l. change (u64 0) with 0. rewrite Z.add_0_r. apply wrap_small. lia.
  - rewrite geti_ok by lia. cbn [bind]. rewrite Q5 by lia. replace (9 * K + 2 * (n - K) + 1) with (7 * K + 2 * n + 1) by lia.
    unfold count_block. change (0 / 64) with 0.
    cbn [Z.to_nat zrange foldM bind]. rewrite Z.add_0_r. change (0 - 64 * 0) with 0. unfold geti at 1. rewrite L.
    destruct ((0 <=? m_junk_b m (7 * K + 2 * n + 1)) && (m_junk_b m (7 * K + 2 * n + 1) <? 7 * K + 2 * n + 1 + slack (m_addr_b m))); [|reflexivity].
    cbn [bind]. change (geti masks 0) with (@Ok Z 0). cbn [bind]. rewrite Z.land_0_r. change (popcount 0) with 0. rewrite Z.add_0_r. f_equal. apply wrap_small. lia.
Qed.
