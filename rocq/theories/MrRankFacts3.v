(** RankBasic64 with compressed headers. *)
From Coq Require Import ZifyBool.
From Verif Require Import Base BaseFacts Words WordFacts BlockFacts NodeFacts Trees TreeBuild MemFacts Spec BitmapFacts KernelFacts SpecPoppy PoppyFacts PoppyFacts2 SpecText MrRank MrRankFacts MrRankFacts2.
Ltac Zify.zify_post_hook ::= Z.div_mod_to_equations.

(** ** The flag word *)
Lemma flag_word (B : Z -> bool) : forall n, 0 <= n <= 64 -> exists A,
  sumf (fun j => if B j then 2 ^ (63 - j) else 0) 0 n = 2 ^ (64 - n) * A /\ 0 <= A < 2 ^ n /\
  forall p, 0 <= p < n -> Z.testbit A (n - 1 - p) = B p.
Proof.
  intros n [H0 Hn]. revert Hn. pattern n. apply natlike_ind; auto; clear n H0.
  - intros _. exists 0. rewrite sumf_empty by lia. repeat split; try lia.
  - intros n H0 IH Hn. destruct (IH ltac:(lia)) as (A & E & AB & P). exists (2 * A + b2z (B n)). unfold Z.succ in *.
    rewrite sumf_succ by lia. rewrite E. split; [|split].
    + replace (64 - n) with ((63 - n) + 1) by lia. replace (64 - (n + 1)) with (63 - n) by lia. rewrite Z.pow_add_r by lia. destruct (B n); cbn [b2z]; ring.
    + rewrite Z.pow_add_r by lia. destruct (B n); cbn [b2z]; lia.
    + intros p Hp. destruct (Z.eq_dec p n) as [->|].
      * replace (n + 1 - 1 - n) with 0 by lia. destruct (B n); cbn [b2z]; [apply Z.testbit_odd_0|rewrite Z.add_0_r; apply Z.testbit_even_0].
      * replace (n + 1 - 1 - p) with (Z.succ (n - 1 - p)) by lia. rewrite <- (P p) by lia.
        destruct (B n); cbn [b2z]; [apply Z.testbit_odd_succ; lia|rewrite Z.add_0_r; apply Z.testbit_even_succ; lia].
Qed.
Lemma flag_bit (B : Z -> bool) n p : 0 <= n <= 64 -> 0 <= p < n -> Z.testbit (sumf (fun j => if B j then 2 ^ (63 - j) else 0) 0 n) (63 - p) = B p.
Proof.
  intros Hn Hp. destruct (flag_word B n Hn) as (A & -> & _ & P). rewrite <- (P p Hp). rewrite Z.mul_comm, Z.mul_pow2_bits by lia. f_equal. lia.
Qed.
Lemma flag_bound (B : Z -> bool) n : 0 <= n <= 64 -> 0 <= sumf (fun j => if B j then 2 ^ (63 - j) else 0) 0 n < 2 ^ 64.
Proof.
  intros Hn. destruct (flag_word B n Hn) as (A & -> & AB & _). replace (2 ^ 64) with (2 ^ (64 - n) * 2 ^ n) by (rewrite <- Z.pow_add_r by lia; f_equal; lia).
  pose proof (Z.pow_pos_nonneg 2 (64 - n) ltac:(lia) ltac:(lia)). nia.
Qed.

(** ** One superblock *)
Definition flag_at (jf : Z -> Z) (eb : list Z) (k : Z) : Z := if (0 <=? k) && (k <? zlen eb) then zn 0 eb k else jf k.
Definition lane (temp : list Z) (s j : Z) : Z := u64 (zn 0 temp (2 * (64 * s + j + 1)) - zn 0 temp (128 * s)).
Definition lanes (temp : list Z) (s k n : Z) : Z := u64 (sumf (fun l => lane temp s (4 * (k - 1) + l) * 2 ^ (16 * l)) 0 n).
Definition super_word (jf : Z -> Z) (temp eb : list Z) (s k : Z) : Z :=
  if k =? 0 then zn 0 temp (128 * s) else
  if k <=? 16 then lanes temp s k (Z.min 4 (63 - 4 * (k - 1))) else
  if k =? 17 then zn 0 temp (128 * s + 1) else
  sumf (fun j => if flag_at jf eb (64 * s + j) =? 0 then 2 ^ (63 - j) else 0) 0 63.

Definition clamp (x : Z) : Z := Z.min 4 (Z.max 0 x).
Definition bucketP (temp : list Z) (s j : Z) (v : list Z) : Prop :=
  zlen v = 19 /\ zn 0 v 0 = zn 0 temp (128 * s) /\ zn 0 v 17 = 0 /\ zn 0 v 18 = 0 /\
  forall k, 1 <= k <= 16 -> zn 0 v k = lanes temp s k (clamp (j - 4 * (k - 1))).

Lemma wrap_add_l a b : u64 (u64 a + b) = u64 (a + b).
Proof. unfold wrap. rewrite Zplus_mod_idemp_l. reflexivity. Qed.

Lemma bucket_of_ok strict jf temp eb s : 0 <= s -> 128 * (s + 1) <= zlen temp -> (forall k, zlen eb <= k -> 0 <= k) ->
  (strict = true -> 64 * s + 63 <= zlen eb) ->
  exists v, bucket_of strict jf temp eb s = Ok v /\ zlen v = 19 /\ forall k, 0 <= k < 19 -> zn 0 v k = super_word jf temp eb s k.
Proof.
  intros Hs Ht _ Hst. unfold bucket_of. rewrite geti_ok by lia. cbn [bind]. replace (2 * (64 * s)) with (128 * s) by lia.
  rewrite seti_ok by (rewrite zlen_repeat; lia). cbn [bind]. set (b0 := zn 0 temp (128 * s)).
  assert (Z0 : forall k, 0 <= k < 19 -> zn 0 (repeat 0 19) k = 0).
  { intros k Hk. unfold zn. rewrite nth_repeat. reflexivity. }
  match goal with |- context [foldM ?g (zrange 0 63) ?v0] => destruct (foldM_inv g (bucketP temp s) 63 0 v0) as (v1 & E1 & P1) end.
  - unfold bucketP. rewrite zlen_upd. split; [reflexivity|]. rewrite !zn_upd by (rewrite ?zlen_repeat; lia). split; [reflexivity|]. split; [reflexivity|]. split; [reflexivity|].
    intros k Hk. rewrite zn_upd by (rewrite ?zlen_repeat; lia). replace (k =? 0) with false by lia. rewrite Z0 by lia. unfold lanes. rewrite sumf_empty; [reflexivity|unfold clamp; lia].
  - intros j v Hj (L & V0 & V17 & V18 & VL). change (0 + Z.of_nat 63) with 63 in Hj. rewrite geti_ok by lia. cbn [bind]. rewrite geti_ok by lia. cbn [bind]. rewrite seti_ok by lia.
    eexists. split; [reflexivity|]. unfold bucketP. rewrite zlen_upd. split; [exact L|]. rewrite !zn_upd by lia.
    replace (0 =? j / 4 + 1) with false by lia. replace (17 =? j / 4 + 1) with false by lia. replace (18 =? j / 4 + 1) with false by lia.
    split; [exact V0|]. split; [exact V17|]. split; [exact V18|]. intros k Hk. rewrite zn_upd by lia.
    destruct (k =? j / 4 + 1) eqn:E; [|rewrite VL by lia; f_equal; unfold clamp; lia].
    replace (j / 4 + 1) with k by lia. rewrite VL by lia. unfold lanes. rewrite wrap_add_l.
    replace (clamp (j - 4 * (k - 1))) with (j mod 4) by (unfold clamp; lia). replace (clamp (j + 1 - 4 * (k - 1))) with (j mod 4 + 1) by (unfold clamp; lia).
    rewrite sumf_succ by lia. f_equal. f_equal. rewrite Z.shiftl_mul_pow2 by lia. f_equal. unfold lane. fold b0. do 4 f_equal. lia.
  - rewrite E1. cbn [bind]. destruct P1 as (L & V0 & V17 & V18 & VL). change (0 + Z.of_nat 63) with 63 in VL.
    rewrite geti_ok by lia. cbn [bind]. rewrite seti_ok by lia. cbn [bind].
    set (FS := fun n => sumf (fun j => if flag_at jf eb (64 * s + j) =? 0 then 2 ^ (63 - j) else 0) 0 n).
    match goal with |- context [foldM ?g (zrange 0 63) ?v0] => destruct (foldM_inv g (fun j v => zlen v = 19 /\ zn 0 v 18 = FS j /\ forall k, 0 <= k < 18 -> zn 0 v k = zn 0 v0 k) 63 0 v0) as (v2 & E2 & L2 & F2 & O2) end.
    + rewrite zlen_upd. split; [exact L|]. split; [|auto]. rewrite zn_upd by lia. cbn [Z.eqb Pos.eqb]. rewrite V18. reflexivity.
    + intros j v Hj (LL & FF & OO). change (0 + Z.of_nat 63) with 63 in Hj.
      assert (RF : read_flag strict jf eb (64 * s + j) = Ok (flag_at jf eb (64 * s + j))).
      { unfold read_flag, flag_at. destruct ((0 <=? 64 * s + j) && (64 * s + j <? zlen eb)) eqn:E.
        - rewrite orb_true_r. apply geti_ok. lia.
        - destruct strict; [specialize (Hst eq_refl); lia|reflexivity]. }
      rewrite RF. cbn [bind]. unfold FS in *. rewrite sumf_succ by lia. pose proof (flag_bound (fun j => flag_at jf eb (64 * s + j) =? 0) (j + 1) ltac:(lia)) as FB.
      cbn beta in FB. rewrite sumf_succ in FB by lia. destruct (flag_at jf eb (64 * s + j) =? 0).
      * rewrite geti_ok by lia. cbn [bind]. rewrite seti_ok by lia. eexists. split; [reflexivity|]. rewrite zlen_upd. split; [exact LL|]. split.
        -- rewrite zn_upd by lia. cbn [Z.eqb Pos.eqb]. rewrite FF. rewrite Z.shiftl_mul_pow2 by lia. rewrite Z.mul_1_l. apply wrap_small. lia.
        -- intros k Hk. rewrite zn_upd by lia. replace (k =? 18) with false by lia. apply OO. lia.
      * exists v. split; [reflexivity|]. split; [exact LL|]. split; [lia|exact OO].
    + exists v2. split; [exact E2|]. split; [exact L2|]. intros k Hk. unfold super_word.
      destruct (k =? 0) eqn:K0.
      { replace k with 0 by lia. rewrite O2 by lia. rewrite zn_upd by lia. cbn [Z.eqb]. rewrite V0. reflexivity. }
      destruct (k <=? 16) eqn:K16.
      { rewrite O2 by lia. rewrite zn_upd by lia. replace (k =? 17) with false by lia. rewrite VL by lia. f_equal. unfold clamp. lia. }
      destruct (k =? 17) eqn:K17.
      { replace k with 17 by lia. rewrite O2 by lia. rewrite zn_upd by lia. rewrite Z.eqb_refl. reflexivity. }
      replace k with 18 by lia. rewrite F2. reflexivity.
Qed.

Lemma bucket_of_fail jf temp eb s : 0 <= s -> 128 * (s + 1) <= zlen temp -> zlen eb < 64 * s + 63 -> bucket_of true jf temp eb s = Ub UB_bounds.
Proof.
  intros Hs Ht He. unfold bucket_of. rewrite geti_ok by lia. cbn [bind]. replace (2 * (64 * s)) with (128 * s) by lia.
  rewrite seti_ok by (rewrite zlen_repeat; lia). cbn [bind].
  match goal with |- context [foldM ?g (zrange 0 63) ?v0] => destruct (foldM_inv g (fun _ v => zlen v = 19) 63 0 v0) as (v1 & E1 & P1) end.
  - rewrite zlen_upd. reflexivity.
  - intros j v Hj L. change (0 + Z.of_nat 63) with 63 in Hj. rewrite geti_ok by lia. cbn [bind]. rewrite geti_ok by lia. cbn [bind]. rewrite seti_ok by lia.
    eexists. split; [reflexivity|]. rewrite zlen_upd. exact L.
  - rewrite E1. cbn [bind]. rewrite geti_ok by lia. cbn [bind]. rewrite seti_ok by lia. cbn [bind].
    match goal with |- foldM ?g (zrange 0 63) ?v0 = _ => destruct (fold_fail g (fun j v => zlen v = 19 /\ (0 < j -> 64 * s + j <= zlen eb)) (fun _ => True) 63 ltac:(auto) 0 v0) as [(v2 & E2 & L2 & B2)|(E2 & _)] end.
    + rewrite zlen_upd. split; [exact P1|lia].
    + intros j v Hj (L & B). change (0 + Z.of_nat 63) with 63 in Hj. unfold read_flag. cbn [orb]. unfold geti at 1 3.
      destruct ((0 <=? 64 * s + j) && (64 * s + j <? zlen eb)) eqn:E; cbn [bind].
      * left. destruct (zn 0 eb (64 * s + j) =? 0).
        -- rewrite geti_ok by lia. cbn [bind]. rewrite seti_ok by lia. eexists. split; [reflexivity|]. rewrite zlen_upd. split; [exact L|lia].
        -- exists v. split; [reflexivity|]. split; [exact L|lia].
      * right. auto.
    + lia.
    + exact E2.
Qed.

Lemma put_words_ok l at_ v : 0 <= at_ -> at_ + zlen v <= zlen l -> exists l', put_words l at_ v = Ok l' /\ zlen l' = zlen l /\
  forall k, 0 <= k -> zn 0 l' k = if (at_ <=? k) && (k <? at_ + zlen v) then zn 0 v (k - at_) else zn 0 l k.
Proof.
  intros Ha Hl. unfold put_words.
  destruct (foldM_inv (fun l k => seti l (at_ + k) (zn 0 v k)) (fun j l' => zlen l' = zlen l /\
    forall k, 0 <= k -> zn 0 l' k = if (at_ <=? k) && (k <? at_ + j) then zn 0 v (k - at_) else zn 0 l k) (length v) 0 l) as (l' & E & L & P).
  - split; [reflexivity|]. intros k Hk. replace ((at_ <=? k) && (k <? at_ + 0)) with false by lia. reflexivity.
  - intros j l1 Hj (L & P). unfold zlen in Hl at 1. rewrite seti_ok by lia. eexists. split; [reflexivity|]. rewrite zlen_upd. split; [exact L|].
    intros k Hk. rewrite zn_upd by lia. rewrite P by lia. destruct (k =? at_ + j) eqn:E.
    + replace ((at_ <=? k) && (k <? at_ + (j + 1))) with true by lia. f_equal. lia.
    + replace ((at_ <=? k) && (k <? at_ + (j + 1))) with ((at_ <=? k) && (k <? at_ + j)) by lia. reflexivity.
  - exists l'. split; [exact E|]. split; [exact L|]. exact P.
Qed.

(** ** The temporary headers *)
Lemma temp_len_ok nb : 0 <= nb -> temp_len nb = 128 * (nb / 64 + 1).
Proof. intros H. unfold temp_len. destruct ((2 * nb + 2) mod 128 >? 0) eqn:E; lia. Qed.

Definition tempP (t temp : list Z) : Prop :=
  zlen temp = 128 * (nblk t / 64 + 1) /\
  (forall c, 0 <= c <= nblk t -> zn 0 temp (2 * c) = ts t 0 (512 * c)) /\
  (forall c, 0 <= c < nblk t -> zn 0 temp (2 * c + 1) = 8 * ne t c) /\
  (forall k, 2 * nblk t < k -> zn 0 temp k = 0).

Definition bchP (m : memory) (jf : Z -> Z) (t temp : list Z) (r : rank_basic) : Prop :=
  tempP t temp /\ zlen (rb_ranks r) = 19 * (nblk t / 64 + 1) + slack (m_addr_r m) /\ zlen (rb_bits r) = 8 * ne t (nblk t) + slack (m_addr_b m) /\
  rb_ranks_len r = 19 * (nblk t / 64 + 1) /\ rb_bits_len r = 8 * ne t (nblk t) /\ rb_text_len r = zlen t /\
  (forall s k, 0 <= s <= nblk t / 64 -> 0 <= k < 19 -> zn 0 (rb_ranks r) (19 * s + k) = super_word jf temp (flags t) s k) /\
  (forall c k, 0 <= c < nblk t -> homob t c = false -> 0 <= k < 8 -> zn 0 (rb_bits r) (8 * ne t c + k) = tword t (8 * c + k)).

Lemma build_bch_gen strict jf m t : addresses_ok m -> text_ok t -> zlen t < 2 ^ 58 ->
  (strict = false \/ nblk t mod 64 = 63 -> exists temp r, build_bch strict jf m t = Ok r /\ bchP m jf t temp r) /\
  (strict = true -> nblk t mod 64 <> 63 -> build_bch strict jf m t = Ub UB_bounds).
Proof.
  intros (A1 & A2 & A3 & A4) H Hl. unfold build_bch. rewrite empty_blocks_ok by (auto; lia). cbn [bind]. rewrite not_empty_ok, block_count_ok by lia.
  pose proof (nblk_nonneg t) as N0. pose proof (ne_bound t (nblk t) N0) as NB. pose proof (slack_ok _ A2) as S1. pose proof (slack_ok _ A4) as S2.
  rewrite !temp_len_ok by lia. set (n := nblk t) in *. set (tl := 128 * (n / 64 + 1)) in *.
  destruct (scan_ok t (fresh (m_junk_t m) tl) (fresh_aligned (m_junk_b m) (m_addr_b m) (ne t n * 8)) H Hl) as (r1 & b1 & -> & L1 & L2 & P1 & P2 & P3 & P4 & P5).
  - rewrite zlen_fresh by lia. fold n. lia.
  - rewrite zlen_aligned by lia. fold n. lia.
  - rewrite zlen_fresh in L1 by lia. rewrite zlen_aligned in L2 by lia. cbn [bind]. fold n in P1, P2, P3, P4, P5.
    destruct (foldM_inv (fun temp k => seti temp k 0) (fun j temp => zlen temp = tl /\ (forall k, 0 <= k <= 2 * n -> zn 0 temp k = zn 0 r1 k) /\
        (forall k, 2 * n < k < j -> zn 0 temp k = 0)) (Z.to_nat (tl - (2 * n + 1))) (2 * n + 1) r1) as (temp & -> & T1 & T2 & T3).
    { split; [exact L1|]. split; [auto|]. intros; lia. }
    { intros k tp Hk (Q1 & Q2 & Q3). rewrite seti_ok by lia. eexists. split; [reflexivity|]. rewrite zlen_upd. split; [exact Q1|]. split.
      - intros k' Hk'. rewrite zn_upd by lia. replace (k' =? k) with false by lia. apply Q2. lia.
      - intros k' Hk'. rewrite zn_upd by lia. destruct (k' =? k) eqn:E; [reflexivity|]. apply Q3. lia. }
    replace (2 * n + 1 + Z.of_nat (Z.to_nat (tl - (2 * n + 1)))) with tl in T3 by lia.
    assert (TP : tempP t temp).
    { unfold tempP. fold n. split; [exact T1|]. split; [intros c Hc; rewrite T2 by lia; apply P1; lia|]. split; [intros c Hc; rewrite T2 by lia; apply P2; lia|].
      intros k Hk. destruct (Z_lt_le_dec k tl); [apply T3; lia|apply zn_over; lia]. }
    cbn [bind]. replace (tl / 2 / 64) with (n / 64 + 1) by lia. assert (TL : zlen temp = 128 * (n / 64 + 1)) by exact T1. clearbody tl. clear T1 T2 T3 L1 P1 P2 P3 P5.
    assert (FO : forall f l k s, (strict = true -> 64 * (k - 1) + 63 <= n) ->
      k <= n / 64 + 1 -> 0 <= k -> s = fresh_aligned (m_junk_r m) (m_addr_r m) ((n / 64 + 1) * 19) ->
      f = (fun ranks s => let* v := bucket_of strict jf temp (flags t) s in put_words ranks (19 * s) v) -> l = zrange 0 (Z.to_nat k) ->
      exists ranks, foldM f l s = Ok ranks /\ zlen ranks = (n / 64 + 1) * 19 + slack (m_addr_r m) /\
        forall s k', 0 <= s < k -> 0 <= k' < 19 -> zn 0 ranks (19 * s + k') = super_word jf temp (flags t) s k').
    { intros f l k s HS Hk Hk0 -> -> ->. set (f0 := fresh_aligned _ _ _).
      destruct (foldM_inv (fun ranks s => let* v := bucket_of strict jf temp (flags t) s in put_words ranks (19 * s) v) (fun j ranks =>
        zlen ranks = (n / 64 + 1) * 19 + slack (m_addr_r m) /\ forall s k', 0 <= s < j -> 0 <= k' < 19 -> zn 0 ranks (19 * s + k') = super_word jf temp (flags t) s k')
        (Z.to_nat k) 0 f0) as (ranks & E & L & Q).
      - unfold f0. rewrite zlen_aligned by lia. split; [reflexivity|]. intros; lia.
      - intros j ranks Hj (L & Q).
        destruct (bucket_of_ok strict jf temp (flags t) j ltac:(lia) ltac:(lia)) as (v & -> & LV & V).
        { intros x Hx. pose proof (zlen_nonneg (flags t)). lia. }
        { intros ES. rewrite zlen_flags. fold n. specialize (HS ES). lia. }
        cbn [bind]. destruct (put_words_ok ranks (19 * j) v ltac:(lia) ltac:(lia)) as (ranks' & -> & L' & Q'). exists ranks'. split; [reflexivity|].
        split; [lia|]. intros s k' Hs Hk'. rewrite Q' by lia. destruct ((19 * j <=? 19 * s + k') && (19 * s + k' <? 19 * j + zlen v)) eqn:E.
        + assert (s = j) by lia. subst s. replace (19 * j + k' - 19 * j) with k' by lia. apply V. lia.
        + apply Q; lia.
      - exists ranks. split; [exact E|]. split; [exact L|]. intros. apply Q; lia. }
    split.
    + intros C. destruct (FO (fun ranks s => let* v := bucket_of strict jf temp (flags t) s in put_words ranks (19 * s) v) (zrange 0 (Z.to_nat (n / 64 + 1))) (n / 64 + 1) (fresh_aligned (m_junk_r m) (m_addr_r m) ((n / 64 + 1) * 19))) as (ranks & -> & L & Q); try reflexivity; try lia.
      { intros ES. destruct C as [C|C]; [congruence|lia]. }
      cbn [bind]. eexists temp, _. split; [reflexivity|]. unfold bchP. fold n. cbn [rb_ranks rb_bits rb_ranks_len rb_bits_len rb_text_len].
      split; [exact TP|]. split; [lia|]. split; [lia|]. split; [lia|]. split; [lia|]. split; [reflexivity|]. split; [|exact P4].
      intros s k Hs Hk. apply Q; lia.
    + intros ES Hn. replace (Z.to_nat (n / 64 + 1)) with (S (Z.to_nat (n / 64))) by lia. rewrite zrange_last.
      assert (FA : forall {S} (f : S -> Z -> res S) l1 l2 s, foldM f (l1 ++ l2) s = (let* s' := foldM f l1 s in foldM f l2 s')).
      { clear. intros S f l1. induction l1 as [|x l1 IH]; intros l2 s; [reflexivity|]. cbn [app foldM]. destruct (f s x); cbn [bind]; auto. }
      rewrite FA. destruct (FO (fun ranks s => let* v := bucket_of strict jf temp (flags t) s in put_words ranks (19 * s) v) (zrange 0 (Z.to_nat (n / 64))) (n / 64) (fresh_aligned (m_junk_r m) (m_addr_r m) ((n / 64 + 1) * 19))) as (ranks & -> & L & Q); try reflexivity; try lia.
      cbn [bind foldM]. subst strict. rewrite bucket_of_fail; [reflexivity|lia|lia|]. rewrite zlen_flags. fold n. lia.
Qed.

(** ** Queries *)
Lemma lane_ok t temp s j : zlen t < 2 ^ 58 -> tempP t temp -> 0 <= s -> 0 <= j -> 64 * s + j + 1 <= nblk t ->
  lane temp s j = ts t (32768 * s) (512 * (64 * s + j + 1)).
Proof.
  intros Hl (L & T1 & T2 & T3) Hs Hj Hn. unfold lane. replace (128 * s) with (2 * (64 * s)) by lia. rewrite !T1 by lia. pose proof (zlen_nonneg t). assert (NB : nblk t <= 2 ^ 53) by (unfold nblk; lia).
  rewrite (ts_split t 0 (512 * (64 * s)) (512 * (64 * s + j + 1))) by lia. replace (512 * (64 * s)) with (32768 * s) by lia.
  rewrite Z.add_simpl_l. apply wrap_small. pose proof (ts_bound t (32768 * s) (512 * (64 * s + j + 1)) ltac:(lia)). lia.
Qed.
Lemma lane_nonneg temp s j : 0 <= lane temp s j.
Proof. apply wrap_bound. lia. Qed.

Lemma lanes_four temp s k n : n = 3 \/ n = 4 -> exists V3, 0 <= V3 /\ (n = 4 -> V3 = lane temp s (4 * (k - 1) + 3)) /\
  lanes temp s k n = (lane temp s (4 * (k - 1)) + lane temp s (4 * (k - 1) + 1) * 2 ^ 16 + lane temp s (4 * (k - 1) + 2) * 2 ^ 32 + V3 * 2 ^ 48) mod 2 ^ 64.
Proof.
  intros [->| ->]; [exists 0|exists (lane temp s (4 * (k - 1) + 3))]; (split; [try apply lane_nonneg; lia|]); (split; [try lia; auto|]); unfold lanes, wrap.
  - replace (sumf _ 0 3) with (lane temp s (4 * (k - 1) + 0) * 2 ^ (16 * 0) + (lane temp s (4 * (k - 1) + 1) * 2 ^ (16 * 1) + (lane temp s (4 * (k - 1) + 2) * 2 ^ (16 * 2) + 0))) by reflexivity.
    rewrite Z.add_0_r. f_equal. change (16 * 0) with 0. change (16 * 1) with 16. change (16 * 2) with 32. ring.
  - replace (sumf _ 0 4) with (lane temp s (4 * (k - 1) + 0) * 2 ^ (16 * 0) + (lane temp s (4 * (k - 1) + 1) * 2 ^ (16 * 1) + (lane temp s (4 * (k - 1) + 2) * 2 ^ (16 * 2) + (lane temp s (4 * (k - 1) + 3) * 2 ^ (16 * 3) + 0)))) by reflexivity.
    rewrite Z.add_0_r. f_equal. change (16 * 0) with 0. change (16 * 1) with 16. change (16 * 2) with 32. change (16 * 3) with 48. ring.
Qed.

Definition get_lane (w l : Z) : Z := if l =? 3 then Z.shiftr w 48 else Z.land (Z.shiftr w (16 * l)) 0xFFFF.

Lemma get_lane_ok jf t temp s j : zlen t < 2 ^ 58 -> tempP t temp -> 0 <= s -> 0 <= j <= 62 -> 64 * s + j + 1 <= nblk t ->
  get_lane (super_word jf temp (flags t) s (j / 4 + 1)) (j mod 4) = ts t (32768 * s) (512 * (64 * s + j + 1)).
Proof.
  intros Hl T Hs Hj Hn. unfold super_word. replace (j / 4 + 1 =? 0) with false by lia. replace (j / 4 + 1 <=? 16) with true by lia.
  assert (V : forall j', 0 <= j' <= j -> lane temp s j' = ts t (32768 * s) (512 * (64 * s + j' + 1)) /\ 0 <= lane temp s j' < 65536).
  { intros j' Hj'. split; [apply lane_ok; auto; lia|]. rewrite lane_ok with (t := t) by (auto; lia). pose proof (ts_bound t (32768 * s) (512 * (64 * s + j' + 1)) ltac:(lia)). lia. }
  rewrite <- (proj1 (V j ltac:(lia))). set (k := j / 4 + 1).
  destruct (lanes_four temp s k (Z.min 4 (63 - 4 * (k - 1))) ltac:(lia)) as (V3 & V30 & V3e & ->). unfold get_lane.
  pose proof (lane_nonneg temp s (4 * (k - 1) + 1)). pose proof (lane_nonneg temp s (4 * (k - 1) + 2)).
  pose proof (V (4 * (k - 1)) ltac:(lia)) as [_ B0].
  change 0xFFFF with (Z.ones 16). rewrite Z.land_ones, !Z.shiftr_div_pow2 by lia.
  assert (C : j mod 4 = 0 \/ j mod 4 = 1 \/ j mod 4 = 2 \/ j mod 4 = 3) by lia.
  destruct C as [C|[C|[C|C]]]; rewrite C.
  - change (0 =? 3) with false. cbv iota. replace (lane temp s j) with (lane temp s (4 * (k - 1))) by (f_equal; lia).
    set (a := lane temp s (4 * (k - 1))) in *. set (b := lane temp s _) in *. set (c := lane temp s _) in *. clearbody a b c. clear - B0 H H0 V30. lia.
  - change (1 =? 3) with false. cbv iota. pose proof (V (4 * (k - 1) + 1) ltac:(lia)) as [_ B1]. replace (lane temp s j) with (lane temp s (4 * (k - 1) + 1)) by (f_equal; lia).
    set (a := lane temp s (4 * (k - 1))) in *. set (b := lane temp s (4 * (k - 1) + 1)) in *. set (c := lane temp s _) in *. clearbody a b c. clear - B0 B1 H H0 V30. lia.
  - change (2 =? 3) with false. cbv iota. pose proof (V (4 * (k - 1) + 1) ltac:(lia)) as [_ B1]. pose proof (V (4 * (k - 1) + 2) ltac:(lia)) as [_ B2].
    replace (lane temp s j) with (lane temp s (4 * (k - 1) + 2)) by (f_equal; lia).
    set (a := lane temp s (4 * (k - 1))) in *. set (b := lane temp s (4 * (k - 1) + 1)) in *. set (c := lane temp s _) in *. clearbody a b c. clear - B0 B1 B2 V30. lia.
  - change (3 =? 3) with true. cbv iota. pose proof (V (4 * (k - 1) + 1) ltac:(lia)) as [_ B1]. pose proof (V (4 * (k - 1) + 2) ltac:(lia)) as [_ B2]. pose proof (V (4 * (k - 1) + 3) ltac:(lia)) as [_ B3].
    rewrite <- V3e in B3 by lia. replace (lane temp s j) with (lane temp s (4 * (k - 1) + 3)) by (f_equal; lia). rewrite <- V3e by lia.
    set (a := lane temp s (4 * (k - 1))) in *. set (b := lane temp s (4 * (k - 1) + 1)) in *. set (c := lane temp s _) in *. clearbody a b c. clear - B0 B1 B2 B3. lia.
Qed.

(** The three reads of getRank_bch. *)
Definition bch_first (t : rank_basic) (p2 num first : Z) : res Z :=
  if num >? 0 then
      let* w := geti (rb_ranks t) (p2 + (num + 3) / 4) in
      Ok (u64 (first + (match num mod 4 with
                        | 3 => Z.land (Z.shiftr w 32) 0xFFFF
                        | 2 => Z.land (Z.shiftr w 16) 0xFFFF
                        | 1 => Z.land w 0xFFFF
                        | _ => Z.shiftr w 48
                        end)))
    else Ok first.
Definition bch_second (t : rank_basic) (p2 num first : Z) : res Z :=
  if num =? 63 then geti (rb_ranks t) (p2 + 19) else
      let* w := geti (rb_ranks t) (p2 + (if num mod 4 =? 0 then num + 4 else num + 3) / 4) in
      Ok (u64 (first + (match num mod 4 with
                        | 3 => Z.shiftr w 48
                        | 2 => Z.land (Z.shiftr w 32) 0xFFFF
                        | 1 => Z.land (Z.shiftr w 16) 0xFFFF
                        | _ => Z.land w 0xFFFF
                        end))).
Definition bch_ptr (t : rank_basic) (p2 num o : Z) : res Z :=
  if num >? 0 then
      let* f := geti (rb_ranks t) (p2 + 18) in
      let* m := geti masks num in
      Ok (o + 8 * popcount (Z.land f m))
    else Ok o.

Lemma rank_bch_form t i : rank_bch t i =
  let p2 := 19 * (i / 512 / 64) in let num := i / 512 mod 64 in
  let* first := geti (rb_ranks t) p2 in
  let* rank := bch_first t p2 num first in
  let* rank2 := bch_second t p2 num first in
  answer rank rank2 (i mod 512) (let* o := geti (rb_ranks t) (p2 + 17) in let* p := bch_ptr t p2 num o in count_block (rb_bits t) p (i mod 512) rank).
Proof. reflexivity. Qed.

Lemma zn_flag_at jf t k : 0 <= k < nblk t -> flag_at jf (flags t) k = b2z (homob t k).
Proof. intros H. unfold flag_at. rewrite zlen_flags. replace ((0 <=? k) && (k <? nblk t)) with true by lia. apply zn_flags. lia. Qed.

Lemma rank_bch_gen jf t temp r i : text_ok t -> zlen t < 2 ^ 58 -> tempP t temp ->
  19 * (nblk t / 64 + 1) + 1 <= zlen (rb_ranks r) -> 8 * ne t (nblk t) <= zlen (rb_bits r) -> (i = 512 * nblk t -> 8 * ne t (nblk t) < zlen (rb_bits r)) ->
  (forall s k, 0 <= s <= nblk t / 64 -> 0 <= k < 19 -> zn 0 (rb_ranks r) (19 * s + k) = super_word jf temp (flags t) s k) ->
  (forall c k, 0 <= c < nblk t -> homob t c = false -> 0 <= k < 8 -> zn 0 (rb_bits r) (8 * ne t c + k) = tword t (8 * c + k)) ->
  0 <= i <= 512 * nblk t -> rank_bch r i = Ok (ts t 0 i).
Proof.
  intros H Hl T L1 L2 L3 P1 P2 Hi. rewrite rank_bch_form. cbv zeta.
  pose proof (zlen_nonneg t). set (n := nblk t) in *. assert (NB : n <= 2 ^ 53) by (unfold n, nblk; lia).
  pose proof T as (T0 & T1 & T2 & T3). fold n in T0, T1, T2, T3.
  set (b := i / 512). assert (Hb : 0 <= b <= n) by lia. set (s := b / 64). set (num := b mod 64).
  assert (Hs : 0 <= s <= n / 64) by lia. assert (Hnum : 0 <= num < 64) by lia. assert (Eb : b = 64 * s + num) by lia.
  rewrite geti_ok by lia. cbn [bind]. replace (19 * s) with (19 * s + 0) by lia. rewrite P1 by lia. rewrite Z.add_0_r.
  replace (super_word jf temp (flags t) s 0) with (ts t 0 (32768 * s)).
  2:{ unfold super_word. cbn [Z.eqb]. replace (128 * s) with (2 * (64 * s)) by lia. rewrite T1 by lia. f_equal. lia. }
  pose proof (ts_bound t 0 (32768 * s) ltac:(lia)) as B0.
  assert (R1 : bch_first r (19 * s) num (ts t 0 (32768 * s)) = Ok (ts t 0 (512 * b))).
  { unfold bch_first. destruct (num >? 0) eqn:E; [|do 2 f_equal; lia].
    rewrite geti_ok by lia. cbn [bind]. rewrite P1 by lia. f_equal.
    pose proof (get_lane_ok jf t temp s (num - 1) Hl T ltac:(lia) ltac:(lia) ltac:(fold n; lia)) as G.
    replace ((num - 1) / 4 + 1) with ((num + 3) / 4) in G by lia. replace (64 * s + (num - 1) + 1) with b in G by lia.
    pose proof (ts_split t 0 (32768 * s) (512 * b) ltac:(lia)) as TS. pose proof (ts_bound t (32768 * s) (512 * b) ltac:(lia)) as TB.
    set (w := super_word _ _ _ _ _) in *. clearbody w. unfold get_lane in G.
    assert (C : num mod 4 = 0 \/ num mod 4 = 1 \/ num mod 4 = 2 \/ num mod 4 = 3) by lia.
    destruct C as [C|[C|[C|C]]]; rewrite C; [replace ((num - 1) mod 4) with 3 in G by lia|replace ((num - 1) mod 4) with 0 in G by lia|replace ((num - 1) mod 4) with 1 in G by lia|replace ((num - 1) mod 4) with 2 in G by lia];
      change (16 * 0) with 0 in G; change (16 * 1) with 16 in G; change (16 * 2) with 32 in G; cbn [Z.eqb Pos.eqb] in G; rewrite ?Z.shiftr_0_r in G; rewrite G, TS; apply wrap_small; lia. }
  rewrite R1. cbn [bind].
  assert (R2 : exists x, bch_second r (19 * s) num (ts t 0 (32768 * s)) = Ok x /\ (b < n -> x = ts t 0 (512 * (b + 1)))).
  { unfold bch_second. destruct (num =? 63) eqn:E.
    - rewrite geti_ok by lia. eexists. split; [reflexivity|]. intros Hbn. replace (19 * s + 19) with (19 * (s + 1) + 0) by lia. rewrite P1 by lia.
      unfold super_word. cbn [Z.eqb]. replace (128 * (s + 1)) with (2 * (64 * (s + 1))) by lia. rewrite T1 by lia. f_equal. lia.
    - rewrite geti_ok by (destruct (num mod 4 =? 0); lia). cbn [bind]. eexists. split; [reflexivity|]. intros Hbn.
      replace ((if num mod 4 =? 0 then num + 4 else num + 3) / 4) with (num / 4 + 1) by (destruct (num mod 4 =? 0) eqn:E4; lia). rewrite P1 by lia.
      pose proof (get_lane_ok jf t temp s num Hl T ltac:(lia) ltac:(lia) ltac:(fold n; lia)) as G.
      replace (64 * s + num + 1) with (b + 1) in G by lia.
      pose proof (ts_split t 0 (32768 * s) (512 * (b + 1)) ltac:(lia)) as TS. pose proof (ts_bound t (32768 * s) (512 * (b + 1)) ltac:(lia)) as TB.
      set (w := super_word _ _ _ _ _) in *. clearbody w. unfold get_lane in G.
      assert (C : num mod 4 = 0 \/ num mod 4 = 1 \/ num mod 4 = 2 \/ num mod 4 = 3) by lia.
      destruct C as [C|[C|[C|C]]]; rewrite C in *; change (16 * 0) with 0 in G; change (16 * 1) with 16 in G; change (16 * 2) with 32 in G; cbn [Z.eqb Pos.eqb] in G; rewrite ?Z.shiftr_0_r in G; rewrite G, TS; apply wrap_small; lia. }
  destruct R2 as (x & -> & Hx). cbn [bind].
  assert (R3 : exists p, (let* o := geti (rb_ranks r) (19 * s + 17) in bch_ptr r (19 * s) num o) = Ok p /\ 0 <= p <= 8 * ne t n /\ (b < n -> p = 8 * ne t b)).
  { rewrite geti_ok by lia. cbn [bind]. rewrite P1 by lia. pose proof (ne_bound t n ltac:(lia)) as NN.
    assert (W17 : 64 * s < n -> super_word jf temp (flags t) s 17 = 8 * ne t (64 * s)).
    { intros Hsn. unfold super_word. cbn [Z.eqb Pos.eqb Z.leb Z.compare Pos.compare Pos.compare_cont]. replace (128 * s + 1) with (2 * (64 * s) + 1) by lia. apply T2. lia. }
    pose proof (ne_mono t b n ltac:(lia)) as NM. pose proof (ne_bound t b ltac:(lia)) as NBB.
    unfold bch_ptr. destruct (num >? 0) eqn:E.
    - rewrite geti_ok by lia. cbn [bind]. rewrite geti_ok by (rewrite zlen_masks; lia). cbn [bind]. rewrite P1 by lia. eexists. split; [reflexivity|].
      rewrite W17 by lia. rewrite mask_count by lia.
      assert (SE : sumf (fun p => wbit (super_word jf temp (flags t) s 18) (63 - p)) 0 num = ne t b - ne t (64 * s)).
      { unfold ne. rewrite (sumf_split _ 0 (64 * s) b) by lia. rewrite Z.add_simpl_l. replace (64 * s) with (0 + 64 * s) by lia. replace b with (num + 64 * s) by lia.
        rewrite <- sumf_shift. apply sumf_ext. intros p Hp. unfold super_word. cbn [Z.eqb Pos.eqb Z.leb Z.compare Pos.compare Pos.compare_cont]. unfold wbit.
        rewrite (flag_bit (fun j => flag_at jf (flags t) (0 + 64 * s + j) =? 0)) by lia. rewrite zn_flag_at by (fold n; lia). replace (0 + 64 * s + p) with (p + 64 * s) by lia.
        destruct (homob t (p + 64 * s)); reflexivity. }
      rewrite SE. lia.
    - eexists. split; [reflexivity|]. assert (Ebs : b = 64 * s) by lia. destruct (Z_lt_le_dec (64 * s) n) as [Hl'|Hl'].
      + rewrite W17 by lia. rewrite <- Ebs. lia.
      + assert (W0 : super_word jf temp (flags t) s 17 = 0) by (unfold super_word; cbn [Z.eqb Pos.eqb Z.leb Z.compare Pos.compare Pos.compare_cont]; apply T3; lia).
        rewrite W0. lia. }
  destruct R3 as (p & R3 & Hp & Hpb).
  assert (R4 : forall (k : Z -> res Z), (let* o := geti (rb_ranks r) (19 * s + 17) in let* p := bch_ptr r (19 * s) num o in k p) = k p).
  { intros k. destruct (geti (rb_ranks r) (19 * s + 17)) as [o| |]; cbn [bind] in *; try discriminate. rewrite R3. reflexivity. }
  rewrite R4. destruct (Z.eq_dec b n) as [En|En].
  - assert (Ei : i = 512 * n) by lia. rewrite Ei at 1 2. replace ((512 * n) mod 512) with 0 by lia. rewrite En. unfold answer. pose proof (ts_bound t 0 (512 * n) ltac:(lia)) as TB.
    rewrite <- Ei in TB |- *. destruct (Z.land (u64 (x - ts t 0 i)) 511 =? 0).
    + f_equal. rewrite Z.mul_0_l. change (u64 0) with 0. rewrite Z.add_0_r. apply wrap_small. lia.
    + unfold count_block. change (0 / 64) with 0. cbn [Z.to_nat zrange foldM bind]. rewrite Z.add_0_r. change (0 - 64 * 0) with 0. rewrite geti_ok by lia.
      cbn [bind]. change (geti masks 0) with (@Ok Z 0). cbn [bind]. rewrite Z.land_0_r. change (popcount 0) with 0. rewrite Z.add_0_r. f_equal. apply wrap_small. lia.
  - rewrite Hx, Hpb by lia. rewrite answer_ok; auto; [do 2 f_equal; lia|fold n; lia|lia|]. intros E.
    pose proof (ne_lt t b n ltac:(lia) E). pose proof (ne_bound t b ltac:(lia)).
    apply count_block_ok; auto; try (fold n; lia); try lia. intros k Hk. apply P2; auto; lia.
Qed.
Lemma rank_bch_ok m jf t temp r i : addresses_ok m -> text_ok t -> zlen t < 2 ^ 58 -> bchP m jf t temp r -> 0 <= i <= 512 * nblk t -> rank_bch r i = Ok (ts t 0 i).
Proof.
  intros (A1 & A2 & A3 & A4) H Hl (T & L1 & L2 & _ & _ & _ & P1 & P2) Hi. pose proof (slack_ok _ A2) as S1. pose proof (slack_ok _ A4) as S2.
  apply (rank_bch_gen jf t temp); auto; lia.
Qed.
