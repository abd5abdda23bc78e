(** RankBasic32 with compressed headers. *)
From Coq Require Import ZifyBool.
From Verif Require Import Base BaseFacts Words WordFacts BlockFacts NodeFacts Trees TreeBuild MemFacts Spec BitmapFacts KernelFacts SpecPoppy PoppyFacts PoppyFacts2 SpecText MrRank MrRankFacts MrRankFacts2 MrRankFacts3 MrRank32 MrRank32Facts MrRank32Facts2.
Ltac Zify.zify_post_hook ::= Z.div_mod_to_equations.

(** ** Masks *)
Lemma masks2_bits : forallb (fun k => forallb (fun j => Bool.eqb (Z.testbit (zn 0 masks2 k) j) ((32 - k <=? j) && (j <? 32))) (zrange 0 64)) (zrange 0 32) = true.
Proof. vm_compute. reflexivity. Qed.
Lemma mask2_bit k j : 0 <= k < 32 -> 0 <= j < 64 -> Z.testbit (zn 0 masks2 k) j = ((32 - k <=? j) && (j <? 32)).
Proof.
  intros Hk Hj. pose proof masks2_bits as F. rewrite forallb_forall in F. specialize (F k ltac:(apply in_zrange; lia)).
  rewrite forallb_forall in F. specialize (F j ltac:(apply in_zrange; lia)). apply eqb_prop. exact F.
Qed.
Lemma mask2_count w k : 0 <= k < 32 -> popcount (Z.land w (zn 0 masks2 k)) = sumf (fun p => wbit w (31 - p)) 0 k.
Proof.
  intros Hk. rewrite popcount_wones. unfold wones. rewrite (sumf_split _ 0 32 64) by lia. rewrite (sumf_const0 _ 32 64), Z.add_0_r.
  2:{ intros p Hp. unfold wbit. rewrite Z.land_spec, mask2_bit by lia. replace (p <? 32) with false by lia. rewrite !andb_false_r. reflexivity. }
  rewrite <- (sum_wb 32) by lia. unfold wb.
  rewrite (sumf_split _ 0 k 32) by lia. rewrite (sumf_const0 _ k 32), Z.add_0_r.
  - apply sumf_ext. intros p Hp. unfold wbit. rewrite Z.land_spec, mask2_bit by lia. replace ((32 - k <=? 32 - 1 - p) && (32 - 1 - p <? 32)) with true by lia. rewrite andb_true_r. reflexivity.
  - intros p Hp. unfold wbit. rewrite Z.land_spec, mask2_bit by lia. replace (32 - k <=? 32 - 1 - p) with false by lia. rewrite andb_false_r. reflexivity.
Qed.
Lemma zlen_masks2 : zlen masks2 = 32.
Proof. reflexivity. Qed.

(** ** The flag word *)
Lemma flag_word32 (B : Z -> bool) : forall n, 0 <= n <= 32 -> exists A,
  sumf (fun j => if B j then 2 ^ (31 - j) else 0) 0 n = 2 ^ (32 - n) * A /\ 0 <= A < 2 ^ n /\
  forall p, 0 <= p < n -> Z.testbit A (n - 1 - p) = B p.
Proof.
  intros n [H0 Hn]. revert Hn. pattern n. apply natlike_ind; auto; clear n H0.
  - intros _. exists 0. rewrite sumf_empty by lia. repeat split; try lia.
  - intros n H0 IH Hn. destruct (IH ltac:(lia)) as (A & E & AB & P). exists (2 * A + b2z (B n)). unfold Z.succ in *.
    rewrite sumf_succ by lia. rewrite E. split; [|split].
    + replace (32 - n) with ((31 - n) + 1) by lia. replace (32 - (n + 1)) with (31 - n) by lia. rewrite Z.pow_add_r by lia. destruct (B n); cbn [b2z]; ring.
    + rewrite Z.pow_add_r by lia. destruct (B n); cbn [b2z]; lia.
    + intros p Hp. destruct (Z.eq_dec p n) as [->|].
      * replace (n + 1 - 1 - n) with 0 by lia. destruct (B n); cbn [b2z]; [apply Z.testbit_odd_0|rewrite Z.add_0_r; apply Z.testbit_even_0].
      * replace (n + 1 - 1 - p) with (Z.succ (n - 1 - p)) by lia. rewrite <- (P p) by lia.
        destruct (B n); cbn [b2z]; [apply Z.testbit_odd_succ; lia|rewrite Z.add_0_r; apply Z.testbit_even_succ; lia].
Qed.
Lemma flag_bit32 (B : Z -> bool) n p : 0 <= n <= 32 -> 0 <= p < n -> Z.testbit (sumf (fun j => if B j then 2 ^ (31 - j) else 0) 0 n) (31 - p) = B p.
Proof.
  intros Hn Hp. destruct (flag_word32 B n Hn) as (A & -> & _ & P). rewrite <- (P p Hp). rewrite Z.mul_comm, Z.mul_pow2_bits by lia. f_equal. lia.
Qed.
Lemma flag_bound32 (B : Z -> bool) n : 0 <= n <= 32 -> 0 <= sumf (fun j => if B j then 2 ^ (31 - j) else 0) 0 n < 2 ^ 32.
Proof.
  intros Hn. destruct (flag_word32 B n Hn) as (A & -> & AB & _). replace (2 ^ 32) with (2 ^ (32 - n) * 2 ^ n) by (rewrite <- Z.pow_add_r by lia; f_equal; lia).
  pose proof (Z.pow_pos_nonneg 2 (32 - n) ltac:(lia) ltac:(lia)). nia.
Qed.

(** ** One superblock *)
Definition lane32 (temp : list Z) (s j : Z) : Z := u32 (zn 0 temp (2 * (32 * s + j + 1)) - zn 0 temp (64 * s)).
Definition lanes32 (temp : list Z) (s k n : Z) : Z := u32 (sumf (fun l => lane32 temp s (2 * (k - 1) + l) * 2 ^ (16 * l)) 0 n).
Definition super_word32 (jf : Z -> Z) (temp eb : list Z) (s k : Z) : Z :=
  if k =? 0 then zn 0 temp (64 * s) else
  if k <=? 16 then lanes32 temp s k (Z.min 2 (31 - 2 * (k - 1))) else
  if k =? 17 then zn 0 temp (64 * s + 1) else
  sumf (fun j => if flag_at jf eb (32 * s + j) =? 0 then 2 ^ (31 - j) else 0) 0 31.

Definition clamp32 (x : Z) : Z := Z.min 2 (Z.max 0 x).
Definition bucketP32 (temp : list Z) (s j : Z) (v : list Z) : Prop :=
  zlen v = 19 /\ zn 0 v 0 = zn 0 temp (64 * s) /\ zn 0 v 17 = 0 /\ zn 0 v 18 = 0 /\
  forall k, 1 <= k <= 16 -> zn 0 v k = lanes32 temp s k (clamp32 (j - 2 * (k - 1))).

Lemma wrap32_add_l a b : u32 (u32 a + b) = u32 (a + b).
Proof. unfold wrap. rewrite Zplus_mod_idemp_l. reflexivity. Qed.
Lemma wrap32_add_r a b : u32 (a + u32 b) = u32 (a + b).
Proof. unfold wrap. rewrite Zplus_mod_idemp_r. reflexivity. Qed.

Lemma bucket_of32_ok strict jf temp eb s : 0 <= s -> 64 * (s + 1) <= zlen temp -> (forall k, zlen eb <= k -> 0 <= k) ->
  (strict = true -> 32 * s + 31 <= zlen eb) ->
  exists v, bucket_of32 strict jf temp eb s = Ok v /\ zlen v = 19 /\ forall k, 0 <= k < 19 -> zn 0 v k = super_word32 jf temp eb s k.
Proof.
  intros Hs Ht _ Hst. unfold bucket_of32. rewrite geti_ok by lia. cbn [bind]. replace (2 * (32 * s)) with (64 * s) by lia.
  rewrite seti_ok by (rewrite zlen_repeat; lia). cbn [bind]. set (b0 := zn 0 temp (64 * s)).
  assert (Z0 : forall k, 0 <= k < 19 -> zn 0 (repeat 0 19) k = 0).
  { intros k Hk. unfold zn. rewrite nth_repeat. reflexivity. }
  match goal with |- context [foldM ?g (zrange 0 31) ?v0] => destruct (foldM_inv g (bucketP32 temp s) 31 0 v0) as (v1 & E1 & P1) end.
  - unfold bucketP32. rewrite zlen_upd. split; [reflexivity|]. rewrite !zn_upd by (rewrite ?zlen_repeat; lia). split; [reflexivity|]. split; [reflexivity|]. split; [reflexivity|].
    intros k Hk. rewrite zn_upd by (rewrite ?zlen_repeat; lia). replace (k =? 0) with false by lia. rewrite Z0 by lia. unfold lanes32. rewrite sumf_empty; [reflexivity|unfold clamp32; lia].
  - intros j v Hj (L & V0 & V17 & V18 & VL). change (0 + Z.of_nat 31) with 31 in Hj. rewrite geti_ok by lia. cbn [bind]. rewrite geti_ok by lia. cbn [bind]. rewrite seti_ok by lia.
    eexists. split; [reflexivity|]. unfold bucketP32. rewrite zlen_upd. split; [exact L|]. rewrite !zn_upd by lia.
    replace (0 =? j / 2 + 1) with false by lia. replace (17 =? j / 2 + 1) with false by lia. replace (18 =? j / 2 + 1) with false by lia.
    split; [exact V0|]. split; [exact V17|]. split; [exact V18|]. intros k Hk. rewrite zn_upd by lia.
    destruct (k =? j / 2 + 1) eqn:E; [|rewrite VL by lia; f_equal; unfold clamp32; lia].
    replace (j / 2 + 1) with k by lia. rewrite VL by lia. unfold lanes32. rewrite wrap32_add_l, wrap32_add_r.
    replace (clamp32 (j - 2 * (k - 1))) with (j mod 2) by (unfold clamp32; lia). replace (clamp32 (j + 1 - 2 * (k - 1))) with (j mod 2 + 1) by (unfold clamp32; lia).
    rewrite sumf_succ by lia. f_equal. f_equal. rewrite Z.shiftl_mul_pow2 by lia. f_equal. unfold lane32. fold b0. do 4 f_equal. lia.
  - rewrite E1. cbn [bind]. destruct P1 as (L & V0 & V17 & V18 & VL). change (0 + Z.of_nat 31) with 31 in VL.
    rewrite geti_ok by lia. cbn [bind]. rewrite seti_ok by lia. cbn [bind].
    set (FS := fun n => sumf (fun j => if flag_at jf eb (32 * s + j) =? 0 then 2 ^ (31 - j) else 0) 0 n).
    match goal with |- context [foldM ?g (zrange 0 31) ?v0] => destruct (foldM_inv g (fun j v => zlen v = 19 /\ zn 0 v 18 = FS j /\ forall k, 0 <= k < 18 -> zn 0 v k = zn 0 v0 k) 31 0 v0) as (v2 & E2 & L2 & F2 & O2) end.
    + rewrite zlen_upd. split; [exact L|]. split; [|auto]. rewrite zn_upd by lia. cbn [Z.eqb Pos.eqb]. rewrite V18. reflexivity.
    + intros j v Hj (LL & FF & OO). change (0 + Z.of_nat 31) with 31 in Hj.
      assert (RF : read_flag strict jf eb (32 * s + j) = Ok (flag_at jf eb (32 * s + j))).
      { unfold read_flag, flag_at. destruct ((0 <=? 32 * s + j) && (32 * s + j <? zlen eb)) eqn:E.
        - rewrite orb_true_r. apply geti_ok. lia.
        - destruct strict; [specialize (Hst eq_refl); lia|reflexivity]. }
      rewrite RF. cbn [bind]. unfold FS in *. rewrite sumf_succ by lia. pose proof (flag_bound32 (fun j => flag_at jf eb (32 * s + j) =? 0) (j + 1) ltac:(lia)) as FB.
      cbn beta in FB. rewrite sumf_succ in FB by lia. destruct (flag_at jf eb (32 * s + j) =? 0).
      * rewrite geti_ok by lia. cbn [bind]. rewrite seti_ok by lia. eexists. split; [reflexivity|]. rewrite zlen_upd. split; [exact LL|]. split.
        -- rewrite zn_upd by lia. cbn [Z.eqb Pos.eqb]. rewrite FF. rewrite Z.shiftl_mul_pow2 by lia. rewrite Z.mul_1_l. apply wrap_small. lia.
        -- intros k Hk. rewrite zn_upd by lia. replace (k =? 18) with false by lia. apply OO. lia.
      * exists v. split; [reflexivity|]. split; [exact LL|]. split; [lia|exact OO].
    + exists v2. split; [exact E2|]. split; [exact L2|]. intros k Hk. unfold super_word32.
      destruct (k =? 0) eqn:K0.
      { replace k with 0 by lia. rewrite O2 by lia. rewrite zn_upd by lia. cbn [Z.eqb]. rewrite V0. reflexivity. }
      destruct (k <=? 16) eqn:K16.
      { rewrite O2 by lia. rewrite zn_upd by lia. replace (k =? 17) with false by lia. rewrite VL by lia. f_equal. unfold clamp32. lia. }
      destruct (k =? 17) eqn:K17.
      { replace k with 17 by lia. rewrite O2 by lia. rewrite zn_upd by lia. rewrite Z.eqb_refl. reflexivity. }
      replace k with 18 by lia. rewrite F2. reflexivity.
Qed.

Lemma bucket_of_fail32 jf temp eb s : 0 <= s -> 64 * (s + 1) <= zlen temp -> zlen eb < 32 * s + 31 -> bucket_of32 true jf temp eb s = Ub UB_bounds.
Proof.
  intros Hs Ht He. unfold bucket_of32. rewrite geti_ok by lia. cbn [bind]. replace (2 * (32 * s)) with (64 * s) by lia.
  rewrite seti_ok by (rewrite zlen_repeat; lia). cbn [bind].
  match goal with |- context [foldM ?g (zrange 0 31) ?v0] => destruct (foldM_inv g (fun _ v => zlen v = 19) 31 0 v0) as (v1 & E1 & P1) end.
  - rewrite zlen_upd. reflexivity.
  - intros j v Hj L. change (0 + Z.of_nat 31) with 31 in Hj. rewrite geti_ok by lia. cbn [bind]. rewrite geti_ok by lia. cbn [bind]. rewrite seti_ok by lia.
    eexists. split; [reflexivity|]. rewrite zlen_upd. exact L.
  - rewrite E1. cbn [bind]. rewrite geti_ok by lia. cbn [bind]. rewrite seti_ok by lia. cbn [bind].
    match goal with |- foldM ?g (zrange 0 31) ?v0 = _ => destruct (fold_fail g (fun j v => zlen v = 19 /\ (0 < j -> 32 * s + j <= zlen eb)) (fun _ => True) 31 ltac:(auto) 0 v0) as [(v2 & E2 & L2 & B2)|(E2 & _)] end.
    + rewrite zlen_upd. split; [exact P1|lia].
    + intros j v Hj (L & B). change (0 + Z.of_nat 31) with 31 in Hj. unfold read_flag. cbn [orb]. unfold geti at 1 3.
      destruct ((0 <=? 32 * s + j) && (32 * s + j <? zlen eb)) eqn:E; cbn [bind].
      * left. destruct (zn 0 eb (32 * s + j) =? 0).
        -- rewrite geti_ok by lia. cbn [bind]. rewrite seti_ok by lia. eexists. split; [reflexivity|]. rewrite zlen_upd. split; [exact L|lia].
        -- exists v. split; [reflexivity|]. split; [exact L|lia].
      * right. auto.
    + lia.
    + exact E2.
Qed.

(** ** The temporary headers *)
Lemma temp_len32_ok nb : 0 <= nb < 2 ^ 30 -> temp_len32 nb = 64 * (nb / 32 + 1).
Proof. intros H. unfold temp_len32. rewrite (wrap_small 32 (2 * nb + 2)) by lia. destruct ((2 * nb + 2) mod 64 >? 0) eqn:E; [rewrite wrap_small|]; lia. Qed.

Definition tempP32 (t temp : list Z) : Prop :=
  zlen temp = 64 * (nblk t / 32 + 1) /\
  (forall c, 0 <= c <= nblk t -> zn 0 temp (2 * c) = u32 (ts t 0 (512 * c))) /\
  (forall c, 0 <= c < nblk t -> zn 0 temp (2 * c + 1) = 8 * ne t c) /\
  (forall k, 2 * nblk t < k -> zn 0 temp k = 0).

Definition bchP32 (m : memory) (jf : Z -> Z) (t temp : list Z) (r : rank_basic) : Prop :=
  tempP32 t temp /\ zlen (rb_ranks r) = 19 * (nblk t / 32 + 1) + slack32 (m_addr_r m) /\ zlen (rb_bits r) = 8 * ne t (nblk t) + slack (m_addr_b m) /\
  rb_ranks_len r = 19 * (nblk t / 32 + 1) /\ rb_bits_len r = 8 * ne t (nblk t) /\ rb_text_len r = zlen t /\
  (forall s k, 0 <= s <= nblk t / 32 -> 0 <= k < 19 -> zn 0 (rb_ranks r) (19 * s + k) = super_word32 jf temp (flags t) s k) /\
  (forall c k, 0 <= c < nblk t -> homob t c = false -> 0 <= k < 8 -> zn 0 (rb_bits r) (8 * ne t c + k) = tword t (8 * c + k)).

Lemma build_bch_gen32 strict jf m t : addresses_ok m -> text_ok t -> zlen t <= 2 ^ 32 - 64 ->
  (strict = false \/ nblk t mod 32 = 31 -> exists temp r, build_bch32 strict jf m t = Ok r /\ bchP32 m jf t temp r) /\
  (strict = true -> nblk t mod 32 <> 31 -> build_bch32 strict jf m t = Ub UB_bounds).
Proof.
  intros (A1 & A2 & A3 & A4) H Hl. unfold build_bch32. rewrite empty_blocks32_ok by (auto; lia). cbn [bind]. rewrite not_empty_ok, block_count32_ok by lia.
  pose proof (nblk32 t Hl) as N0. pose proof (ne_bound t (nblk t) ltac:(lia)) as NB. pose proof (slack32_ok _ A2) as S1. pose proof (slack_ok _ A4) as S2.
  rewrite !temp_len32_ok by lia. rewrite (wrap_small 32 (ne t (nblk t) * 8)) by lia. set (n := nblk t) in *. set (tl := 64 * (n / 32 + 1)) in *.
  destruct (scan_ok32 8 t (fresh32 (m_junk_t m) tl) (fresh_aligned (m_junk_b m) (m_addr_b m) (ne t n * 8)) (or_introl eq_refl) H Hl) as (r1 & b1 & -> & L1 & L2 & P1 & P2 & P3 & P4 & P5).
  - rewrite zlen_fresh32 by lia. fold n. lia.
  - rewrite zlen_aligned by lia. fold n. change (64 / 8) with 8. lia.
  - rewrite zlen_aligned; lia.
  - change (64 / 8) with 8 in *. rewrite zlen_fresh32 in L1 by lia. rewrite zlen_aligned in L2 by lia. cbn [bind]. fold n in P1, P2, P3, P4, P5.
    destruct (foldM_inv (fun temp k => seti temp k 0) (fun j temp => zlen temp = tl /\ (forall k, 0 <= k <= 2 * n -> zn 0 temp k = zn 0 r1 k) /\
        (forall k, 2 * n < k < j -> zn 0 temp k = 0)) (Z.to_nat (tl - (2 * n + 1))) (2 * n + 1) r1) as (temp & -> & T1 & T2 & T3).
    { split; [exact L1|]. split; [auto|]. intros; lia. }
    { intros k tp Hk (Q1 & Q2 & Q3). rewrite seti_ok by lia. eexists. split; [reflexivity|]. rewrite zlen_upd. split; [exact Q1|]. split.
      - intros k' Hk'. rewrite zn_upd by lia. replace (k' =? k) with false by lia. apply Q2. lia.
      - intros k' Hk'. rewrite zn_upd by lia. destruct (k' =? k) eqn:E; [reflexivity|]. apply Q3. lia. }
    replace (2 * n + 1 + Z.of_nat (Z.to_nat (tl - (2 * n + 1)))) with tl in T3 by lia.
    assert (TP : tempP32 t temp).
    { unfold tempP32. fold n. split; [exact T1|]. split; [intros c Hc; rewrite T2 by lia; apply P1; lia|]. split; [intros c Hc; rewrite T2 by lia; apply P2; lia|].
      intros k Hk. destruct (Z_lt_le_dec k tl); [apply T3; lia|apply zn_over; lia]. }
    cbn [bind]. replace (tl / 2 / 32) with (n / 32 + 1) by lia. rewrite (wrap_small 32 ((n / 32 + 1) * 19)) by lia. assert (TL : zlen temp = 64 * (n / 32 + 1)) by exact T1. clearbody tl. clear T1 T2 T3 L1 P1 P2 P3 P5.
    assert (FO : forall f l k s, (strict = true -> 32 * (k - 1) + 31 <= n) ->
      k <= n / 32 + 1 -> 0 <= k -> s = fresh_aligned32 (m_junk_r m) (m_addr_r m) ((n / 32 + 1) * 19) ->
      f = (fun ranks s => let* v := bucket_of32 strict jf temp (flags t) s in put_words ranks (19 * s) v) -> l = zrange 0 (Z.to_nat k) ->
      exists ranks, foldM f l s = Ok ranks /\ zlen ranks = (n / 32 + 1) * 19 + slack32 (m_addr_r m) /\
        forall s k', 0 <= s < k -> 0 <= k' < 19 -> zn 0 ranks (19 * s + k') = super_word32 jf temp (flags t) s k').
    { intros f l k s HS Hk Hk0 -> -> ->. set (f0 := fresh_aligned32 _ _ _).
      destruct (foldM_inv (fun ranks s => let* v := bucket_of32 strict jf temp (flags t) s in put_words ranks (19 * s) v) (fun j ranks =>
        zlen ranks = (n / 32 + 1) * 19 + slack32 (m_addr_r m) /\ forall s k', 0 <= s < j -> 0 <= k' < 19 -> zn 0 ranks (19 * s + k') = super_word32 jf temp (flags t) s k')
        (Z.to_nat k) 0 f0) as (ranks & E & L & Q).
      - unfold f0. rewrite zlen_aligned32 by lia. split; [reflexivity|]. intros; lia.
      - intros j ranks Hj (L & Q).
        destruct (bucket_of32_ok strict jf temp (flags t) j ltac:(lia) ltac:(lia)) as (v & -> & LV & V).
        { intros x Hx. pose proof (zlen_nonneg (flags t)). lia. }
        { intros ES. rewrite zlen_flags. fold n. specialize (HS ES). lia. }
        cbn [bind]. destruct (put_words_ok ranks (19 * j) v ltac:(lia) ltac:(lia)) as (ranks' & -> & L' & Q'). exists ranks'. split; [reflexivity|].
        split; [lia|]. intros s k' Hs Hk'. rewrite Q' by lia. destruct ((19 * j <=? 19 * s + k') && (19 * s + k' <? 19 * j + zlen v)) eqn:E.
        + assert (s = j) by lia. subst s. replace (19 * j + k' - 19 * j) with k' by lia. apply V. lia.
        + apply Q; lia.
      - exists ranks. split; [exact E|]. split; [exact L|]. intros. apply Q; lia. }
    split.
    + intros C. destruct (FO (fun ranks s => let* v := bucket_of32 strict jf temp (flags t) s in put_words ranks (19 * s) v) (zrange 0 (Z.to_nat (n / 32 + 1))) (n / 32 + 1) (fresh_aligned32 (m_junk_r m) (m_addr_r m) ((n / 32 + 1) * 19))) as (ranks & -> & L & Q); try reflexivity; try lia.
      { intros ES. destruct C as [C|C]; [congruence|lia]. }
      cbn [bind]. eexists temp, _. split; [reflexivity|]. unfold bchP32. fold n. cbn [rb_ranks rb_bits rb_ranks_len rb_bits_len rb_text_len].
      split; [exact TP|]. split; [lia|]. split; [lia|]. split; [lia|]. split; [lia|]. split; [reflexivity|]. split; [|exact P4].
      intros s k Hs Hk. apply Q; lia.
    + intros ES Hn. replace (Z.to_nat (n / 32 + 1)) with (S (Z.to_nat (n / 32))) by lia. rewrite zrange_last.
      assert (FA : forall {S} (f : S -> Z -> res S) l1 l2 s, foldM f (l1 ++ l2) s = (let* s' := foldM f l1 s in foldM f l2 s')).
      { clear. intros S f l1. induction l1 as [|x l1 IH]; intros l2 s; [reflexivity|]. cbn [app foldM]. destruct (f s x); cbn [bind]; auto. }
      rewrite FA. destruct (FO (fun ranks s => let* v := bucket_of32 strict jf temp (flags t) s in put_words ranks (19 * s) v) (zrange 0 (Z.to_nat (n / 32))) (n / 32) (fresh_aligned32 (m_junk_r m) (m_addr_r m) ((n / 32 + 1) * 19))) as (ranks & -> & L & Q); try reflexivity; try lia.
      cbn [bind foldM]. subst strict. rewrite bucket_of_fail32; [reflexivity|lia|lia|]. rewrite zlen_flags. fold n. lia.
Qed.

(** ** Queries *)
Lemma wrap32_sub a b : u32 (u32 a - u32 b) = u32 (a - b).
Proof. unfold wrap. rewrite <- Zminus_mod. reflexivity. Qed.
Lemma lane32_ok t temp s j : tempP32 t temp -> 0 <= s -> 0 <= j <= 30 -> 32 * s + j + 1 <= nblk t ->
  lane32 temp s j = ts t (16384 * s) (512 * (32 * s + j + 1)).
Proof.
  intros (L & T1 & T2 & T3) Hs Hj Hn. unfold lane32. replace (64 * s) with (2 * (32 * s)) by lia. rewrite !T1 by lia. rewrite wrap32_sub.
  rewrite (ts_split t 0 (512 * (32 * s)) (512 * (32 * s + j + 1))) by lia. replace (512 * (32 * s)) with (16384 * s) by lia.
  rewrite Z.add_simpl_l. apply wrap_small. pose proof (ts_bound t (16384 * s) (512 * (32 * s + j + 1)) ltac:(lia)). lia.
Qed.
Lemma lane32_nonneg temp s j : 0 <= lane32 temp s j.
Proof. apply wrap_bound. lia. Qed.

Lemma lanes_two temp s k n : n = 1 \/ n = 2 -> exists V1, 0 <= V1 /\ (n = 2 -> V1 = lane32 temp s (2 * (k - 1) + 1)) /\
  lanes32 temp s k n = (lane32 temp s (2 * (k - 1)) + V1 * 2 ^ 16) mod 2 ^ 32.
Proof.
  intros [->| ->]; [exists 0|exists (lane32 temp s (2 * (k - 1) + 1))]; (split; [try apply lane32_nonneg; lia|]); (split; [try lia; auto|]); unfold lanes32, wrap.
  - replace (sumf _ 0 1) with (lane32 temp s (2 * (k - 1) + 0) * 2 ^ (16 * 0) + 0) by reflexivity.
    rewrite !Z.add_0_r. f_equal. change (16 * 0) with 0. ring.
  - replace (sumf _ 0 2) with (lane32 temp s (2 * (k - 1) + 0) * 2 ^ (16 * 0) + (lane32 temp s (2 * (k - 1) + 1) * 2 ^ (16 * 1) + 0)) by reflexivity.
    rewrite !Z.add_0_r. f_equal. change (16 * 0) with 0. change (16 * 1) with 16. ring.
Qed.

Definition get_lane32 (w l : Z) : Z := if l =? 0 then Z.land w 0xFFFF else Z.shiftr w 16.

Lemma get_lane32_ok jf t temp s j : tempP32 t temp -> 0 <= s -> 0 <= j <= 30 -> 32 * s + j + 1 <= nblk t ->
  get_lane32 (super_word32 jf temp (flags t) s (j / 2 + 1)) (j mod 2) = ts t (16384 * s) (512 * (32 * s + j + 1)).
Proof.
  intros T Hs Hj Hn. unfold super_word32. replace (j / 2 + 1 =? 0) with false by lia. replace (j / 2 + 1 <=? 16) with true by lia.
  assert (V : forall j', 0 <= j' <= j -> 0 <= lane32 temp s j' < 65536).
  { intros j' Hj'. rewrite lane32_ok with (t := t) by (auto; lia). pose proof (ts_bound t (16384 * s) (512 * (32 * s + j' + 1)) ltac:(lia)). lia. }
  rewrite <- (lane32_ok t temp s j T Hs Hj Hn). set (k := j / 2 + 1).
  destruct (lanes_two temp s k (Z.min 2 (31 - 2 * (k - 1))) ltac:(lia)) as (V1 & V10 & V1e & ->). unfold get_lane32.
  pose proof (V (2 * (k - 1)) ltac:(lia)) as B0.
  change 0xFFFF with (Z.ones 16). rewrite Z.land_ones, !Z.shiftr_div_pow2 by lia.
  assert (C : j mod 2 = 0 \/ j mod 2 = 1) by lia.
  destruct C as [C|C]; rewrite C.
  - change (0 =? 0) with true. cbv iota. replace (lane32 temp s j) with (lane32 temp s (2 * (k - 1))) by (f_equal; lia).
    set (a := lane32 temp s (2 * (k - 1))) in *. clearbody a. clear - B0 V10. lia.
  - change (1 =? 0) with false. cbv iota. pose proof (V (2 * (k - 1) + 1) ltac:(lia)) as B1.
    rewrite <- V1e in B1 by lia. replace (lane32 temp s j) with (lane32 temp s (2 * (k - 1) + 1)) by (f_equal; lia). rewrite <- V1e by lia.
    set (a := lane32 temp s (2 * (k - 1))) in *. clearbody a. clear - B0 B1. lia.
Qed.

(** The three reads of getRank_bch. *)
Definition bch_first32 (t : rank_basic) (p2 num first : Z) : res Z :=
  if num >? 0 then
      let* w := geti (rb_ranks t) (p2 + (num + 1) / 2) in
      Ok (u32 (first + (if num mod 2 =? 1 then Z.land w 0xFFFF else Z.shiftr w 16)))
    else Ok first.
Definition bch_second32 (t : rank_basic) (p2 num first : Z) : res Z :=
  if num =? 31 then geti (rb_ranks t) (p2 + 19) else
      let* w := geti (rb_ranks t) (p2 + (num + 2) / 2) in
      Ok (u32 (first + (if num mod 2 =? 0 then Z.land w 0xFFFF else Z.shiftr w 16))).
Definition bch_ptr32 (t : rank_basic) (p2 num o : Z) : res Z :=
  if num >? 0 then
      let* f := geti (rb_ranks t) (p2 + 18) in
      let* m := geti masks2 num in
      Ok (o + 8 * popcount (Z.land f m))
    else Ok o.

Lemma rank_bch32_form t i : rank_bch32 t i =
  let p2 := 19 * (i / 512 / 32) in let num := i / 512 mod 32 in
  let* first := geti (rb_ranks t) p2 in
  let* rank := bch_first32 t p2 num first in
  let* rank2 := bch_second32 t p2 num first in
  answer32 rank rank2 (i mod 512) (let* o := geti (rb_ranks t) (p2 + 17) in let* p := bch_ptr32 t p2 num o in count_block32 (rb_bits t) p (i mod 512) rank).
Proof. reflexivity. Qed.

Lemma rank_bch32_gen jf t temp r i : text_ok t -> zlen t <= 2 ^ 32 - 64 -> tempP32 t temp ->
  19 * (nblk t / 32 + 1) + 1 <= zlen (rb_ranks r) -> 8 * ne t (nblk t) <= zlen (rb_bits r) -> (i = 512 * nblk t -> 8 * ne t (nblk t) < zlen (rb_bits r)) ->
  (forall s k, 0 <= s <= nblk t / 32 -> 0 <= k < 19 -> zn 0 (rb_ranks r) (19 * s + k) = super_word32 jf temp (flags t) s k) ->
  (forall c k, 0 <= c < nblk t -> homob t c = false -> 0 <= k < 8 -> zn 0 (rb_bits r) (8 * ne t c + k) = tword t (8 * c + k)) ->
  0 <= i <= 512 * nblk t -> i < 2 ^ 32 -> rank_bch32 r i = Ok (ts t 0 i).
Proof.
  intros H Hl T L1 L2 L3 P1 P2 Hi Hi2. rewrite rank_bch32_form. cbv zeta.
  pose proof (nblk32 t Hl) as NB. set (n := nblk t) in *.
  pose proof T as (T0 & T1 & T2 & T3). fold n in T0, T1, T2, T3.
  set (b := i / 512). assert (Hb : 0 <= b <= n) by lia. set (s := b / 32). set (num := b mod 32).
  assert (Hs : 0 <= s <= n / 32) by lia. assert (Hnum : 0 <= num < 32) by lia. assert (Eb : b = 32 * s + num) by lia.
  rewrite geti_ok by lia. cbn [bind]. replace (19 * s) with (19 * s + 0) by lia. rewrite P1 by lia. rewrite Z.add_0_r.
  replace (super_word32 jf temp (flags t) s 0) with (u32 (ts t 0 (16384 * s))).
  2:{ unfold super_word32. cbn [Z.eqb]. replace (64 * s) with (2 * (32 * s)) by lia. rewrite T1 by lia. do 2 f_equal. lia. }
  assert (R1 : bch_first32 r (19 * s) num (u32 (ts t 0 (16384 * s))) = Ok (ts t 0 (512 * b))).
  { unfold bch_first32. destruct (num >? 0) eqn:E.
    2:{ replace (16384 * s) with (512 * b) by lia. rewrite ts_small by lia. reflexivity. }
    rewrite geti_ok by lia. cbn [bind]. rewrite P1 by lia. f_equal.
    pose proof (get_lane32_ok jf t temp s (num - 1) T ltac:(lia) ltac:(lia) ltac:(fold n; lia)) as G.
    replace ((num - 1) / 2 + 1) with ((num + 1) / 2) in G by lia. replace (32 * s + (num - 1) + 1) with b in G by lia.
    pose proof (ts_split t 0 (16384 * s) (512 * b) ltac:(lia)) as TS.
    set (w := super_word32 _ _ _ _ _) in *. clearbody w. unfold get_lane32 in G.
    replace ((num - 1) mod 2 =? 0) with (num mod 2 =? 1) in G by lia. rewrite G, wrap32_add_l, <- TS. apply ts_small. lia. }
  rewrite R1. cbn [bind].
  assert (R2 : exists x, bch_second32 r (19 * s) num (u32 (ts t 0 (16384 * s))) = Ok x /\ (b < n -> x = u32 (ts t 0 (512 * (b + 1))))).
  { unfold bch_second32. destruct (num =? 31) eqn:E.
    - rewrite geti_ok by lia. eexists. split; [reflexivity|]. intros Hbn. replace (19 * s + 19) with (19 * (s + 1) + 0) by lia. rewrite P1 by lia.
      unfold super_word32. cbn [Z.eqb]. replace (64 * (s + 1)) with (2 * (32 * (s + 1))) by lia. rewrite T1 by lia. do 2 f_equal. lia.
    - rewrite geti_ok by lia. cbn [bind]. eexists. split; [reflexivity|]. intros Hbn.
      replace ((num + 2) / 2) with (num / 2 + 1) by lia. rewrite P1 by lia.
      pose proof (get_lane32_ok jf t temp s num T ltac:(lia) ltac:(lia) ltac:(fold n; lia)) as G.
      replace (32 * s + num + 1) with (b + 1) in G by lia.
      pose proof (ts_split t 0 (16384 * s) (512 * (b + 1)) ltac:(lia)) as TS.
      set (w := super_word32 _ _ _ _ _) in *. clearbody w. unfold get_lane32 in G.
      rewrite G, wrap32_add_l, <- TS. reflexivity. }
  destruct R2 as (x & -> & Hx). cbn [bind].
  assert (R3 : exists p, (let* o := geti (rb_ranks r) (19 * s + 17) in bch_ptr32 r (19 * s) num o) = Ok p /\ 0 <= p <= 8 * ne t n /\ (b < n -> p = 8 * ne t b)).
  { rewrite geti_ok by lia. cbn [bind]. rewrite P1 by lia. pose proof (ne_bound t n ltac:(lia)) as NN.
    assert (W17 : 32 * s < n -> super_word32 jf temp (flags t) s 17 = 8 * ne t (32 * s)).
    { intros Hsn. unfold super_word32. cbn [Z.eqb Pos.eqb Z.leb Z.compare Pos.compare Pos.compare_cont]. replace (64 * s + 1) with (2 * (32 * s) + 1) by lia. apply T2. lia. }
    pose proof (ne_mono t b n ltac:(lia)) as NM. pose proof (ne_bound t b ltac:(lia)) as NBB.
    unfold bch_ptr32. destruct (num >? 0) eqn:E.
    - rewrite geti_ok by lia. cbn [bind]. rewrite geti_ok by (rewrite zlen_masks2; lia). cbn [bind]. rewrite P1 by lia. eexists. split; [reflexivity|].
      rewrite W17 by lia. rewrite mask2_count by lia.
      assert (SE : sumf (fun p => wbit (super_word32 jf temp (flags t) s 18) (31 - p)) 0 num = ne t b - ne t (32 * s)).
      { unfold ne. rewrite (sumf_split _ 0 (32 * s) b) by lia. rewrite Z.add_simpl_l. replace (32 * s) with (0 + 32 * s) by lia. replace b with (num + 32 * s) by lia.
        rewrite <- sumf_shift. apply sumf_ext. intros p Hp. unfold super_word32. cbn [Z.eqb Pos.eqb Z.leb Z.compare Pos.compare Pos.compare_cont]. unfold wbit.
        rewrite (flag_bit32 (fun j => flag_at jf (flags t) (0 + 32 * s + j) =? 0)) by lia. rewrite zn_flag_at by (fold n; lia). replace (0 + 32 * s + p) with (p + 32 * s) by lia.
        destruct (homob t (p + 32 * s)); reflexivity. }
      rewrite SE. lia.
    - eexists. split; [reflexivity|]. assert (Ebs : b = 32 * s) by lia. destruct (Z_lt_le_dec (32 * s) n) as [Hl'|Hl'].
      + rewrite W17 by lia. rewrite <- Ebs. lia.
      + assert (W0 : super_word32 jf temp (flags t) s 17 = 0) by (unfold super_word32; cbn [Z.eqb Pos.eqb Z.leb Z.compare Pos.compare Pos.compare_cont]; apply T3; lia).
        rewrite W0. lia. }
  destruct R3 as (p & R3 & Hp & Hpb).
  assert (R4 : forall (k : Z -> res Z), (let* o := geti (rb_ranks r) (19 * s + 17) in let* p := bch_ptr32 r (19 * s) num o in k p) = k p).
  { intros k. destruct (geti (rb_ranks r) (19 * s + 17)) as [o| |]; cbn [bind] in *; try discriminate. rewrite R3. reflexivity. }
  rewrite R4. destruct (Z.eq_dec b n) as [En|En].
  - assert (Ei : i = 512 * n) by lia. rewrite Ei at 1 2. replace ((512 * n) mod 512) with 0 by lia. rewrite En. unfold answer32. pose proof (ts_bound t 0 (512 * n) ltac:(lia)) as TB.
    rewrite <- Ei in TB |- *. destruct (Z.land (u32 (x - ts t 0 i)) 511 =? 0).
    + f_equal. rewrite Z.mul_0_l. change (u32 0) with 0. rewrite Z.add_0_r. apply wrap_small. lia.
    + unfold count_block32. change (0 / 64) with 0. cbn [Z.to_nat zrange foldM bind]. rewrite Z.add_0_r. change (0 - 64 * 0) with 0. rewrite geti_ok by lia.
      cbn [bind]. change (geti masks 0) with (@Ok Z 0). cbn [bind]. rewrite Z.land_0_r. change (popcount 0) with 0. rewrite Z.add_0_r. f_equal. apply wrap_small. lia.
  - rewrite Hx, Hpb by lia. rewrite answer32_ok; [do 2 f_equal; lia|lia|lia|lia|]. intros E.
    pose proof (ne_lt t b n ltac:(lia) E). pose proof (ne_bound t b ltac:(lia)).
    apply count_block32_ok; auto; try (fold n; lia); try lia. intros k Hk. apply P2; auto; lia.
Qed.
Lemma rank_bch32_ok m jf t temp r i : addresses_ok m -> text_ok t -> zlen t <= 2 ^ 32 - 64 -> bchP32 m jf t temp r -> 0 <= i <= 512 * nblk t -> i < 2 ^ 32 -> rank_bch32 r i = Ok (ts t 0 i).
Proof.
  intros (A1 & A2 & A3 & A4) H Hl (T & L1 & L2 & _ & _ & _ & P1 & P2) Hi Hi2. pose proof (slack32_ok _ A2) as S1. pose proof (slack_ok _ A4) as S2.
  apply (rank_bch32_gen jf t temp); auto; lia.
Qed.

(** Texts longer than 2^32 - 64 bytes give what the empty text gives. *)
Definition with_len (n : Z) (r : rank_basic) : rank_basic :=
  {| rb_ranks := rb_ranks r; rb_ranks_len := rb_ranks_len r; rb_bits := rb_bits r; rb_bits_len := rb_bits_len r; rb_text_len := n |}.
Lemma std32_as_empty m t : 2 ^ 32 - 64 < zlen t < 2 ^ 32 -> build_std32 m t = let* r := build_std32 m [] in Ok (with_len (zlen t) r).
Proof.
  intros Hl. unfold build_std32, empty_blocks32, scan32. rewrite block_count_top by lia. change (block_count32 (zlen [])) with 0. cbn [Z.to_nat zrange mapM bind foldM].
  destruct (seti _ _ _); reflexivity.
Qed.
Lemma bch32_as_empty strict jf m t : 2 ^ 32 - 64 < zlen t < 2 ^ 32 -> build_bch32 strict jf m t = let* r := build_bch32 strict jf m [] in Ok (with_len (zlen t) r).
Proof.
  intros Hl. unfold build_bch32, empty_blocks32, scan32. rewrite block_count_top by lia. change (block_count32 (zlen [])) with 0. cbn [zrange mapM bind].
  set (n0 := Z.to_nat 0). change n0 with O. cbn [zrange mapM bind]. change (foldM ?f [] ?s) with (Ok s). cbn [bind].
  destruct (seti _ _ _); [|reflexivity|reflexivity]. cbn [bind]. destruct (foldM _ _ _); [|reflexivity|reflexivity]. cbn [bind]. destruct (foldM _ _ _); reflexivity.
Qed.
