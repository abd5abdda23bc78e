(** Facts for C125. *)
From Coq Require Import ZifyBool.
From Verif Require Import Base BaseFacts SpecHft Hft HftFacts HftLayF SpecHoles HftHoles.

Definition hsh (small : bool) (bs : Z) : Z := (if small then 18 else 28) + (64 - bs) mod 8.
Definition bq (small : bool) (bs x : Z) : Z :=
  x * small_of bs + x / 2 ^ (8 * small_of bs - bs + 1) + x / 2 ^ (8 * small_of bs - bs + 9) * (7 - small_of bs) + (if 32 <=? bs then 0 else x / 2 ^ hsh small bs).

Lemma hsh_nonneg small bs : 0 <= hsh small bs.
Proof. unfold hsh. destruct small; lia. Qed.

Lemma bq_mono small bs n x y : 1 <= bs <= 64 -> bs + Z.log2 n <= 64 -> 0 <= x <= y -> y <= n -> bq small bs x <= bq small bs y.
Proof.
  intros Hb HL Hx Hy. assert (Rx : 0 <= x <= n) by lia. assert (Ry : 0 <= y <= n) by lia. destruct (small_range bs Hb) as (S1' & S2). unfold bq.
  pose proof (hsh_nonneg small bs) as HN. set (q := hsh small bs) in *. clearbody q.
  pose proof (div_mono (8 * small_of bs - bs + 1) x y ltac:(lia) ltac:(lia)).
  pose proof (div_mono (8 * small_of bs - bs + 9) x y ltac:(lia) ltac:(lia)).
  pose proof (div_mono q x y HN ltac:(lia)).
  destruct (Z.eq_dec (small_of bs) 8) as [E|N].
  - destruct (bp_large0 bs n x Hb HL Rx E) as (-> & ->). destruct (bp_large0 bs n y Hb HL Ry E) as (-> & ->). rewrite E. set (c := x / _) in *. set (c' := y / _) in *. clearbody c c'. clear - H1 Hx. destruct (32 <=? bs); lia.
  - set (a := x / 2 ^ (8 * small_of bs - bs + 1)) in *. set (b := x / 2 ^ (8 * small_of bs - bs + 9)) in *. set (c := x / 2 ^ q) in *.
    set (a' := y / 2 ^ (8 * small_of bs - bs + 1)) in *. set (b' := y / 2 ^ (8 * small_of bs - bs + 9)) in *. set (c' := y / 2 ^ q) in *.
    set (s := small_of bs) in *. clearbody a b c a' b' c' s. clear - H H0 H1 S1' N Hx. assert (x * s <= y * s) by nia. assert (b * (7 - s) <= b' * (7 - s)) by nia. destruct (32 <=? bs); lia.
Qed.

Lemma bq_step small bs n i : 1 <= bs <= 64 -> bs + Z.log2 n <= 64 -> 1 <= i <= n -> bq small bs (i - 1) + heightsize bs (ht i) <= bq small bs i /\ 1 <= heightsize bs (ht i) <= 8.
Proof.
  intros Hb HL Hi. destruct (small_range bs Hb) as (S1' & S2). pose proof (ht_log i n Hi) as HT. rewrite heightsize_ok. split; [|lia]. unfold bq.
  pose proof (hsh_nonneg small bs) as HN. set (q := hsh small bs) in *. clearbody q.
  pose proof (div_step (8 * small_of bs - bs + 1) i ltac:(lia) ltac:(lia)) as D1.
  pose proof (div_step (8 * small_of bs - bs + 9) i ltac:(lia) ltac:(lia)) as D2.
  pose proof (div_mono q (i - 1) i HN ltac:(lia)) as D3.
  rewrite D1, D2. set (a := (i - 1) / 2 ^ (8 * small_of bs - bs + 1)) in *. set (b := (i - 1) / 2 ^ (8 * small_of bs - bs + 9)) in *.
  set (c := (i - 1) / 2 ^ q) in *. set (c' := i / 2 ^ q) in *. clearbody a b c c'. clear D1 D2.
  unfold small_of in *. set (h := ht i) in *. clearbody h.
  assert (Hc : (if 32 <=? bs then 0 else c) <= (if 32 <=? bs then 0 else c')) by (destruct (32 <=? bs); lia).
  set (s := (bs - 1) / 8 + 1) in *. replace (i * s) with ((i - 1) * s + s) by ring.
  assert (Hs : bs <= 8 * s /\ 8 * s < bs + 8) by (unfold s; lia). clearbody s.
  destruct (Z.leb_spec (8 * s - bs + 1) h), (Z.leb_spec (8 * s - bs + 9) h); nia || lia.
Qed.

Lemma bq_bound small bs x : 1 <= bs <= 64 -> 0 <= x <= 2 ^ 48 -> (small_of bs = 8 -> x / 2 ^ (8 * small_of bs - bs + 9) = 0) -> 0 <= bq small bs x <= 2 ^ 56.
Proof.
  intros Hb Hx H8. destruct (small_range bs Hb) as (S1' & S2). unfold bq.
  pose proof (hsh_nonneg small bs) as HN. set (q := hsh small bs) in *. clearbody q.
  pose proof (div_le_self (8 * small_of bs - bs + 1) x ltac:(lia) ltac:(lia)).
  pose proof (div_le_self (8 * small_of bs - bs + 9) x ltac:(lia) ltac:(lia)).
  pose proof (div_le_self q x HN ltac:(lia)).
  set (a := x / 2 ^ (8 * small_of bs - bs + 1)) in *. set (b := x / 2 ^ (8 * small_of bs - bs + 9)) in *. set (c := x / 2 ^ q) in *.
  set (s := small_of bs) in *. clearbody a b c s. clear - Hx H H0 H1 S1' H8.
  assert (0 <= x * s <= 8 * x) by nia. assert (0 <= b * (7 - s) <= 6 * x).
  { destruct (Z.eq_dec s 8) as [->|]; [rewrite H8 by auto; lia|]. nia. }
  destruct (32 <=? bs); lia.
Qed.

Lemma pos_opt_ok small bs n i : 1 <= bs <= 64 -> bs + Z.log2 n <= 64 -> n <= 2 ^ 48 -> 1 <= i <= n + 1 -> pos_opt small bs i = bq small bs (i - 1) /\ 0 <= bq small bs (i - 1) <= 2 ^ 56.
Proof.
  intros Hb HL Hn Hi. destruct (small_range bs Hb) as (S1' & S2).
  assert (H8 : small_of bs = 8 -> (i - 1) / 2 ^ (8 * small_of bs - bs + 9) = 0) by (intros E; apply (bp_large0 bs n (i - 1) Hb HL ltac:(lia) E)).
  pose proof (bq_bound small bs (i - 1) Hb ltac:(lia) H8) as BB. split; [|exact BB].
  unfold pos_opt, holes_opt. fold (hsh small bs). pose proof (hsh_nonneg small bs) as HN.
  rewrite (wrap_small 64 (i - 1)) by lia. rewrite lor7 by lia. rewrite !Z.shiftr_div_pow2 by lia. change (2 ^ 3) with 8.
  fold (small_of bs). replace (8 * small_of bs - bs + 1 + 8) with (8 * small_of bs - bs + 9) by lia.
  rewrite <- (wrap_small 64 (bq small bs (i - 1))) by lia. unfold bq.
  destruct (Z.eq_dec (small_of bs) 8) as [E|N].
  - rewrite H8 by auto. rewrite !Z.mul_0_l. reflexivity.
  - rewrite (wrap_small 64 (8 - small_of bs - 1)) by lia. replace (8 - small_of bs - 1) with (7 - small_of bs) by lia. reflexivity.
Qed.

Lemma bytes_opt_ok small bs n : 1 <= bs <= 64 -> 0 <= n <= 2 ^ 48 -> bs + Z.log2 n <= 64 -> bytes_opt small bs n = bq small bs n + 8.
Proof.
  intros Hb Hn HL. unfold bytes_opt. rewrite (wrap_small 64 (n + 1)) by lia.
  destruct (pos_opt_ok small bs n (n + 1) Hb HL ltac:(lia) ltac:(lia)) as (-> & BB). replace (n + 1 - 1) with n in * by lia. apply wrap_small. lia.
Qed.

Lemma ht_divide i h : 0 < i -> 0 <= h -> (2 ^ h | i) -> h <= ht i.
Proof.
  intros Hi Hh (q & E). pose proof (div_step h i Hh Hi) as D. destruct (h <=? ht i) eqn:L; [lia|]. exfalso.
  assert (P : 0 < 2 ^ h) by (apply Z.pow_pos_nonneg; lia).
  assert (i / 2 ^ h = q) by (rewrite E; apply Z.div_mul; lia). assert ((i - 1) / 2 ^ h < q) by (apply Z.div_lt_upper_bound; lia). lia.
Qed.

(** ** The theorems *)
Lemma nodes_ok small B n : 0 <= B < 2 ^ 64 -> 0 <= n <= 2 ^ 48 -> bound_size B + Z.log2 n <= 64 -> exists w,
  (forall i, 1 <= i <= n -> width_opt (bound_size B) i = Ok (w i) /\ forall h, 0 <= h -> (2 ^ h | i) -> B * 2 ^ h < 2 ^ (8 * w i)) /\
  nodes_apart n (bytes_opt small (bound_size B) n) (pos_opt small (bound_size B)) w.
Proof.
  intros HB0 Hn HL. destruct (bound_size_ok B HB0) as (_ & Hb & HBB). set (bs := bound_size B) in *. exists (fun i => heightsize bs (ht i)).
  assert (PO : forall i, 1 <= i <= n -> pos_opt small bs i = bq small bs (i - 1) /\ 0 <= bq small bs (i - 1)).
  { intros i Hi. destruct (pos_opt_ok small bs n i Hb HL ltac:(lia) ltac:(lia)) as (E & R). split; [exact E|lia]. }
  split.
  - intros i Hi. split; [unfold width_opt; rewrite rho_ok by lia; reflexivity|]. intros h Hh HD. pose proof (ht_divide i h ltac:(lia) Hh HD) as L.
    rewrite heightsize_ok. assert (bs + h <= 8 * ((ht i + bs - 1) / 8 + 1)) by lia.
    assert (2 ^ (bs + h) <= 2 ^ (8 * ((ht i + bs - 1) / 8 + 1))) by (apply Z.pow_le_mono_r; lia). rewrite Z.pow_add_r in H0 by lia.
    assert (0 < 2 ^ h) by (apply Z.pow_pos_nonneg; lia). nia.
  - rewrite (bytes_opt_ok small bs n Hb Hn HL). split.
    + intros i Hi. destruct (PO i Hi) as (-> & P). destruct (bq_step small bs n i Hb HL Hi) as (_ & W). pose proof (bq_mono small bs n (i - 1) n Hb HL ltac:(lia) ltac:(lia)). lia.
    + intros i j Hi Hj. destruct (PO i ltac:(lia)) as (-> & _). destruct (PO j ltac:(lia)) as (-> & _). destruct (bq_step small bs n i Hb HL ltac:(lia)) as (S & _).
      pose proof (bq_mono small bs n i (j - 1) Hb HL ltac:(lia) ltac:(lia)). lia.
Qed.

Lemma holes_cost B n : 0 <= B < 2 ^ 64 -> 0 <= n <= 2 ^ 48 -> bound_size B + Z.log2 n <= 64 ->
  bytes_opt true (bound_size B) n - bytes_opt false (bound_size B) n =
    if 32 <=? bound_size B then 0 else n / 2 ^ (18 + (64 - bound_size B) mod 8) - n / 2 ^ (28 + (64 - bound_size B) mod 8).
Proof.
  intros HB0 Hn HL. destruct (bound_size_ok B HB0) as (_ & Hb & HBB). set (bs := bound_size B) in *. rewrite !(bytes_opt_ok _ bs n Hb Hn HL). unfold bq, hsh. destruct (32 <=? bs); lia.
Qed.

Lemma opt_same bs n : pos_opt false bs n = bytef_pos bs n /\ forall B, bytes_opt false (bound_size B) n = f_bytes ByteF B n.
Proof. split; reflexivity. Qed.
