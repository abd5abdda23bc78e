(** Facts about SelectBasic64 of include/mranisz: ones, blocks and their sizes. *)
From Coq Require Import ZifyBool.
From Verif Require Import Base BaseFacts Mem MemFacts Words WordFacts BlockFacts NodeFacts Trees TreeBuild Spec BitmapFacts KernelFacts SpecPoppy PoppyFacts PoppyFacts2 SpecText MrRank MrRankFacts MrSelect.
Ltac Zify.zify_post_hook ::= Z.div_mod_to_equations.

(** ** Positions of the ones *)
Lemma filter_pos f n : let l := filter f (zrange 0 n) in
  zlen l = sumf (fun i => b2z (f i)) 0 (Z.of_nat n) /\
  forall k, 0 <= k < zlen l -> 0 <= zn 0 l k < Z.of_nat n /\ f (zn 0 l k) = true /\ sumf (fun i => b2z (f i)) 0 (zn 0 l k) = k.
Proof.
  cbv zeta. induction n as [|n [IH1 IH2]].
  - cbn. split; [reflexivity|]. intros k Hk. unfold zlen in Hk. cbn in Hk. lia.
  - rewrite zrange_last, filter_app. cbn [filter]. rewrite Z.add_0_l.
    replace (Z.of_nat (S n)) with (Z.of_nat n + 1) by lia. rewrite sumf_succ by lia.
    destruct (f (Z.of_nat n)) eqn:E.
    + rewrite zlen_app, IH1. split; [reflexivity|]. intros k Hk.
      destruct (Z_lt_le_dec k (zlen (filter f (zrange 0 n)))) as [H|H].
      * rewrite zn_app_l by lia. destruct (IH2 k ltac:(lia)) as (A & B & C). repeat split; auto; lia.
      * rewrite zn_app_r by lia. change (zlen [Z.of_nat n]) with 1 in Hk. replace (k - zlen (filter f (zrange 0 n))) with 0 by lia.
        rewrite zn_cons_0. repeat split; auto; lia.
    + rewrite app_nil_r. cbn [b2z]. rewrite Z.add_0_r. split; [exact IH1|]. intros k Hk.
      destruct (IH2 k Hk) as (A & B & C). repeat split; auto; lia.
Qed.

Definition K (t : list Z) : Z := ts t 0 (8 * zlen t).
Definition P (t : list Z) (k : Z) : Z := nth_one (text_bits t) k.

Lemma K_ones t : K t = count_true (text_bits t).
Proof.
  unfold K. rewrite <- ones_text by (pose proof (zlen_nonneg t); lia). unfold ones_before. rewrite firstn_all2; [reflexivity|].
  pose proof (zlen_text_bits t). unfold zlen in *. lia.
Qed.
Lemma K_bound t : 0 <= K t <= 8 * zlen t.
Proof. pose proof (zlen_nonneg t). pose proof (ts_bound t 0 (8 * zlen t) ltac:(lia)). unfold K. lia. Qed.

Lemma P_spec t k : 1 <= k <= K t -> 0 <= P t k < 8 * zlen t /\ tb t (P t k) = 1 /\ ts t 0 (P t k) = k - 1.
Proof.
  intros Hk. pose proof (filter_pos (bit (text_bits t)) (length (text_bits t))) as [E F]. fold (one_positions (text_bits t)) in *.
  assert (N : Z.of_nat (length (text_bits t)) = 8 * zlen t) by (rewrite <- zlen_text_bits; reflexivity).
  assert (X : forall b, 0 <= b <= 8 * zlen t -> sumf (fun i => b2z (bit (text_bits t) i)) 0 b = ts t 0 b).
  { intros b Hb. apply sumf_ext. intros i Hi. rewrite tb_bit by lia. reflexivity. }
  rewrite N in *. pose proof (zlen_nonneg t). rewrite (X (8 * zlen t)) in E by lia. fold (K t) in E.
  destruct (F (k - 1) ltac:(lia)) as (A & B & C). fold (nth_one (text_bits t) k) in *. fold (P t k) in *.
  rewrite X in C by lia. rewrite tb_bit by lia. rewrite B. auto.
Qed.
Lemma ts_succ t a b : a <= b -> ts t a (b + 1) = ts t a b + tb t b.
Proof. intros. apply sumf_succ. lia. Qed.
Lemma ts_mono t a b : 0 <= a <= b -> ts t 0 a <= ts t 0 b.
Proof. intros. rewrite (ts_split t 0 a b) by lia. pose proof (ts_bound t a b ltac:(lia)). lia. Qed.
Lemma P_uniq t k p : 1 <= k <= K t -> 0 <= p -> tb t p = 1 -> ts t 0 p = k - 1 -> p = P t k.
Proof.
  intros Hk Hp H1 H2. destruct (P_spec t k Hk) as (A & B & C).
  destruct (Z.lt_trichotomy p (P t k)) as [L|[E|L]]; auto; exfalso.
  - pose proof (ts_mono t (p + 1) (P t k) ltac:(lia)). rewrite ts_succ in * by lia. lia.
  - pose proof (ts_mono t (P t k + 1) p ltac:(lia)). rewrite ts_succ in * by lia. lia.
Qed.
Lemma P_is_select t k : 1 <= k <= K t -> is_select (text_bits t) (k - 1) (P t k).
Proof.
  intros Hk. destruct (P_spec t k Hk) as (A & B & C). rewrite <- zlen_text_bits in A. split; [exact A|]. rewrite zlen_text_bits in A.
  rewrite tb_bit in B by lia. split; [destruct (bit (text_bits t) (P t k)); [reflexivity|discriminate]|]. rewrite ones_text; lia.
Qed.
Lemma P_after t k : 1 <= k <= K t -> ts t 0 (P t k + 1) = k.
Proof. intros Hk. destruct (P_spec t k Hk) as (A & B & C). rewrite ts_succ by lia. lia. Qed.
Lemma P_lt t a b : 1 <= a < b -> b <= K t -> P t a < P t b.
Proof.
  intros H1 H2. destruct (P_spec t a ltac:(lia)) as (A & B & C). destruct (P_spec t b ltac:(lia)) as (A' & B' & C').
  destruct (Z_lt_le_dec (P t a) (P t b)) as [|H]; auto. pose proof (ts_mono t (P t b) (P t a) ltac:(lia)). lia.
Qed.

(** ** Blocks of [L] ones *)
Definition nbk (L : Z) (t : list Z) : Z := (K t + L - 1) / L.
Definition SS (L : Z) (t : list Z) (c : Z) : Z := if c =? 0 then 0 else P t (Z.min (c * L) (K t)) + 1.
Definition DD (L : Z) (t : list Z) (c : Z) : Z := SS L t (c + 1) - SS L t c.
Definition fullb (L : Z) (t : list Z) (c : Z) : bool := (c + 1) * L <=? K t.

Lemma nbk_pos L t : 1 <= L -> 0 <= nbk L t.
Proof. intros. pose proof (K_bound t). unfold nbk. nia. Qed.
Lemma nbk_up L t : 1 <= L -> nbk L t = K t / L + (if K t mod L >? 0 then 1 else 0).
Proof.
  intros. pose proof (K_bound t). unfold nbk. set (k := K t) in *. clearbody k.
  pose proof (Z.div_mod k L ltac:(lia)). pose proof (Z.mod_pos_bound k L ltac:(lia)).
  set (q := k / L) in *. set (r := k mod L) in *. clearbody q r.
  destruct (r >? 0) eqn:E.
  - symmetry. apply (Z.div_unique _ _ _ (r - 1)); nia.
  - symmetry. apply (Z.div_unique _ _ _ (L - 1)); nia.
Qed.
Lemma selects_len_nbk L t : 1 <= L -> selects_len L (K t) = 2 * nbk L t + 2.
Proof. intros. unfold selects_len. rewrite nbk_up by lia. destruct (K t mod L >? 0); lia. Qed.
Lemma blk_lt L t c : 1 <= L -> 0 <= c -> c < nbk L t <-> c * L < K t.
Proof.
  intros HL Hc. unfold nbk. pose proof (K_bound t). set (k := K t) in *. clearbody k.
  pose proof (Z.div_mod (k + L - 1) L ltac:(lia)). pose proof (Z.mod_pos_bound (k + L - 1) L ltac:(lia)).
  set (q := (k + L - 1) / L) in *. clearbody q. nia.
Qed.

Lemma SS_0 L t : SS L t 0 = 0.
Proof. reflexivity. Qed.
Lemma SS_pos L t c : 1 <= c -> SS L t c = P t (Z.min (c * L) (K t)) + 1.
Proof. intros. unfold SS. replace (c =? 0) with false by lia. reflexivity. Qed.
Lemma ts_SS L t c : 1 <= L -> 0 <= c <= nbk L t -> ts t 0 (SS L t c) = Z.min (c * L) (K t).
Proof.
  intros HL Hc. pose proof (K_bound t). destruct (Z.eq_dec c 0) as [->|Cz]; [rewrite SS_0, ts_empty; lia|].
  rewrite SS_pos by lia. apply P_after. pose proof (blk_lt L t (c - 1) HL ltac:(lia)). nia.
Qed.
Lemma SS_step L t c : 1 <= L -> 0 <= c < nbk L t -> SS L t c < SS L t (c + 1).
Proof.
  intros HL Hc. pose proof (K_bound t). pose proof (proj1 (blk_lt L t c HL ltac:(lia)) ltac:(lia)).
  rewrite (SS_pos L t (c + 1)) by lia. destruct (Z.eq_dec c 0) as [->|Cz].
  - rewrite SS_0. destruct (P_spec t (Z.min ((0 + 1) * L) (K t)) ltac:(lia)). lia.
  - rewrite SS_pos by lia. assert (1 <= c * L) by nia.
    assert (P t (Z.min (c * L) (K t)) < P t (Z.min ((c + 1) * L) (K t))); [|lia]. apply P_lt; nia.
Qed.
Lemma SS_bound L t c : 1 <= L -> 0 <= c <= nbk L t -> 0 <= SS L t c <= 8 * zlen t.
Proof.
  intros HL Hc. pose proof (zlen_nonneg t). pose proof (K_bound t). destruct (Z.eq_dec c 0) as [->|Cz]; [rewrite SS_0; lia|].
  rewrite SS_pos by lia. pose proof (blk_lt L t (c - 1) HL ltac:(lia)).
  destruct (P_spec t (Z.min (c * L) (K t)) ltac:(nia)). lia.
Qed.
Lemma SS_mono L t a b : 1 <= L -> 0 <= a <= b -> b <= nbk L t -> SS L t a <= SS L t b.
Proof.
  intros HL Ha Hb. replace b with (a + Z.of_nat (Z.to_nat (b - a))) in * by lia. set (n := Z.to_nat (b - a)) in *. clearbody n.
  induction n as [|n IH]; [replace (a + Z.of_nat 0) with a by lia; lia|].
  specialize (IH ltac:(lia) ltac:(lia)). pose proof (SS_step L t (a + Z.of_nat n) HL ltac:(lia)).
  replace (a + Z.of_nat (S n)) with (a + Z.of_nat n + 1) by lia. lia.
Qed.
(** The end of block [c] is the position of its last one. *)
Lemma SS_end L t c : 1 <= L -> 0 <= c < nbk L t -> SS L t (c + 1) - 1 = P t (Z.min ((c + 1) * L) (K t)).
Proof. intros HL Hc. rewrite SS_pos by lia. lia. Qed.
Lemma in_ones L t c q : 1 <= L -> 0 <= c < nbk L t -> SS L t c <= q <= SS L t (c + 1) - 1 ->
  ts t 0 q = c * L + ts t (SS L t c) q /\ ts t 0 q <= Z.min ((c + 1) * L) (K t) - 1.
Proof.
  intros HL Hc Hq. pose proof (SS_bound L t c HL ltac:(lia)). pose proof (proj1 (blk_lt L t c HL ltac:(lia)) ltac:(lia)) as HK.
  rewrite (ts_split t 0 (SS L t c) q) by lia. rewrite ts_SS by lia. split; [lia|].
  rewrite SS_end in Hq by lia. pose proof (ts_mono t q (P t (Z.min ((c + 1) * L) (K t))) ltac:(lia)) as M.
  destruct (P_spec t (Z.min ((c + 1) * L) (K t)) ltac:(nia)) as (A & B & C). rewrite C in M.
  rewrite (ts_split t 0 (SS L t c) q) in M by lia. rewrite ts_SS in M by lia. lia.
Qed.
Lemma DD_ones L t c : 1 <= L -> 0 <= c < nbk L t -> ts t (SS L t c) (SS L t (c + 1)) = Z.min L (K t - c * L).
Proof.
  intros HL Hc. pose proof (SS_step L t c HL Hc). pose proof (SS_bound L t c HL ltac:(lia)).
  pose proof (ts_split t 0 (SS L t c) (SS L t (c + 1)) ltac:(lia)) as E. rewrite !ts_SS in E by lia.
  pose proof (proj1 (blk_lt L t c HL ltac:(lia)) ltac:(lia)). lia.
Qed.
Lemma DD_pos L t c : 1 <= L -> 0 <= c < nbk L t -> 1 <= DD L t c.
Proof. intros. unfold DD. pose proof (SS_step L t c). lia. Qed.
Lemma DD_ge L t c : 1 <= L -> 0 <= c < nbk L t -> fullb L t c = true -> L <= DD L t c.
Proof.
  intros HL Hc F. unfold DD. pose proof (SS_step L t c HL Hc). pose proof (ts_bound t (SS L t c) (SS L t (c + 1)) ltac:(lia)) as B.
  rewrite DD_ones in B by lia. unfold fullb in F. lia.
Qed.
Lemma DD_le L t c : 1 <= L -> 0 <= c < nbk L t -> DD L t c <= 8 * zlen t.
Proof. intros. unfold DD. pose proof (SS_bound L t c). pose proof (SS_bound L t (c + 1)). lia. Qed.
Lemma not_full_last L t c : 1 <= L -> 0 <= c < nbk L t -> fullb L t c = false -> c = nbk L t - 1 /\ c = K t / L /\ K t mod L = K t - c * L /\ 0 < K t mod L.
Proof.
  intros HL Hc F. unfold fullb in F. pose proof (proj1 (blk_lt L t c HL ltac:(lia)) ltac:(lia)).
  assert (c = K t / L) by (apply (Z.div_unique _ _ _ (K t - c * L)); lia).
  pose proof (Z.div_mod (K t) L ltac:(lia)). rewrite nbk_up by lia.
  assert (K t mod L = K t - c * L) by nia. destruct (K t mod L >? 0) eqn:E; lia.
Qed.
Lemma full_iff L t c : 1 <= L -> 0 <= c < nbk L t -> fullb L t c = true <-> (c < nbk L t - 1 \/ K t mod L = 0).
Proof.
  intros HL Hc. split.
  - intros F. destruct (Z.eq_dec (K t mod L) 0) as [|E]; [auto|left]. unfold fullb in F. rewrite nbk_up in * by lia.
    pose proof (Z.div_mod (K t) L ltac:(lia)). pose proof (Z.mod_pos_bound (K t) L ltac:(lia)).
    destruct (K t mod L >? 0) eqn:E2; [|lia]. nia.
  - intros D. destruct (fullb L t c) eqn:F; [reflexivity|]. destruct (not_full_last L t c HL Hc F). lia.
Qed.

(** Number of bits of block [c] that are stored, and of ones among them. *)
Definition ee (L : Z) (t : list Z) (c : Z) : Z := if fullb L t c then DD L t c - 1 else DD L t c.
Lemma ee_bound L t c : 1 <= L -> 0 <= c < nbk L t -> 0 <= ee L t c <= DD L t c.
Proof. intros. pose proof (DD_pos L t c). unfold ee. destruct (fullb L t c); lia. Qed.
Lemma ee_ones L t c : 1 <= L -> 0 <= c < nbk L t -> ts t (SS L t c) (SS L t c + ee L t c) = if fullb L t c then L - 1 else K t mod L.
Proof.
  intros HL Hc. pose proof (SS_step L t c HL Hc). pose proof (DD_ones L t c HL Hc) as E. unfold ee, DD. destruct (fullb L t c) eqn:F.
  - replace (SS L t c + (SS L t (c + 1) - SS L t c - 1)) with (SS L t (c + 1) - 1) by lia.
    replace (SS L t (c + 1)) with (SS L t (c + 1) - 1 + 1) in E by lia. rewrite ts_succ in E by lia. rewrite SS_end in E by lia.
    pose proof (proj1 (blk_lt L t c HL ltac:(lia)) ltac:(lia)).
    destruct (P_spec t (Z.min ((c + 1) * L) (K t)) ltac:(nia)) as (_ & B & _). rewrite B in E. rewrite SS_end by lia. unfold fullb in F. lia.
  - replace (SS L t c + (SS L t (c + 1) - SS L t c)) with (SS L t (c + 1)) by lia. rewrite E.
    destruct (not_full_last L t c HL Hc F) as (_ & _ & X & _). unfold fullb in F. lia.
Qed.

(** Bytes block [c] occupies, and where they begin. *)
Definition ww (L T : Z) (t : list Z) (c : Z) : Z :=
  if DD L t c >? T then 8 * (if fullb L t c then L - 1 else K t mod L) else if DD L t c =? L then 0 else up8 (ee L t c).
Definition OO (L T : Z) (t : list Z) (c : Z) : Z := sumf (ww L T t) 0 c.

Lemma up8_bound x : 0 <= x -> 0 <= up8 x /\ x <= 8 * up8 x <= x + 7.
Proof. intros. unfold up8. destruct (x mod 8 >? 0) eqn:E; lia. Qed.
Lemma up8_mono a b : 0 <= a <= b -> up8 a <= up8 b.
Proof. intros. unfold up8. destruct (a mod 8 >? 0) eqn:E; destruct (b mod 8 >? 0) eqn:E2; lia. Qed.
Lemma ww_nonneg L T t c : 1 <= L -> 0 <= c < nbk L t -> 0 <= ww L T t c.
Proof.
  intros HL Hc. pose proof (ee_bound L t c HL Hc). pose proof (up8_bound (ee L t c)). unfold ww.
  pose proof (Z.mod_pos_bound (K t) L ltac:(lia)). destruct (DD L t c >? T); [destruct (fullb L t c); lia|]. destruct (DD L t c =? L); lia.
Qed.
Lemma OO_succ L T t c : 0 <= c -> OO L T t (c + 1) = OO L T t c + ww L T t c.
Proof. intros. apply sumf_succ. lia. Qed.
Lemma OO_0 L T t : OO L T t 0 = 0.
Proof. reflexivity. Qed.
Lemma OO_mono L T t a b : 1 <= L -> 0 <= a <= b -> b <= nbk L t -> OO L T t a <= OO L T t b.
Proof. intros HL Ha Hb. apply sumf_mono; [lia|]. intros i Hi. apply ww_nonneg; lia. Qed.
Lemma OO_nonneg L T t a : 1 <= L -> 0 <= a <= nbk L t -> 0 <= OO L T t a.
Proof. intros. rewrite <- (OO_0 L T t). apply OO_mono; lia. Qed.

(** Bytes the first pass counts. *)
Definition w1 (L T : Z) (t : list Z) (c : Z) : Z :=
  if fullb L t c
  then if DD L t c >? T then 8 * (L - 1) else if DD L t c >? L then (if c =? 0 then up8 (DD L t c) else up8 (DD L t c - 1)) else 0
  else let d := if c =? 0 then DD L t c - 1 else DD L t c in if d >? T then 8 * (K t mod L) else up8 d.
Definition O1 (L T : Z) (t : list Z) (c : Z) : Z := sumf (w1 L T t) 0 c.
Lemma O1_succ L T t c : 0 <= c -> O1 L T t (c + 1) = O1 L T t c + w1 L T t c.
Proof. intros. apply sumf_succ. lia. Qed.
Lemma w1_bound L T t c : 1 <= L < T -> 0 <= c < nbk L t -> 0 <= w1 L T t c <= 8 * DD L t c.
Proof.
  intros HL Hc. pose proof (DD_pos L t c ltac:(lia) Hc). pose proof (up8_bound (DD L t c)). pose proof (up8_bound (DD L t c - 1)).
  pose proof (Z.mod_pos_bound (K t) L ltac:(lia)). unfold w1. destruct (fullb L t c).
  - destruct (DD L t c >? T) eqn:E; [lia|]. destruct (DD L t c >? L); [|lia]. destruct (c =? 0); lia.
  - cbv zeta. destruct (c =? 0).
    + destruct (DD L t c - 1 >? T) eqn:E; lia.
    + destruct (DD L t c >? T) eqn:E; lia.
Qed.
Lemma O1_bound L T t c : 1 <= L < T -> 0 <= c <= nbk L t -> 0 <= O1 L T t c <= 8 * SS L t c.
Proof.
  intros HL Hc. replace c with (Z.of_nat (Z.to_nat c)) in * by lia. set (n := Z.to_nat c) in *. clearbody n. induction n as [|n IH].
  - change (Z.of_nat 0) with 0. rewrite SS_0. unfold O1. rewrite sumf_empty; lia.
  - specialize (IH ltac:(lia)). pose proof (w1_bound L T t (Z.of_nat n) HL ltac:(lia)).
    replace (Z.of_nat (S n)) with (Z.of_nat n + 1) by lia. rewrite O1_succ by lia. unfold DD in *. lia.
Qed.

(** The second pass fits into what the first one counted, but for the slack and
    one special case. *)
Definition tight (L T : Z) (t : list Z) : bool := (K t <? L) && (1 <=? K t) && (P t (K t) =? T).
Lemma fits L T t c : 1 <= L < T -> 0 <= c < nbk L t -> (c > 0 \/ tight L T t = false) -> ww L T t c <= w1 L T t c + (if c =? 0 then 1 else 0).
Proof.
  intros HL Hc X. pose proof (ee_bound L t c ltac:(lia) Hc) as EB. pose proof (DD_pos L t c ltac:(lia) Hc). pose proof (K_bound t).
  pose proof (up8_bound (DD L t c)). pose proof (up8_bound (DD L t c - 1)). pose proof (Z.mod_pos_bound (K t) L ltac:(lia)).
  unfold ww, w1. destruct (fullb L t c) eqn:F.
  - pose proof (DD_ge L t c ltac:(lia) Hc F). unfold ee. rewrite F. destruct (DD L t c >? T); [destruct (c =? 0); lia|].
    destruct (DD L t c =? L) eqn:E; destruct (DD L t c >? L) eqn:E2; destruct (c =? 0); lia.
  - unfold ee. rewrite F. cbv zeta. destruct (c =? 0) eqn:C0.
    + assert (c = 0) by lia. subst c. unfold tight in X. unfold fullb in F. unfold DD in *. rewrite SS_0 in *. rewrite SS_pos in * by lia.
      pose proof (proj1 (blk_lt L t 0 ltac:(lia) ltac:(lia)) ltac:(lia)).
      replace (Z.min ((0 + 1) * L) (K t)) with (K t) in * by lia.
      destruct (P t (K t) + 1 - 0 >? T) eqn:E1.
      * replace (P t (K t) + 1 - 0 - 1 >? T) with true by lia. lia.
      * replace (P t (K t) + 1 - 0 - 1 >? T) with false by lia. destruct (P t (K t) + 1 - 0 =? L); lia.
    + destruct (DD L t c >? T); [lia|]. destruct (DD L t c =? L); lia.
Qed.
Lemma fits_all L T t : 1 <= L < T -> tight L T t = false -> forall c, 0 <= c <= nbk L t -> OO L T t c <= O1 L T t c + 1.
Proof.
  intros HL X c Hc. assert (G : 0 < c -> OO L T t c <= O1 L T t c + 1).
  { replace c with (Z.of_nat (Z.to_nat c)) in * by lia. set (n := Z.to_nat c) in *. clearbody n. induction n as [|n IH]; [lia|].
    intros _. replace (Z.of_nat (S n)) with (Z.of_nat n + 1) in * by lia. rewrite O1_succ, OO_succ by lia.
    pose proof (fits L T t (Z.of_nat n) HL ltac:(lia) ltac:(auto)) as Fi. destruct n as [|n].
    - cbn [Z.of_nat Z.eqb] in *. rewrite OO_0. unfold O1. rewrite sumf_empty by lia. lia.
    - replace (Z.of_nat (S n) =? 0) with false in Fi by lia. specialize (IH ltac:(lia) ltac:(lia)). lia. }
  destruct (Z.eq_dec c 0) as [->|]; [rewrite OO_0; unfold O1; rewrite sumf_empty; lia|]. apply G. lia.
Qed.
Lemma tight_sizes L T t : 1 <= L < T -> tight L T t = true -> nbk L t = 1 /\ OO L T t 1 = 8 * K t /\ O1 L T t 1 = up8 T.
Proof.
  intros HL X. unfold tight in X. assert (N : nbk L t = 1) by (unfold nbk; symmetry; apply (Z.div_unique _ _ _ (K t - 1)); lia).
  assert (F : fullb L t 0 = false) by (unfold fullb; lia). assert (M : K t mod L = K t) by (apply Z.mod_small; lia).
  assert (D : DD L t 0 = T + 1). { unfold DD. rewrite SS_0, SS_pos by lia. replace (Z.min ((0 + 1) * L) (K t)) with (K t) by lia. lia. }
  split; [exact N|]. split.
  - change 1 with (0 + 1) at 1. rewrite OO_succ, OO_0 by lia. unfold ww. rewrite F, D, M. replace (T + 1 >? T) with true by lia. lia.
  - change 1 with (0 + 1) at 1. rewrite O1_succ by lia. unfold O1. rewrite sumf_empty by lia. unfold w1. rewrite F, D, M. cbn [Z.eqb].
    replace (T + 1 - 1) with T by lia. replace (T >? T) with false by lia. lia.
Qed.

(** ** The text *)
Lemma text_bit_ok t q : 0 <= q < 8 * zlen t -> text_bit t q = Ok (tb t q =? 1).
Proof.
  intros Hq. unfold text_bit. rewrite geti_ok by lia. cbn [bind]. f_equal. unfold tb, wbit.
  change 1 with (Z.ones 1) at 1. rewrite Z.land_ones by lia. rewrite <- Z.bit0_mod.
  rewrite Z.shiftr_spec by lia. rewrite Z.add_0_l. destruct (Z.testbit (zn 0 t (q / 8)) (7 - q mod 8)); reflexivity.
Qed.
Lemma tb_cases t q : tb t q = 0 \/ tb t q = 1.
Proof. pose proof (tb_01 t q). lia. Qed.

Lemma popcount_byte b : 0 <= b < 256 -> popcount b = wones b 0 8.
Proof.
  intros Hb. rewrite popcount_wones. rewrite (wones_split b 0 8 64) by lia. assert (wones b 8 64 = 0); [|lia].
  apply sumf_const0. intros i Hi. unfold wbit. rewrite (bits_above _ 8) by lia. reflexivity.
Qed.
Lemma byte_ts t j m : 0 <= j -> 0 <= m <= 8 -> ts t (8 * j) (8 * j + m) = sumf (fun u => wbit (zn 0 t j) (7 - u)) 0 m.
Proof.
  intros Hj Hm. unfold ts. replace (8 * j) with (0 + 8 * j) at 1 by lia. replace (8 * j + m) with (m + 8 * j) by lia.
  rewrite <- sumf_shift. apply sumf_ext. intros u Hu. unfold tb. replace ((u + 8 * j) / 8) with j by lia. do 2 f_equal. lia.
Qed.
Lemma wones_rev b : wones b 0 8 = sumf (fun u => wbit b (7 - u)) 0 8.
Proof. unfold wones. rewrite <- (sum_wb 8) by lia. reflexivity. Qed.
Lemma ts_app l b q : 0 <= q <= 8 * zlen l -> ts (l ++ [b]) 0 q = ts l 0 q.
Proof. intros Hq. apply sumf_ext. intros i Hi. unfold tb. rewrite zn_app_l by lia. reflexivity. Qed.
Lemma number_of_ones_ok t : text_ok t -> zlen t < 2 ^ 58 -> number_of_ones t = K t.
Proof.
  unfold number_of_ones. induction t as [|b t IH] using rev_ind; intros H Hl; [reflexivity|].
  apply Forall_app in H. destruct H as [H Hb]. inversion Hb as [|x y Hx _]; subst x y. rewrite zlen_app in Hl. change (zlen [b]) with 1 in Hl.
  rewrite fold_left_app. cbn [fold_left]. rewrite IH by (auto; lia). pose proof (K_bound t). pose proof (zlen_nonneg t). pose proof (popcount_bound b).
  rewrite wrap_small by lia. unfold K at 2. rewrite zlen_app. change (zlen [b]) with 1.
  rewrite (ts_split _ 0 (8 * zlen t)) by lia. rewrite ts_app by lia. fold (K t). f_equal.
  replace (8 * (zlen t + 1)) with (8 * zlen t + 8) by lia. rewrite byte_ts by lia. rewrite zn_app_r by lia.
  replace (zlen t - zlen t) with 0 by lia. rewrite zn_cons_0, <- wones_rev. apply popcount_byte. lia.
Qed.
