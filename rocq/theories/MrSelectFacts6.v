(** SelectBasic64 with compressed headers. *)
From Coq Require Import ZifyBool.
From Verif Require Import Base BaseFacts Mem MemFacts Words WordFacts BlockFacts NodeFacts Trees TreeBuild Spec BitmapFacts KernelFacts SpecPoppy PoppyFacts PoppyFacts2 SpecText MrRank MrRankFacts MrRankFacts2 MrRankFacts3 MrSelect MrSelectFacts MrSelectFacts2 MrSelectFacts3 MrSelectFacts4 MrSelectFacts5.
Ltac Zify.zify_post_hook ::= Z.div_mod_to_equations.

(** ** A superblock *)
Definition delta (temp : list Z) (s j : Z) : Z := u64 (zn 0 temp (2 * (16 * s + j + 1) + 1) - zn 0 temp (32 * s + 1)).
Definition deltas (temp : list Z) (s w n : Z) : Z := u64 (sumf (fun l => delta temp s (4 * w + l) * 2 ^ (16 * l)) 0 n).
Definition superP (temp : list Z) (s j : Z) (v : list Z) : Prop :=
  zlen v = 21 /\ (forall k, 0 <= k < 16 -> zn 0 v k = zn 0 temp (2 * (16 * s + k))) /\ zn 0 v 16 = zn 0 temp (32 * s + 1) /\
  forall w, 0 <= w < 4 -> zn 0 v (17 + w) = deltas temp s w (clamp (j - 4 * w)).

Lemma wrap_add_r a b : u64 (a + u64 b) = u64 (a + b).
Proof. unfold wrap. rewrite Zplus_mod_idemp_r. reflexivity. Qed.

Lemma super_of_ok temp s : 0 <= s -> 32 * (s + 1) <= zlen temp -> exists v, super_of temp s = Ok v /\ superP temp s 15 v.
Proof.
  intros Hs Ht. unfold super_of.
  assert (Z0 : forall k, 0 <= k < 21 -> zn 0 (repeat 0 21) k = 0) by (intros k Hk; unfold zn; rewrite nth_repeat; reflexivity).
  match goal with |- context [foldM ?g (zrange 0 16) ?v0] => destruct (foldM_inv g (fun j v => zlen v = 21 /\ forall k, 0 <= k < 21 -> zn 0 v k = if k <? j then zn 0 temp (2 * (16 * s + k)) else 0) 16 0 v0) as (v1 & E1 & L1 & P1) end.
  - split; [reflexivity|]. intros k Hk. rewrite Z0 by lia. replace (k <? 0) with false by lia. reflexivity.
  - intros j v Hj (L & V). change (0 + Z.of_nat 16) with 16 in Hj. rewrite geti_ok by lia. cbn [bind]. rewrite seti_ok by lia. eexists. split; [reflexivity|].
    rewrite zlen_upd. split; [exact L|]. intros k Hk. rewrite zn_upd by lia. destruct (k =? j) eqn:E.
    + replace (k <? j + 1) with true by lia. do 3 f_equal. lia.
    + rewrite V by lia. replace (k <? j + 1) with (k <? j) by lia. reflexivity.
  - rewrite E1. change (0 + Z.of_nat 16) with 16 in P1. cbn [bind]. rewrite geti_ok by lia. cbn [bind]. replace (2 * (16 * s) + 1) with (32 * s + 1) by lia.
    rewrite seti_ok by lia. cbn [bind].
    match goal with |- context [foldM ?g (zrange 0 15) ?v0] => destruct (foldM_inv g (superP temp s) 15 0 v0) as (v2 & E2 & P2) end.
    + unfold superP. rewrite zlen_upd. split; [exact L1|]. split; [|split].
      * intros k Hk. rewrite zn_upd by lia. replace (k =? 16) with false by lia. rewrite P1 by lia. replace (k <? 16) with true by lia. reflexivity.
      * rewrite zn_upd by lia. reflexivity.
      * intros w Hw. rewrite zn_upd by lia. replace (17 + w =? 16) with false by lia. rewrite P1 by lia. replace (17 + w <? 16) with false by lia.
        unfold deltas. rewrite sumf_empty; [reflexivity|unfold clamp; lia].
    + intros j v Hj (L & V1 & V2 & V3). change (0 + Z.of_nat 15) with 15 in Hj. rewrite geti_ok by lia. cbn [bind]. rewrite geti_ok by lia. cbn [bind]. rewrite seti_ok by lia.
      eexists. split; [reflexivity|]. unfold superP. rewrite zlen_upd. split; [exact L|]. split; [|split].
      * intros k Hk. rewrite zn_upd by lia. replace (k =? 17 + j / 4) with false by lia. apply V1. lia.
      * rewrite zn_upd by lia. replace (16 =? 17 + j / 4) with false by lia. exact V2.
      * intros w Hw. rewrite zn_upd by lia. destruct (17 + w =? 17 + j / 4) eqn:E; [|rewrite V3 by lia; f_equal; unfold clamp; lia].
        replace (j / 4) with w by lia. rewrite V3 by lia. unfold deltas. rewrite wrap_add_r, wrap_add_l.
        replace (clamp (j - 4 * w)) with (j mod 4) by (unfold clamp; lia). replace (clamp (j + 1 - 4 * w)) with (j mod 4 + 1) by (unfold clamp; lia).
        rewrite sumf_succ by lia. f_equal. f_equal. rewrite Z.shiftl_mul_pow2 by lia. f_equal. unfold delta. do 4 f_equal. lia.
    + exists v2. split; [exact E2|]. exact P2.
Qed.

Lemma delta_nonneg temp s j : 0 <= delta temp s j.
Proof. apply wrap_bound. lia. Qed.
Lemma deltas_four temp s w n : n = 3 \/ n = 4 -> exists V3, 0 <= V3 /\ (n = 4 -> V3 = delta temp s (4 * w + 3)) /\
  deltas temp s w n = (delta temp s (4 * w) + delta temp s (4 * w + 1) * 2 ^ 16 + delta temp s (4 * w + 2) * 2 ^ 32 + V3 * 2 ^ 48) mod 2 ^ 64.
Proof.
  intros [->| ->]; [exists 0|exists (delta temp s (4 * w + 3))]; (split; [try apply delta_nonneg; lia|]); (split; [try lia; auto|]); unfold deltas, wrap.
  - replace (sumf _ 0 3) with (delta temp s (4 * w + 0) * 2 ^ (16 * 0) + (delta temp s (4 * w + 1) * 2 ^ (16 * 1) + (delta temp s (4 * w + 2) * 2 ^ (16 * 2) + 0))) by reflexivity.
    rewrite !Z.add_0_r. f_equal. change (16 * 0) with 0. change (16 * 1) with 16. change (16 * 2) with 32. ring.
  - replace (sumf _ 0 4) with (delta temp s (4 * w + 0) * 2 ^ (16 * 0) + (delta temp s (4 * w + 1) * 2 ^ (16 * 1) + (delta temp s (4 * w + 2) * 2 ^ (16 * 2) + (delta temp s (4 * w + 3) * 2 ^ (16 * 3) + 0)))) by reflexivity.
    rewrite !Z.add_0_r. f_equal. change (16 * 0) with 0. change (16 * 1) with 16. change (16 * 2) with 32. change (16 * 3) with 48. ring.
Qed.

Lemma get_delta temp s j : 0 <= j <= 14 -> (forall j', 0 <= j' <= j -> delta temp s j' < 65536) ->
  get_lane (deltas temp s (j / 4) (clamp (15 - 4 * (j / 4)))) (j mod 4) = delta temp s j.
Proof.
  intros Hj V. set (w := j / 4). destruct (deltas_four temp s w (clamp (15 - 4 * w)) ltac:(unfold clamp; lia)) as (V3 & V30 & V3e & ->). unfold get_lane.
  pose proof (delta_nonneg temp s (4 * w)). pose proof (delta_nonneg temp s (4 * w + 1)). pose proof (delta_nonneg temp s (4 * w + 2)).
  pose proof (V (4 * w) ltac:(lia)) as B0.
  change 0xFFFF with (Z.ones 16). rewrite Z.land_ones, !Z.shiftr_div_pow2 by lia.
  assert (C : j mod 4 = 0 \/ j mod 4 = 1 \/ j mod 4 = 2 \/ j mod 4 = 3) by lia.
  destruct C as [C|[C|[C|C]]]; rewrite C.
  - change (0 =? 3) with false. cbv iota. replace (delta temp s j) with (delta temp s (4 * w)) by (f_equal; lia).
    set (a := delta temp s (4 * w)) in *. set (b := delta temp s (4 * w + 1)) in *. set (c := delta temp s (4 * w + 2)) in *. clearbody a b c. clear - B0 H H0 H1 V30. lia.
  - change (1 =? 3) with false. cbv iota. pose proof (V (4 * w + 1) ltac:(lia)) as B1. replace (delta temp s j) with (delta temp s (4 * w + 1)) by (f_equal; lia).
    set (a := delta temp s (4 * w)) in *. set (b := delta temp s (4 * w + 1)) in *. set (c := delta temp s (4 * w + 2)) in *. clearbody a b c. clear - B0 B1 H H0 H1 V30. lia.
  - change (2 =? 3) with false. cbv iota. pose proof (V (4 * w + 1) ltac:(lia)) as B1. pose proof (V (4 * w + 2) ltac:(lia)) as B2.
    replace (delta temp s j) with (delta temp s (4 * w + 2)) by (f_equal; lia).
    set (a := delta temp s (4 * w)) in *. set (b := delta temp s (4 * w + 1)) in *. set (c := delta temp s (4 * w + 2)) in *. clearbody a b c. clear - B0 B1 B2 H H0 H1 V30. lia.
  - change (3 =? 3) with true. cbv iota. pose proof (V (4 * w + 1) ltac:(lia)) as B1. pose proof (V (4 * w + 2) ltac:(lia)) as B2. pose proof (V (4 * w + 3) ltac:(lia)) as B3.
    assert (CL : clamp (15 - 4 * w) = 4) by (unfold clamp; lia). rewrite <- V3e in B3 by lia. replace (delta temp s j) with (delta temp s (4 * w + 3)) by (f_equal; lia). rewrite <- V3e by lia.
    set (a := delta temp s (4 * w)) in *. set (b := delta temp s (4 * w + 1)) in *. set (c := delta temp s (4 * w + 2)) in *. clearbody a b c. clear - B0 B1 B2 B3 H H0 H1 V30. lia.
Qed.

(** ** The constructor *)
Lemma sel_temp_len_ok nb : 0 <= nb -> sel_temp_len (2 * nb + 2) = 32 * (nb / 16 + 1).
Proof. intros. unfold sel_temp_len. destruct ((2 * nb + 2) mod 32 >? 0) eqn:E; lia. Qed.

Lemma zero_rest temp sc n : 0 <= sc -> sc + Z.of_nat n <= zlen temp ->
  exists temp', foldM (fun temp k => seti temp k 0) (zrange sc n) temp = Ok temp' /\ zlen temp' = zlen temp /\
  forall k, 0 <= k -> zn 0 temp' k = if (sc <=? k) && (k <? sc + Z.of_nat n) then 0 else zn 0 temp k.
Proof.
  intros Hs Hn. destruct (foldM_inv (fun temp k => seti temp k 0) (fun j temp' => zlen temp' = zlen temp /\
    forall k, 0 <= k -> zn 0 temp' k = if (sc <=? k) && (k <? j) then 0 else zn 0 temp k) n sc temp) as (t' & E & L & Q).
  - split; [reflexivity|]. intros k Hk. replace ((sc <=? k) && (k <? sc)) with false by lia. reflexivity.
  - intros j l Hj (L & Q). rewrite seti_ok by lia. eexists. split; [reflexivity|]. rewrite zlen_upd. split; [exact L|]. intros k Hk. rewrite zn_upd by lia.
    rewrite Q by lia. destruct (k =? j) eqn:E; [replace ((sc <=? k) && (k <? j + 1)) with true by lia; reflexivity|].
    replace ((sc <=? k) && (k <? j + 1)) with ((sc <=? k) && (k <? j)) by lia. reflexivity.
  - exists t'. auto.
Qed.

(** The words of superblock [s] lie at 21 * [s]. *)
Definition superarr (temp arr : list Z) (n : Z) : Prop := forall s, 0 <= s < n -> exists v, superP temp s 15 v /\ forall k, 0 <= k < 21 -> zn 0 arr (21 * s + k) = zn 0 v k.

Lemma supers_ok temp arr0 n : 0 <= n -> 32 * n <= zlen temp -> 21 * n <= zlen arr0 ->
  exists arr, foldM (fun arr s => let* v := super_of temp s in put_words arr (21 * s) v) (zrange 0 (Z.to_nat n)) arr0 = Ok arr /\ zlen arr = zlen arr0 /\ superarr temp arr n.
Proof.
  intros Hn Ht Ha. destruct (foldM_inv (fun arr s => let* v := super_of temp s in put_words arr (21 * s) v) (fun j arr => zlen arr = zlen arr0 /\ superarr temp arr j) (Z.to_nat n) 0 arr0) as (arr & E & L & Q).
  - split; [reflexivity|]. intros s Hs. lia.
  - intros j arr Hj (L & Q). destruct (super_of_ok temp j ltac:(lia) ltac:(lia)) as (v & -> & PV). cbn [bind]. pose proof PV as (LV & _).
    destruct (put_words_ok arr (21 * j) v ltac:(lia) ltac:(lia)) as (arr' & -> & L' & Q'). exists arr'. split; [reflexivity|]. split; [lia|].
    intros s Hs. destruct (Z.eq_dec s j) as [->|NE].
    + exists v. split; [exact PV|]. intros k Hk. rewrite Q' by lia. replace ((21 * j <=? 21 * j + k) && (21 * j + k <? 21 * j + zlen v)) with true by lia. f_equal. lia.
    + destruct (Q s ltac:(lia)) as (v' & PV' & W). exists v'. split; [exact PV'|]. intros k Hk. rewrite Q' by lia.
      replace ((21 * j <=? 21 * s + k) && (21 * s + k <? 21 * j + zlen v)) with false by lia. apply W. lia.
  - exists arr. split; [exact E|]. split; [exact L|]. replace (0 + Z.of_nat (Z.to_nat n)) with n in Q by lia. exact Q.
Qed.

Definition selbP (L T : Z) (m : memory) (t : list Z) (r : select_basic) : Prop :=
  exists temp, (forall c, 0 <= c <= nbk L t -> zn 0 temp (2 * c) = SS L t c) /\
  (forall c, 0 <= c < nbk L t -> zn 0 temp (2 * c + 1) = OO L T t c) /\
  (forall c, 0 <= c < nbk L t -> payload L T t (sb_bits r) c) /\ OO L T t (nbk L t) <= zlen (sb_bits r) /\
  superarr temp (sb_selects r) (nbk L t / 16 + 1) /\ zlen (sb_selects r) = 21 * (nbk L t / 16 + 1) + slack (m_addr_r m) /\
  sb_selects_len r = 21 * (nbk L t / 16 + 1) /\ sb_bits_len r = O1 L T t (nbk L t) /\ sb_text_len r = zlen t.

Lemma build_sel_bch_ok L T m t : 1 <= L < T -> T < 2 ^ 32 -> addresses_ok m -> text_ok t -> zlen t < 2 ^ 58 -> 1 <= K t -> 2 * nbk L t + 2 < 2 ^ 32 ->
  if overflows L T (room_of (m_addr_b m)) (text_bits t) then build_sel_bch L T m t = Ub UB_bounds
  else exists r, build_sel_bch L T m t = Ok r /\ selbP L T m t r.
Proof.
  intros HL HT (A1 & A2 & A3 & A4) H Hl HK HN. unfold build_sel_bch. rewrite number_of_ones_ok by auto. rewrite selects_len_nbk by lia.
  pose proof (nbk_1 L t ltac:(lia) HK) as N1. pose proof (slack_ok _ A2) as SL. rewrite sel_temp_len_ok by lia.
  assert (ZA : zlen (fresh (m_junk_t m) (32 * (nbk L t / 16 + 1))) = 32 * (nbk L t / 16 + 1)) by (apply zlen_fresh; lia).
  set (arr0 := fresh (m_junk_t m) _) in *. clearbody arr0.
  destruct (first_pass_ok L T t arr0 HL HT H Hl ltac:(lia)) as (arr & -> & FD). cbn [bind].
  pose proof (O1_bound L T t (nbk L t) HL ltac:(lia)) as OB. pose proof FD as [ZF FE].
  destruct (zero_rest arr (2 * nbk L t + 2) (Z.to_nat (32 * (nbk L t / 16 + 1) - (2 * nbk L t + 2))) ltac:(lia) ltac:(lia)) as (arr2 & -> & ZF2 & FE2). cbn [bind].
  rewrite !(wrap_small 32 (2 * nbk L t + 2)) by lia. replace (2 * nbk L t + 2 - 2) with (2 * nbk L t) by lia. rewrite wrap_small by lia.
  assert (FD2 : first_done L t arr2 arr2).
  { split; [reflexivity|]. intros c Hc. destruct (FE c Hc) as [F1 F2]. rewrite !FE2 by lia.
    replace ((2 * nbk L t + 2 <=? 2 * c) && _) with false by lia. replace ((2 * nbk L t + 2 <=? 2 * c + 1) && _) with false by lia. auto. }
  pose proof (second_pass_ok L T t arr2 (fresh_bytes (m_junk_b m) (m_addr_b m) (O1 L T t (nbk L t))) HL HT H Hl ltac:(lia) HK FD2) as SP.
  rewrite zlen_fresh_bytes in SP by lia. rewrite overflow_iff in SP by auto. destruct (overflows L T (room_of (m_addr_b m)) (text_bits t)) eqn:EO; cbn [negb] in SP.
  - rewrite SP. reflexivity.
  - destruct SP as (temp & bits' & -> & (B1 & B2 & B3 & B4) & ZB). cbn [bind].
    replace (32 * (nbk L t / 16 + 1) / 2 / 16) with (nbk L t / 16 + 1) by lia. replace ((nbk L t / 16 + 1) * 21) with (21 * (nbk L t / 16 + 1)) by lia.
    destruct (supers_ok temp (fresh_aligned (m_junk_r m) (m_addr_r m) (21 * (nbk L t / 16 + 1))) (nbk L t / 16 + 1) ltac:(lia) ltac:(lia)) as (sa & -> & ZS & QS).
    { rewrite zlen_aligned by (auto; lia). lia. }
    rewrite zlen_aligned in ZS by (auto; lia). cbn [bind]. eexists. split; [reflexivity|]. exists temp. cbn [sb_selects sb_selects_len sb_bits sb_bits_len sb_text_len].
    split; [exact B2|]. split; [exact B3|]. split; [exact B4|]. split; [|auto].
    pose proof (overflow_iff L T t (m_addr_b m) HL HK) as OI. rewrite EO in OI. lia.
Qed.

(** ** Queries *)
Lemma args_bounds L T : 1 <= L -> arguments_ok true L T = true -> L < T /\ 8 * (L - 1) <= 4369 /\ T - 1 <= 8 * 4369.
Proof. intros HL. unfold arguments_ok. change (65535 / 15) with 4369. intros H. cbn [andb] in H. lia. Qed.

Lemma ww_small L T t c : 1 <= L -> arguments_ok true L T = true -> 0 <= c < nbk L t - 1 -> 0 <= ww L T t c <= 4369.
Proof.
  intros HL A Hc. destruct (args_bounds L T HL A) as (A1 & A2 & A3). split; [apply ww_nonneg; lia|].
  assert (F : fullb L t c = true) by (apply full_iff; lia). destruct (sp L T t c) eqn:ES.
  - rewrite ww_sp by auto. unfold ones_in. rewrite F. lia.
  - destruct (mo L T t c) eqn:EM; [rewrite ww_mo by auto; lia|]. rewrite ww_de by auto. unfold ee. rewrite F. unfold sp in ES.
    pose proof (DD_pos L t c ltac:(lia) ltac:(lia)). pose proof (up8_bound (DD L t c - 1) ltac:(lia)). lia.
Qed.
Lemma OO_near L T t a j : 1 <= L -> arguments_ok true L T = true -> 0 <= a -> 0 <= j -> a + j < nbk L t -> 0 <= OO L T t (a + j) - OO L T t a <= 4369 * j.
Proof.
  intros HL A Ha Hj. replace j with (Z.of_nat (Z.to_nat j)) by lia. set (n := Z.to_nat j). clearbody n. clear j Hj. induction n as [|n IH]; intros Hn; [rewrite Z.add_0_r; lia|].
  replace (a + Z.of_nat (S n)) with (a + Z.of_nat n + 1) by lia. rewrite OO_succ by lia. pose proof (ww_small L T t (a + Z.of_nat n) HL A ltac:(lia)). lia.
Qed.

Lemma select_bch_ok L T m t r k : 1 <= L -> arguments_ok true L T = true -> zlen t < 2 ^ 58 -> addresses_ok m -> selbP L T m t r -> 1 <= k <= K t ->
  select_bch L T r k = Ok (answer L T t k).
Proof.
  intros HL0 AR Hl (A1 & A2 & A3 & A4) (temp & B2 & B3 & B4 & B5 & SA & Z1 & _) Hk. destruct (args_bounds L T HL0 AR) as (AB1 & AB2 & AB3). assert (HL : 1 <= L < T) by lia.
  unfold select_bch, answer. pose proof (slack_ok _ A2) as SL.
  assert (HD : forall c, 0 <= c <= nbk L t -> geti (sb_selects r) (21 * (c / 16) + c mod 16) = Ok (SS L t c)).
  { intros c Hc. rewrite geti_ok by lia. destruct (SA (c / 16) ltac:(lia)) as (v & (_ & V1 & _) & W). rewrite W, V1 by lia. f_equal. rewrite <- B2 by lia. do 2 f_equal. lia. }
  destruct (div_parts k L ltac:(lia) ltac:(lia)) as (D1 & D2 & D3). destruct (k mod L =? 0) eqn:E.
  - destruct (start_exact L t k ltac:(lia) Hk ltac:(lia)) as (C1 & C2). set (c := k / L) in *. clearbody c. rewrite HD by lia. cbn [bind]. rewrite C2, P_wrap by auto. reflexivity.
  - pose proof (start_inner L t k ltac:(lia) Hk ltac:(lia)) as C. set (c := k / L) in *. set (i := k mod L) in *. clearbody c i.
    rewrite HD by lia. cbn [bind].
    replace (if c mod 16 =? 15 then 21 * (c / 16) + 21 else 21 * (c / 16) + c mod 16 + 1) with (21 * ((c + 1) / 16) + (c + 1) mod 16) by (destruct (c mod 16 =? 15) eqn:E15; lia).
    rewrite HD by lia. cbn [bind]. fold (DD L t c).
    pose proof (SS_bound L t c ltac:(lia) ltac:(lia)) as SB. pose proof (DD_pos L t c ltac:(lia) C). pose proof (DD_le L t c ltac:(lia) C).
    rewrite (wrap_small 64 (DD L t c)) by lia. unfold answer_in. rewrite mono_answer with (T := T) by auto. destruct (mo L T t c) eqn:EM.
    + f_equal. unfold wrap. rewrite Zplus_mod_idemp_l. replace (SS L t c - 1 + i) with (SS L t c + i - 1) by lia. pose proof (K_bound t). assert (0 <= c * L) by nia. rewrite Z.mod_small by lia. reflexivity.
    + destruct (SA (c / 16) ltac:(lia)) as (v & (_ & V1 & V2 & V3) & W). set (s := c / 16) in *. set (f := c mod 16) in *. assert (CF : c = 16 * s + f) by lia. assert (F16 : 0 <= f < 16) by lia. assert (S0 : 0 <= s) by lia.
      assert (SN : s <= nbk L t / 16) by lia. clearbody s f. rewrite geti_ok by lia. cbn [bind]. rewrite W, V2 by lia. replace (32 * s + 1) with (2 * (16 * s) + 1) by lia. rewrite B3 by lia.
      assert (OF : forall n, 0 <= n <= f -> 0 <= OO L T t (16 * s + n) - OO L T t (16 * s) <= 65535).
      { intros n Hn. pose proof (OO_near L T t (16 * s) n ltac:(lia) AR ltac:(lia) ltac:(lia) ltac:(lia)). lia. }
      assert (DE : forall j, 0 <= j < f -> delta temp s j = OO L T t (16 * s + j + 1) - OO L T t (16 * s)).
      { intros j Hj. unfold delta. rewrite B3 by lia. replace (32 * s + 1) with (2 * (16 * s) + 1) by lia. rewrite B3 by lia. apply wrap_small.
        specialize (OF (j + 1) ltac:(lia)). replace (16 * s + (j + 1)) with (16 * s + j + 1) in OF by lia. lia. }
      pose proof (OO_nonneg L T t (16 * s) ltac:(lia) ltac:(lia)) as ON. pose proof (OF f ltac:(lia)) as OFf. rewrite <- CF in OFf.
      assert (OB : OO L T t c < 2 ^ 64).
      { pose proof (OO_mono L T t c (nbk L t) ltac:(lia) ltac:(lia) ltac:(lia)). pose proof (O1_bound L T t (nbk L t) HL ltac:(lia)). pose proof (SS_bound L t (nbk L t) ltac:(lia) ltac:(lia)).
        destruct (tight L T t) eqn:TI; [destruct (tight_sizes L T t HL TI) as (T1 & T2 & T3); pose proof (K_bound t); rewrite T1 in *; lia|].
        pose proof (fits_all L T t HL TI (nbk L t) ltac:(lia)). lia. }
      match goal with |- bind ?e _ = _ => replace e with (Ok (OO L T t c)) end.
      * cbn [bind]. rewrite block_answer with (c := c) by (auto; lia). reflexivity.
      * destruct (f >? 0) eqn:E0.
        -- rewrite geti_ok by lia. cbn [bind]. replace (21 * s + 16 + (f + 3) / 4) with (21 * s + (17 + (f - 1) / 4)) by (clear - F16 E0; lia). rewrite W, V3 by lia.
           pose proof (get_delta temp s (f - 1) ltac:(lia) ltac:(intros j' Hj'; rewrite DE by lia; specialize (OF (j' + 1) ltac:(lia)); replace (16 * s + (j' + 1)) with (16 * s + j' + 1) in OF by lia; lia)) as GD.
           rewrite DE in GD by lia. replace (16 * s + (f - 1) + 1) with c in GD by lia. set (wd := deltas _ _ _ _) in *. clearbody wd. unfold get_lane in GD.
           match goal with |- context [u64 (_ + ?X)] => replace X with (OO L T t c - OO L T t (16 * s)) end.
           { f_equal. rewrite wrap_small by lia. lia. }
           rewrite <- GD. assert (CC : f mod 4 = 0 \/ f mod 4 = 1 \/ f mod 4 = 2 \/ f mod 4 = 3) by lia. destruct CC as [CC|[CC|[CC|CC]]]; rewrite CC.
           ++ replace ((f - 1) mod 4) with 3 by (clear - CC F16; lia). reflexivity.
           ++ replace ((f - 1) mod 4) with 0 by (clear - CC F16; lia). reflexivity.
           ++ replace ((f - 1) mod 4) with 1 by (clear - CC F16; lia). reflexivity.
           ++ replace ((f - 1) mod 4) with 2 by (clear - CC F16; lia). reflexivity.
        -- f_equal. f_equal. lia.
Qed.
