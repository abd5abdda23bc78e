(** SelectBasic32 with compressed headers. *)
From Coq Require Import ZifyBool.
From Verif Require Import Base BaseFacts Mem MemFacts Words WordFacts BlockFacts NodeFacts Trees TreeBuild Spec BitmapFacts KernelFacts SpecPoppy PoppyFacts PoppyFacts2 SpecText SpecSel32 MrRank MrRankFacts MrRankFacts2 MrRankFacts3 MrMpe MrRank32 MrRank32Facts2 MrMpe32 MrSelect MrSelectFacts MrSelectFacts2 MrSelectFacts3 MrSelectFacts4 MrSelectFacts5 MrSelectFacts6 MrSelect32 MrSelect32Facts MrSelect32Facts2 MrSelect32Facts3 MrSelect32Facts4 MrSelect32Facts5.
Ltac Zify.zify_post_hook ::= Z.div_mod_to_equations.

(** ** A superblock *)
Definition delta32 (temp : list Z) (s j : Z) : Z := u32 (zn 0 temp (2 * (16 * s + j + 1) + 1) - zn 0 temp (32 * s + 1)).
Definition deltas32 (temp : list Z) (s w n : Z) : Z := u32 (sumf (fun l => delta32 temp s (2 * w + l) * 2 ^ (16 * l)) 0 n).
Definition clamp2 (x : Z) : Z := Z.max 0 (Z.min 2 x).
Definition superP32 (temp : list Z) (s j : Z) (v : list Z) : Prop :=
  zlen v = 25 /\ (forall k, 0 <= k < 16 -> zn 0 v k = zn 0 temp (2 * (16 * s + k))) /\ zn 0 v 16 = zn 0 temp (32 * s + 1) /\
  forall w, 0 <= w < 8 -> zn 0 v (17 + w) = deltas32 temp s w (clamp2 (j - 2 * w)).

Lemma wrap32_r a b : u32 (a + u32 b) = u32 (a + b).
Proof. unfold wrap. rewrite Zplus_mod_idemp_r. reflexivity. Qed.

Lemma super_of32_ok temp s : 0 <= s -> 32 * (s + 1) <= zlen temp -> exists v, super_of32 temp s = Ok v /\ superP32 temp s 15 v.
Proof.
  intros Hs Ht. unfold super_of32.
  assert (Z0 : forall k, 0 <= k < 25 -> zn 0 (repeat 0 25) k = 0) by (intros k Hk; unfold zn; rewrite nth_repeat; reflexivity).
  match goal with |- context [foldM ?g (zrange 0 16) ?v0] => destruct (foldM_inv g (fun j v => zlen v = 25 /\ forall k, 0 <= k < 25 -> zn 0 v k = if k <? j then zn 0 temp (2 * (16 * s + k)) else 0) 16 0 v0) as (v1 & E1 & L1 & P1) end.
  - split; [reflexivity|]. intros k Hk. rewrite Z0 by lia. replace (k <? 0) with false by lia. reflexivity.
  - intros j v Hj (L & V). change (0 + Z.of_nat 16) with 16 in Hj. rewrite geti_ok by lia. cbn [bind]. rewrite seti_ok by lia. eexists. split; [reflexivity|].
    rewrite zlen_upd. split; [exact L|]. intros k Hk. rewrite zn_upd by lia. destruct (k =? j) eqn:E.
    + replace (k <? j + 1) with true by lia. do 3 f_equal. lia.
    + rewrite V by lia. replace (k <? j + 1) with (k <? j) by lia. reflexivity.
  - rewrite E1. change (0 + Z.of_nat 16) with 16 in P1. cbn [bind]. rewrite geti_ok by lia. cbn [bind]. replace (2 * (16 * s) + 1) with (32 * s + 1) by lia.
    rewrite seti_ok by lia. cbn [bind].
    match goal with |- context [foldM ?g (zrange 0 15) ?v0] => destruct (foldM_inv g (superP32 temp s) 15 0 v0) as (v2 & E2 & P2) end.
    + unfold superP32. rewrite zlen_upd. split; [exact L1|]. split; [|split].
      * intros k Hk. rewrite zn_upd by lia. replace (k =? 16) with false by lia. rewrite P1 by lia. replace (k <? 16) with true by lia. reflexivity.
      * rewrite zn_upd by lia. reflexivity.
      * intros w Hw. rewrite zn_upd by lia. replace (17 + w =? 16) with false by lia. rewrite P1 by lia. replace (17 + w <? 16) with false by lia.
        unfold deltas32. rewrite sumf_empty; [reflexivity|unfold clamp2; lia].
    + intros j v Hj (L & V1 & V2 & V3). change (0 + Z.of_nat 15) with 15 in Hj. rewrite geti_ok by lia. cbn [bind]. rewrite geti_ok by lia. cbn [bind]. rewrite seti_ok by lia.
      eexists. split; [reflexivity|]. unfold superP32. rewrite zlen_upd. split; [exact L|]. split; [|split].
      * intros k Hk. rewrite zn_upd by lia. replace (k =? 17 + j / 2) with false by lia. apply V1. lia.
      * rewrite zn_upd by lia. replace (16 =? 17 + j / 2) with false by lia. exact V2.
      * intros w Hw. rewrite zn_upd by lia. destruct (17 + w =? 17 + j / 2) eqn:E; [|rewrite V3 by lia; f_equal; unfold clamp2; lia].
        replace (j / 2) with w by lia. rewrite V3 by lia. unfold deltas32. rewrite wrap32_r, wrap32_l.
        replace (clamp2 (j - 2 * w)) with (j mod 2) by (unfold clamp2; lia). replace (clamp2 (j + 1 - 2 * w)) with (j mod 2 + 1) by (unfold clamp2; lia).
        rewrite sumf_succ by lia. f_equal. f_equal. rewrite Z.shiftl_mul_pow2 by lia. f_equal. unfold delta32. do 4 f_equal. lia.
    + exists v2. split; [exact E2|]. exact P2.
Qed.

Lemma delta32_nonneg temp s j : 0 <= delta32 temp s j.
Proof. apply wrap_bound. lia. Qed.
Lemma get_delta32 temp s j : 0 <= j <= 14 -> (forall j', 0 <= j' <= j -> delta32 temp s j' < 65536) ->
  let w := deltas32 temp s (j / 2) (clamp2 (15 - 2 * (j / 2))) in
  (if j mod 2 =? 0 then Z.land w 0xFFFF else Z.shiftr w 16) = delta32 temp s j.
Proof.
  intros Hj V. cbv zeta. set (w := j / 2). change 0xFFFF with (Z.ones 16). rewrite Z.land_ones, Z.shiftr_div_pow2 by lia.
  pose proof (delta32_nonneg temp s (2 * w)). pose proof (delta32_nonneg temp s (2 * w + 1)). pose proof (V (2 * w) ltac:(lia)) as B0.
  assert (E : deltas32 temp s w (clamp2 (15 - 2 * w)) = (delta32 temp s (2 * w) + (if w =? 7 then 0 else delta32 temp s (2 * w + 1)) * 2 ^ 16) mod 2 ^ 32).
  { unfold deltas32, wrap. destruct (w =? 7) eqn:E7.
    - replace (clamp2 (15 - 2 * w)) with 1 by (unfold clamp2; lia).
      replace (sumf _ 0 1) with (delta32 temp s (2 * w + 0) * 2 ^ (16 * 0) + 0) by reflexivity. rewrite !Z.add_0_r. change (2 ^ (16 * 0)) with 1. f_equal. lia.
    - replace (clamp2 (15 - 2 * w)) with 2 by (unfold clamp2; lia).
      replace (sumf _ 0 2) with (delta32 temp s (2 * w + 0) * 2 ^ (16 * 0) + (delta32 temp s (2 * w + 1) * 2 ^ (16 * 1) + 0)) by reflexivity.
      rewrite !Z.add_0_r. change (2 ^ (16 * 0)) with 1. change (16 * 1) with 16. f_equal. lia. }
  rewrite E. clear E. destruct (j mod 2 =? 0) eqn:E2.
  - replace (delta32 temp s j) with (delta32 temp s (2 * w)) by (f_equal; lia). set (a := delta32 temp s (2 * w)) in *. set (b := if w =? 7 then 0 else delta32 temp s (2 * w + 1)).
    assert (0 <= b) by (unfold b; destruct (w =? 7); lia). clearbody a b. clear V Hj. lia.
  - pose proof (V (2 * w + 1) ltac:(lia)) as B1. replace (w =? 7) with false by lia. replace (delta32 temp s j) with (delta32 temp s (2 * w + 1)) by (f_equal; lia).
    set (a := delta32 temp s (2 * w)) in *. set (b := delta32 temp s (2 * w + 1)) in *. clearbody a b. clear V Hj. lia.
Qed.

(** ** The constructor *)
Lemma sel_temp_len32_ok nb : 0 <= nb < 2 ^ 31 - 17 -> sel_temp_len32 (2 * nb + 2) = 32 * (nb / 16 + 1).
Proof. intros. unfold sel_temp_len32. destruct ((2 * nb + 2) mod 32 >? 0) eqn:E; [rewrite wrap_small by lia; lia|lia]. Qed.

(** The words of superblock [s] lie at 25 * [s]. *)
Definition superarr32 (temp arr : list Z) (n : Z) : Prop := forall s, 0 <= s < n -> exists v, superP32 temp s 15 v /\ forall k, 0 <= k < 25 -> zn 0 arr (25 * s + k) = zn 0 v k.

Lemma supers32_ok temp arr0 n : 0 <= n -> 32 * n <= zlen temp -> 25 * n <= zlen arr0 ->
  exists arr, foldM (fun arr s => let* v := super_of32 temp s in put_words arr (25 * s) v) (zrange 0 (Z.to_nat n)) arr0 = Ok arr /\ zlen arr = zlen arr0 /\ superarr32 temp arr n.
Proof.
  intros Hn Ht Ha. destruct (foldM_inv (fun arr s => let* v := super_of32 temp s in put_words arr (25 * s) v) (fun j arr => zlen arr = zlen arr0 /\ superarr32 temp arr j) (Z.to_nat n) 0 arr0) as (arr & E & L & Q).
  - split; [reflexivity|]. intros s Hs. lia.
  - intros j arr Hj (L & Q). destruct (super_of32_ok temp j ltac:(lia) ltac:(lia)) as (v & -> & PV). cbn [bind]. pose proof PV as (LV & _).
    destruct (put_words_ok arr (25 * j) v ltac:(lia) ltac:(lia)) as (arr' & -> & L' & Q'). exists arr'. split; [reflexivity|]. split; [lia|].
    intros s Hs. destruct (Z.eq_dec s j) as [->|NE].
    + exists v. split; [exact PV|]. intros k Hk. rewrite Q' by lia. replace ((25 * j <=? 25 * j + k) && (25 * j + k <? 25 * j + zlen v)) with true by lia. f_equal. lia.
    + destruct (Q s ltac:(lia)) as (v' & PV' & W). exists v'. split; [exact PV'|]. intros k Hk. rewrite Q' by lia.
      replace ((25 * j <=? 25 * s + k) && (25 * s + k <? 25 * j + zlen v)) with false by lia. apply W. lia.
  - exists arr. split; [exact E|]. split; [exact L|]. replace (0 + Z.of_nat (Z.to_nat n)) with n in Q by lia. exact Q.
Qed.

Definition selbP32 (L T : Z) (m : memory) (t : list Z) (r : select_basic) : Prop :=
  exists temp, (forall c, 0 <= c <= nbk L t -> zn 0 temp (2 * c) = SS L t c) /\
  (forall c, 0 <= c < nbk L t -> zn 0 temp (2 * c + 1) = OO32 L T t c) /\
  (forall c, 0 <= c < nbk L t -> payload32 L T t (sb_bits r) c) /\ OO32 L T t (nbk L t) <= zlen (sb_bits r) < 2 ^ 32 /\
  superarr32 temp (sb_selects r) (nbk L t / 16 + 1) /\ zlen (sb_selects r) = 25 * (nbk L t / 16 + 1) + slack32 (m_addr_r m) /\
  sb_selects_len r = 25 * (nbk L t / 16 + 1) /\ sb_bits_len r = O132 L T t (nbk L t) /\ sb_text_len r = zlen t.

Lemma build_sel_bch32_ok L T m t : 1 <= L < T -> T < 2 ^ 32 -> addresses_ok m -> text_ok t -> zlen t < 2 ^ 29 -> nbk L t < 2 ^ 31 - 17 -> 1 <= K t ->
  if builds32 L T m t then exists r, build_sel_bch32 L T m t = Ok r /\ selbP32 L T m t r else build_sel_bch32 L T m t = Ub UB_bounds.
Proof.
  intros HL HT (A1 & A2 & A3 & A4) H Hl HN HK. unfold build_sel_bch32. rewrite number_of_ones32_ok by auto. rewrite selects_len32_nbk by lia.
  pose proof (nbk_1 L t ltac:(lia) HK) as N1. pose proof (slack32_ok _ A2) as SL. rewrite sel_temp_len32_ok by lia.
  assert (ZA : zlen (fresh32 (m_junk_t m) (32 * (nbk L t / 16 + 1))) = 32 * (nbk L t / 16 + 1)) by (apply zlen_fresh32; lia).
  set (arr0 := fresh32 (m_junk_t m) _) in *. clearbody arr0.
  destruct (first_pass32_ok L T t arr0 HL HT H Hl ltac:(lia)) as (arr & -> & FD). cbn [bind].
  pose proof (O132_bound L T t (nbk L t) HL ltac:(lia)) as OB. pose proof FD as [ZF FE].
  destruct (zero_rest arr (2 * nbk L t + 2) (Z.to_nat (32 * (nbk L t / 16 + 1) - (2 * nbk L t + 2))) ltac:(lia) ltac:(lia)) as (arr2 & -> & ZF2 & FE2). cbn [bind].
  replace (2 * nbk L t + 2 - 2) with (2 * nbk L t) by lia. rewrite (wrap_small 32 (2 * nbk L t)) by lia.
  assert (FD2 : first_done L t arr2 arr2).
  { split; [reflexivity|]. intros c Hc. destruct (FE c Hc) as [F1 F2]. rewrite !FE2 by lia.
    replace ((2 * nbk L t + 2 <=? 2 * c) && _) with false by lia. replace ((2 * nbk L t + 2 <=? 2 * c + 1) && _) with false by lia. auto. }
  pose proof (second_pass32_ok L T t arr2 (fresh_aligned_b32 (m_junk_b m) (m_addr_b m) (u32 (O132 L T t (nbk L t)))) HL HT H Hl ltac:(lia) HK FD2) as SP.
  destruct (alloc32 L T t (m_junk_b m) (m_addr_b m) HL HT Hl HK) as [CB CE]. rewrite CE in SP. fold (builds32 L T m t) in SP, CE. destruct (builds32 L T m t) eqn:EO.
  - destruct SP as (temp & bits' & -> & (B1 & B2 & B3 & B4) & ZB). cbn [bind].
    replace (32 * (nbk L t / 16 + 1) / 2 / 16) with (nbk L t / 16 + 1) by lia. replace ((nbk L t / 16 + 1) * 25) with (25 * (nbk L t / 16 + 1)) by lia.
    rewrite (wrap_small 32 (25 * (nbk L t / 16 + 1))) by lia.
    destruct (supers32_ok temp (fresh_aligned32 (m_junk_r m) (m_addr_r m) (25 * (nbk L t / 16 + 1))) (nbk L t / 16 + 1) ltac:(lia) ltac:(lia)) as (sa & -> & ZS & QS).
    { rewrite zlen_ints32 by (auto; lia). lia. }
    rewrite zlen_ints32 in ZS by (auto; lia). cbn [bind]. eexists. split; [reflexivity|]. exists temp. cbn [sb_selects sb_selects_len sb_bits sb_bits_len sb_text_len].
    split; [exact B2|]. split; [exact B3|]. split; [exact B4|]. split; [lia|]. split; [exact QS|]. split; [exact ZS|]. split; [reflexivity|]. split; [|reflexivity].
    unfold builds32 in EO. apply wrap_small. lia.
  - rewrite SP. reflexivity.
Qed.

(** ** Queries *)
Lemma args_bounds32 L T : 1 <= L -> arguments_ok32 true L T = true -> L < T /\ 4 * (L - 1) <= 4369 /\ T - 1 <= 8 * 4369.
Proof. intros HL. unfold arguments_ok32. change (65535 / 15) with 4369. intros H. cbn [andb] in H. lia. Qed.

Lemma ww32_small L T t c : 1 <= L -> arguments_ok32 true L T = true -> 0 <= c < nbk L t - 1 -> 0 <= ww32 L T t c <= 4369.
Proof.
  intros HL A Hc. destruct (args_bounds32 L T HL A) as (A1 & A2 & A3). split; [apply ww32_nonneg; lia|].
  assert (F : fullb L t c = true) by (apply full_iff; lia). destruct (sp L T t c) eqn:ES.
  - rewrite ww_sp32 by auto. unfold ones_in. rewrite F. lia.
  - destruct (mo L T t c) eqn:EM; [rewrite ww_mo32 by auto; lia|]. rewrite ww_de32 by auto. unfold ee. rewrite F. unfold sp in ES.
    pose proof (DD_pos L t c ltac:(lia) ltac:(lia)). pose proof (up8_bound (DD L t c - 1) ltac:(lia)). lia.
Qed.
Lemma OO32_near L T t a j : 1 <= L -> arguments_ok32 true L T = true -> 0 <= a -> 0 <= j -> a + j < nbk L t -> 0 <= OO32 L T t (a + j) - OO32 L T t a <= 4369 * j.
Proof.
  intros HL A Ha Hj. replace j with (Z.of_nat (Z.to_nat j)) by lia. set (n := Z.to_nat j). clearbody n. clear j Hj. induction n as [|n IH]; intros Hn; [rewrite Z.add_0_r; lia|].
  replace (a + Z.of_nat (S n)) with (a + Z.of_nat n + 1) by lia. rewrite OO32_succ by lia. pose proof (ww32_small L T t (a + Z.of_nat n) HL A ltac:(lia)). lia.
Qed.

Lemma select_bch32_ok L T m t r k : 1 <= L -> arguments_ok32 true L T = true -> zlen t < 2 ^ 29 -> nbk L t < 2 ^ 31 - 17 -> addresses_ok m -> selbP32 L T m t r -> 1 <= k <= K t ->
  select_bch32 L T r k = Ok (answer L T t k).
Proof.
  intros HL0 AR Hl HN (A1 & A2 & A3 & A4) (temp & B2 & B3 & B4 & B5 & SA & Z1 & _) Hk. destruct (args_bounds32 L T HL0 AR) as (AB1 & AB2 & AB3). assert (HL : 1 <= L < T) by lia.
  unfold select_bch32, answer. pose proof (slack32_ok _ A2) as SL.
  assert (HD : forall c, 0 <= c <= nbk L t -> u32 (25 * (c / 16)) = 25 * (c / 16) /\ geti (sb_selects r) (25 * (c / 16) + c mod 16) = Ok (SS L t c)).
  { intros c Hc. split; [apply wrap_small; lia|]. rewrite geti_ok by lia. destruct (SA (c / 16) ltac:(lia)) as (v & (_ & V1 & _) & W). rewrite W, V1 by lia. f_equal. rewrite <- B2 by lia. do 2 f_equal. lia. }
  destruct (div_parts k L ltac:(lia) ltac:(lia)) as (D1 & D2 & D3). destruct (k mod L =? 0) eqn:E.
  - destruct (start_exact L t k ltac:(lia) Hk ltac:(lia)) as (C1 & C2). set (c := k / L) in *. clearbody c. destruct (HD c ltac:(lia)) as [-> ->]. cbn [bind]. rewrite C2, P_wrap32 by auto. reflexivity.
  - pose proof (start_inner L t k ltac:(lia) Hk ltac:(lia)) as C. set (c := k / L) in *. set (i := k mod L) in *. clearbody c i.
    destruct (HD c ltac:(lia)) as [U G]. rewrite U, G. cbn [bind].
    replace (if c mod 16 =? 15 then 25 * (c / 16) + 25 else 25 * (c / 16) + (c mod 16 + 1)) with (25 * ((c + 1) / 16) + (c + 1) mod 16) by (destruct (c mod 16 =? 15) eqn:E15; lia).
    destruct (HD (c + 1) ltac:(lia)) as [_ ->]. cbn [bind]. fold (DD L t c).
    pose proof (SS_bound L t c ltac:(lia) ltac:(lia)) as SB. pose proof (DD_pos L t c ltac:(lia) C). pose proof (DD_le L t c ltac:(lia) C).
    rewrite (wrap_small 32 (DD L t c)) by lia. unfold answer_in. rewrite mono_answer with (T := T) by auto. destruct (mo L T t c) eqn:EM.
    + f_equal. rewrite wrap32_l. replace (SS L t c - 1 + i) with (SS L t c + i - 1) by lia. unfold mo in EM. pose proof (SS_bound L t (c + 1) ltac:(lia) ltac:(lia)). unfold DD in *. rewrite wrap_small by lia. reflexivity.
    + clear U G. destruct (SA (c / 16) ltac:(lia)) as (v & (_ & V1 & V2 & V3) & W). set (s := c / 16) in *. set (f := c mod 16) in *. assert (CF : c = 16 * s + f) by lia. assert (F16 : 0 <= f < 16) by lia. assert (S0 : 0 <= s) by lia.
      assert (SN : s <= nbk L t / 16) by lia. clearbody s f. rewrite geti_ok by lia. cbn [bind]. rewrite W, V2 by lia. replace (32 * s + 1) with (2 * (16 * s) + 1) by lia. rewrite B3 by lia.
      assert (OF : forall n, 0 <= n <= f -> 0 <= OO32 L T t (16 * s + n) - OO32 L T t (16 * s) <= 65535).
      { intros n Hn. pose proof (OO32_near L T t (16 * s) n ltac:(lia) AR ltac:(lia) ltac:(lia) ltac:(lia)). lia. }
      assert (DE : forall j, 0 <= j < f -> delta32 temp s j = OO32 L T t (16 * s + j + 1) - OO32 L T t (16 * s)).
      { intros j Hj. unfold delta32. rewrite B3 by lia. replace (32 * s + 1) with (2 * (16 * s) + 1) by lia. rewrite B3 by lia. apply wrap_small.
        specialize (OF (j + 1) ltac:(lia)). replace (16 * s + (j + 1)) with (16 * s + j + 1) in OF by lia. lia. }
      pose proof (OO32_nonneg L T t (16 * s) ltac:(lia) ltac:(lia)) as ON. pose proof (OF f ltac:(lia)) as OFf. rewrite <- CF in OFf.
      assert (OB : OO32 L T t c < 2 ^ 32) by (pose proof (OO32_mono L T t c (nbk L t) ltac:(lia) ltac:(lia) ltac:(lia)); lia).
      match goal with |- bind ?e _ = _ => replace e with (Ok (OO32 L T t c)) end.
      * cbn [bind]. rewrite block_answer32 with (c := c) by (auto; lia). reflexivity.
      * destruct (f >? 0) eqn:E0.
        -- rewrite geti_ok by lia. cbn [bind]. replace (25 * s + (16 + (f + 1) / 2)) with (25 * s + (17 + (f - 1) / 2)) by (clear - F16 E0; lia). rewrite W, V3 by lia.
           pose proof (get_delta32 temp s (f - 1) ltac:(lia) ltac:(intros j' Hj'; rewrite DE by lia; specialize (OF (j' + 1) ltac:(lia)); replace (16 * s + (j' + 1)) with (16 * s + j' + 1) in OF by lia; lia)) as GD. cbv zeta in GD.
           rewrite DE in GD by lia. replace (16 * s + (f - 1) + 1) with c in GD by lia. set (wd := deltas32 _ _ _ _) in *. clearbody wd.
           replace (f mod 2 =? 1) with ((f - 1) mod 2 =? 0) by (clear - F16; lia). rewrite GD. f_equal. rewrite wrap_small by lia. lia.
        -- f_equal. f_equal. lia.
Qed.
