(** SelectBasic32: what a file that lost part of the payload leads to, and the self test. *)
From Coq Require Import ZifyBool.
From Verif Require Import Base BaseFacts Mem MemFacts Words WordFacts BlockFacts NodeFacts Trees PoppyFacts PoppyFacts2 TreeBuild KernelFacts Spec SpecText SpecSel32 SpecFile SpecFile32 SpecSelFile32 MrRank MrRankFacts MrRankFacts2 MrRankFacts3 MrRankProps MrMpe MrRank32 MrRank32Facts2 MrMpe32 MrMpe32Facts4 MrFile MrFileFacts MrFileFacts2 MrFile32Facts MrSelect MrSelectFacts MrSelectFacts2 MrSelectFacts3 MrSelectFacts4 MrSelectFacts5 MrSelectFacts6 MrFileFacts4 MrSelect32 MrSelect32Facts MrSelect32Facts2 MrSelect32Facts3 MrSelect32Facts4 MrSelect32Facts5 MrSelect32Facts6 MrSelFile32 MrFileFacts5 MrSelFile32Facts.
Ltac Zify.zify_post_hook ::= Z.div_mod_to_equations.

(** ** Bytes that were not saved *)
Lemma rd4_top m off x : (forall k, off <= k < off + 3 -> 0 <= zn 0 m k) -> zn 0 m (off + 3) >= 127 -> x < 2 ^ 30 -> rd 4 m off <> x.
Proof.
  intros H H7 Hx. cbn [rd]. replace (off + 1 + 1 + 1) with (off + 3) by lia. replace (off + 1 + 1) with (off + 2) by lia.
  pose proof (H off ltac:(lia)). pose proof (H (off + 1) ltac:(lia)). pose proof (H (off + 2) ltac:(lia)). lia.
Qed.

Lemma in_block_lost32 L T t bits bits' : 1 <= L < T -> T < 2 ^ 30 -> text_ok t -> zlen t < 2 ^ 29 -> 1 <= K t -> lost32 L T (text_bits t) = true ->
  text_ok bits -> payload32 L T t bits 0 -> bytesP (fun k => u8 (m_junk_b m127 k)) (m_addr_b m127) (O132 L T t (nbk L t)) (zn 0 bits) bits' ->
  K t < L /\ DD L t 0 <> L /\ in_block32 T bits' 0 (DD L t 0) (K t) 0 <> Ok (P t (K t)).
Proof.
  intros HL HT H Hl HK LO OB [P1 P2] (V1 & V2 & V3). unfold lost32 in LO. rewrite <- K_ones in LO. fold (P t (K t)) in LO.
  assert (N : nbk L t = 1) by (unfold nbk; symmetry; apply (Z.div_unique _ _ _ (K t - 1)); lia).
  assert (F : fullb L t 0 = false) by (unfold fullb; lia). assert (M : K t mod L = K t) by (apply Z.mod_small; lia).
  assert (D : DD L t 0 = P t (K t) + 1). { unfold DD. rewrite SS_0, SS_pos by lia. replace (Z.min ((0 + 1) * L) (K t)) with (K t) by lia. lia. }
  destruct (P_spec t (K t) ltac:(lia)) as (PB & PT & PS). set (p := P t (K t)) in *. clearbody p.
  assert (EO : O132 L T t (nbk L t) = w132 L T t 0). { rewrite N. change (O132 L T t 1) with (O132 L T t (0 + 1)). rewrite O132_succ by lia. unfold O132. rewrite sumf_empty by lia. lia. }
  rewrite EO in *. unfold w132 in *. rewrite F in *. cbn [Z.eqb] in *. rewrite D in *. replace (p + 1 - 1) with p in * by lia. rewrite M in *. cbv zeta in *.
  split; [lia|]. split; [lia|]. assert (pT : p >? T = false) by (destruct (p <? T) eqn:EE; lia). rewrite pT in *. rewrite up8_div in * by lia.
  change (room_of (m_addr_b m127)) with 128 in *.
  assert (J : forall k, 1 <= (p + 7) / 8 -> (p + 7) / 8 <= k < (p + 7) / 8 + 128 -> zn 0 bits' k = 127). { intros k H1 Hk. rewrite V3 by lia. reflexivity. }
  assert (OB' : forall k, 0 <= k < (p + 7) / 8 -> 0 <= zn 0 bits' k < 256). { intros k Hk. rewrite V2 by lia. apply tbyte. exact OB. }
  assert (LM : if p <? T then p mod 8 = 0 else p = T /\ 4 * K t > (T + 7) / 8) by (destruct (p <? T) eqn:EE; lia). assert (pL : p + 1 <> L) by lia. assert (KL : K t < L) by lia. clear LO EO M N.
  destruct (p <? T) eqn:E1.
  - assert (SP : sp L T t 0 = false) by (unfold sp; lia). assert (MO : mo L T t 0 = false) by (unfold mo; rewrite SP; lia). specialize (P2 SP MO). unfold ee in P2. rewrite F, D in P2. rewrite SS_0, OO32_0 in P2. rewrite up8_div in P2 by lia. clear D F P1 SP MO.
    destruct (Z.eq_dec p 0) as [->|NE].
    + cbn in V1. assert (bits' = []) by (destruct bits'; [reflexivity|unfold zlen in V1; cbn in V1; lia]). subst bits'. unfold in_block32. replace (0 + 1 >? T) with false by lia. cbn. discriminate.
    + replace ((p + 7) / 8 =? 0) with false in V1 by lia.
      assert (OT : text_ok bits').
      { apply Forall_forall. intros x Hx. apply (In_nth _ _ 0) in Hx as (n & Hn & <-). change (0 <= nth n bits' 0 < 256). replace (nth n bits' 0) with (zn 0 bits' (Z.of_nat n)) by (unfold zn; rewrite Nat2Z.id; reflexivity).
        assert (NL : Z.of_nat n < zlen bits') by (unfold zlen; lia). destruct (Z_lt_le_dec (Z.of_nat n) ((p + 7) / 8)); [apply OB'; lia|]. rewrite J by lia. lia. }
      assert (D2 : dense bits' bits' 0 (p + 8) 0).
      { split; [lia|]. split; [rewrite up8_div by lia; lia|]. rewrite up8_div by lia. intros j Hj. rewrite !Z.add_0_l. rewrite Z.min_l by lia. symmetry. apply bpart_self; auto; lia. }
      assert (TB : forall q, 0 <= q < p -> tb bits' q = tb t q).
      { intros q Hq. unfold tb. replace (zn 0 bits' (q / 8)) with (zn 0 t (q / 8)); [reflexivity|]. rewrite V2 by lia. pose proof (P2 (q / 8) ltac:(lia)) as E. rewrite !Z.add_0_l in E. rewrite E. rewrite Z.min_l by lia. symmetry. apply bpart_self; auto; lia. }
      assert (T1 : ts bits' 0 p = K t - 1). { rewrite <- PS. apply sumf_ext. intros q Hq. apply TB. lia. }
      assert (B7 : zn 0 bits' (p / 8) = 127) by (apply J; clear - LM NE PB; lia).
      assert (T0 : tb bits' p = 0). { unfold tb. rewrite B7. replace (p mod 8) with 0 by lia. reflexivity. }
      assert (T2 : tb bits' (p + 1) = 1). { unfold tb. replace ((p + 1) / 8) with (p / 8) by (clear - LM; lia). rewrite B7. replace ((p + 1) mod 8) with 1 by (clear - LM; lia). reflexivity. }
      assert (T3 : K t <= ts bits' 0 (p + 8)).
      { rewrite (ts_split bits' 0 p (p + 8)) by lia. rewrite T1. rewrite (ts_split bits' p (p + 2) (p + 8)) by lia. pose proof (ts_bound bits' (p + 2) (p + 8) ltac:(lia)).
        replace (p + 2) with (p + 1 + 1) in * by lia. rewrite (ts_succ bits' p (p + 1)) by lia. pose proof (ts_bound bits' p (p + 1) ltac:(lia)). lia. }
      destruct (dense_select32 bits' bits' 0 (p + 8) (p + 1) 0 T (K t) D2 ltac:(lia) ltac:(lia) ltac:(lia) ltac:(lia) ltac:(lia) ltac:(rewrite Z.add_0_l; lia)) as (q & E & Hq & Q1 & Q2).
      rewrite E. intros X. injection X as ->. lia.
  - destruct LM as [-> LM]. clear D F P1 P2. unfold in_block32. replace (T + 1 >? T) with true by lia. rewrite Z.add_0_l, (wrap_small 32 (4 * (K t - 1))) by (clear - KL HL HT HK; lia). unfold load. destruct (in_bounds bits' (4 * (K t - 1)) (Z.of_nat 4)) eqn:IB; [|discriminate].
    unfold in_bounds in IB. replace ((T + 7) / 8 =? 0) with false in V1 by lia. intros X. assert (X' : rd 4 bits' (4 * (K t - 1)) = T) by congruence. clear X. revert X'. apply rd4_top; [| |lia].
    + intros k Hk. destruct (Z_lt_le_dec k ((T + 7) / 8)) as [C|C].
      * apply OB'. split; [|exact C]. clear - Hk HK. lia.
      * rewrite J; [lia|lia|]. split; [exact C|]. clear - Hk IB V1. lia.
    + rewrite J; [lia|lia|]. clear - IB V1 LM. lia.
Qed.

Lemma lost_small32 L T t : 1 <= L < T -> 1 <= K t -> lost32 L T (text_bits t) = true -> K t < L /\ nbk L t = 1 /\ 0 <= O132 L T t (nbk L t) <= T.
Proof.
  intros HL HK LO. unfold lost32 in LO. rewrite <- K_ones in LO. fold (P t (K t)) in LO.
  assert (N : nbk L t = 1) by (unfold nbk; symmetry; apply (Z.div_unique _ _ _ (K t - 1)); lia).
  assert (F : fullb L t 0 = false) by (unfold fullb; lia).
  assert (D : DD L t 0 = P t (K t) + 1). { unfold DD. rewrite SS_0, SS_pos by lia. replace (Z.min ((0 + 1) * L) (K t)) with (K t) by lia. lia. }
  destruct (P_spec t (K t) ltac:(lia)) as (PB & PT & PS). set (p := P t (K t)) in *. clearbody p.
  assert (EO : O132 L T t (nbk L t) = w132 L T t 0). { rewrite N. change (O132 L T t 1) with (O132 L T t (0 + 1)). rewrite O132_succ by lia. unfold O132. rewrite sumf_empty by lia. lia. }
  rewrite EO. unfold w132. rewrite F, D. cbn [Z.eqb]. cbv zeta. replace (p + 1 - 1) with p by lia. assert (pT : p >? T = false) by (destruct (p <? T) eqn:EE; lia). rewrite pT. rewrite up8_div by lia. lia.
Qed.

Lemma std_lost32 L T m t r : 1 <= L < T -> T < 2 ^ 30 -> addresses_ok m -> text_ok t -> zlen t < 2 ^ 29 -> 1 <= K t ->
  lost32 L T (text_bits t) = true -> build_sel32 L T m t = Ok r -> selP32 L T m t r ->
  exists f r', save_sel32 r = Ok f /\ load_sel32 m127 f = Ok (Loaded r' []) /\ select_std32 L T r' (K t) <> Ok (P t (K t)).
Proof.
  intros HL HT A H Hl HK LO E SP. pose proof (build_sel_bytes32 L T m t r E) as [OB ZZ].
  pose proof SP as (Z1 & B2 & B3 & B4 & B5 & E1 & E2 & E3). destruct A as (A1 & A2 & A3 & A4). pose proof (slack32_ok _ A2). pose proof (room_bound (m_addr_b m)).
  pose proof (nbk_1 L t ltac:(lia) HK) as NP. pose proof (O132_bound L T t (nbk L t) HL ltac:(lia)). pose proof (SS_bound L t (nbk L t) ltac:(lia) ltac:(lia)). pose proof (zlen_nonneg t).
  destruct (lost_small32 L T t HL HK LO) as (LS1 & LS2 & LS3). rewrite LS2 in *. change (25 * (1 / 16 + 1)) with 25 in *. change (1 / 16 + 1) with 1 in *. change (2 * 1 + 2) with 4 in *.
  pose proof (selP_size32 m r (conj OB ZZ) ltac:(lia)) as ZB.
  destruct (sel_round32 m127 r m127_ok ltac:(lia) ltac:(lia) ltac:(lia) ltac:(lia) ZB OB) as (f & F1 & F2 & F3 & F4 & F5).
  destruct (F4 [] (Forall_nil _)) as (r' & R1 & (S1 & S2 & S3 & (W1 & W2 & W3) & V)). rewrite app_nil_r in R1. exists f, r'. split; [exact F1|]. split; [exact R1|].
  rewrite E2 in V. replace (O132 L T t 1) with (O132 L T t (nbk L t)) in V by (rewrite LS2; reflexivity). destruct (in_block_lost32 L T t (sb_bits r) (sb_bits r') HL HT H ltac:(lia) HK LO OB (B4 0 ltac:(lia)) V) as (KL & DL & IB).
  rewrite E1 in *. change (4 =? 0) with false in W1. cbv iota in W1. pose proof (slack32_ok _ (proj1 (proj2 m127_ok))) as SL.
  unfold select_std32. cbv zeta. rewrite (Z.div_small (K t) L), (Z.mod_small (K t) L) by (clear - HK KL; lia). replace (K t =? 0) with false by lia. change (u32 (2 * 0)) with 0. change (u32 (2 * 0 + 2)) with 2. change (u32 (2 * 0 + 1)) with 1.
  pose proof (SS_bound L t 1 ltac:(lia) ltac:(lia)). pose proof (B2 0 ltac:(lia)) as X0. pose proof (B2 1 ltac:(lia)) as X1. pose proof (B3 0 ltac:(lia)) as Y0. change (2 * 0) with 0 in X0. change (2 * 1) with 2 in X1. change (2 * 0 + 1) with 1 in Y0. rewrite SS_0 in X0. rewrite OO32_0 in Y0.
  rewrite geti_ok by lia. cbn [bind]. rewrite W2, X0 by lia. rewrite geti_ok by lia. cbn [bind]. rewrite W2, X1 by lia.
  rewrite Z.mod_0_l by lia. rewrite (Z.mod_small (SS L t 1)) by lia. assert (DE : DD L t 0 = SS L t 1) by (unfold DD; rewrite SS_0; change (0 + 1) with 1; lia).
  rewrite (wrap_small 32 (SS L t 1 - 0)) by lia. replace (SS L t 1 - 0) with (DD L t 0) by lia. replace (DD L t 0 =? L) with false by lia.
  rewrite geti_ok by lia. cbn [bind]. rewrite W2, Y0 by lia. exact IB.
Qed.

Lemma bch_lost32 L T m t r : 1 <= L < T -> T < 2 ^ 30 -> addresses_ok m -> text_ok t -> zlen t < 2 ^ 29 -> 1 <= K t ->
  lost32 L T (text_bits t) = true -> build_sel_bch32 L T m t = Ok r -> selbP32 L T m t r ->
  exists f r', save_sel32 r = Ok f /\ load_sel32 m127 f = Ok (Loaded r' []) /\ select_bch32 L T r' (K t) <> Ok (P t (K t)).
Proof.
  intros HL HT A H Hl HK LO E SP. pose proof (build_sel_bch_bytes32 L T m t r E) as [OB ZZ].
  pose proof SP as (temp & B2 & B3 & B4 & B5 & SU & Z1 & E1 & E2 & E3). destruct A as (A1 & A2 & A3 & A4). pose proof (slack32_ok _ A2). pose proof (room_bound (m_addr_b m)).
  pose proof (nbk_1 L t ltac:(lia) HK) as NP. pose proof (O132_bound L T t (nbk L t) HL ltac:(lia)). pose proof (SS_bound L t (nbk L t) ltac:(lia) ltac:(lia)). pose proof (zlen_nonneg t).
  destruct (lost_small32 L T t HL HK LO) as (LS1 & LS2 & LS3). rewrite LS2 in *. change (25 * (1 / 16 + 1)) with 25 in *. change (1 / 16 + 1) with 1 in *. change (2 * 1 + 2) with 4 in *.
  pose proof (selP_size32 m r (conj OB ZZ) ltac:(lia)) as ZB.
  destruct (sel_round32 m127 r m127_ok ltac:(lia) ltac:(lia) ltac:(lia) ltac:(lia) ZB OB) as (f & F1 & F2 & F3 & F4 & F5).
  destruct (F4 [] (Forall_nil _)) as (r' & R1 & (S1 & S2 & S3 & (W1 & W2 & W3) & V)). rewrite app_nil_r in R1. exists f, r'. split; [exact F1|]. split; [exact R1|].
  rewrite E2 in V. replace (O132 L T t 1) with (O132 L T t (nbk L t)) in V by (rewrite LS2; reflexivity). destruct (in_block_lost32 L T t (sb_bits r) (sb_bits r') HL HT H ltac:(lia) HK LO OB (B4 0 ltac:(lia)) V) as (KL & DL & IB).
  rewrite E1 in *. change (25 =? 0) with false in W1. cbv iota in W1. pose proof (slack32_ok _ (proj1 (proj2 m127_ok))) as SL.
  destruct (SU 0 ltac:(lia)) as (v & (_ & V1 & V2 & _) & EV). pose proof (SS_bound L t 1 ltac:(lia) ltac:(lia)).
  assert (X0 : zn 0 (sb_selects r') 0 = 0). { rewrite W2 by lia. pose proof (EV 0 ltac:(lia)) as EE. change (25 * 0 + 0) with 0 in EE. rewrite EE, V1 by lia. change (2 * (16 * 0 + 0)) with (2 * 0). rewrite B2, SS_0 by lia. reflexivity. }
  assert (X1 : zn 0 (sb_selects r') 1 = SS L t 1). { rewrite W2 by lia. pose proof (EV 1 ltac:(lia)) as EE. change (25 * 0 + 1) with 1 in EE. rewrite EE, V1 by lia. change (2 * (16 * 0 + 1)) with (2 * 1). rewrite B2 by lia. apply Z.mod_small. lia. }
  assert (Y0 : zn 0 (sb_selects r') 16 = 0). { rewrite W2 by lia. pose proof (EV 16 ltac:(lia)) as EE. change (25 * 0 + 16) with 16 in EE. rewrite EE, V2 by lia. change (32 * 0 + 1) with (2 * 0 + 1). rewrite B3, OO32_0 by lia. reflexivity. }
  unfold select_bch32. cbv zeta. rewrite (Z.div_small (K t) L), (Z.mod_small (K t) L) by (clear - HK KL; lia). replace (K t =? 0) with false by lia. change (u32 (25 * (0 / 16))) with 0. change (0 mod 16) with 0. change (0 =? 15) with false. change (0 >? 0) with false. cbv iota. change (0 + (0 + 1)) with 1. change (0 + 0) with 0. change (0 + 16) with 16.
  rewrite geti_ok by lia. cbn [bind]. rewrite X0. rewrite geti_ok by lia. cbn [bind]. rewrite X1.
  assert (DE : DD L t 0 = SS L t 1) by (unfold DD; rewrite SS_0; change (0 + 1) with 1; lia).
  rewrite (wrap_small 32 (SS L t 1 - 0)) by lia. replace (SS L t 1 - 0) with (DD L t 0) by lia. replace (DD L t 0 =? L) with false by lia.
  rewrite geti_ok by lia. cbn [bind]. rewrite Y0. exact IB.
Qed.

(** ** testSelect *)
Definition sel_row32 (select : Z -> res Z) (t : list Z) := fun '(n, out) q =>
      let* b := text_bit t q in
      if b then
        let n := u32 (n + 1) in
        let* r := select n in
        Ok (n, if u32 q =? r then out else out ++ [(n, u32 q, r)])
      else Ok (n, out).
Lemma sel_row_out32 select t l : forall n out n' out', foldM (sel_row32 select t) l (n, out) = Ok (n', out') -> out <> [] -> out' <> [].
Proof.
  induction l as [|q l IH]; intros n out n' out' E H; cbn [foldM] in E; [injection E as <- <-; exact H|].
  unfold sel_row32 at 1 in E. destruct (text_bit t q) as [b| |]; cbn [bind] in E; try discriminate. destruct b; [|cbn [bind] in E; eauto].
  cbv zeta in E. destruct (select (u32 (n + 1))) as [r| |]; cbn [bind] in E; try discriminate.
  eapply IH; [exact E|]. destruct (_ =? r); [exact H|]. destruct out; discriminate.
Qed.
Lemma sel_rows32 select t : zlen t < 2 ^ 29 -> forall n q, 0 <= q -> q + Z.of_nat n <= 8 * zlen t ->
  (forall k, ts t 0 q < k <= ts t 0 (q + Z.of_nat n) -> select k = Ok (P t k)) <-> exists x, foldM (sel_row32 select t) (zrange q n) (ts t 0 q, []) = Ok (x, []).
Proof.
  intros Hl. induction n as [|n IH]; intros q Hq Hn.
  - cbn [zrange foldM]. rewrite Z.add_0_r. split; [intros _; eexists; reflexivity|]. intros _ k Hk. lia.
  - cbn [zrange foldM]. unfold sel_row32 at 1. rewrite text_bit_ok by lia. cbn [bind]. specialize (IH (q + 1) ltac:(lia) ltac:(lia)).
    replace (q + Z.of_nat (S n)) with (q + 1 + Z.of_nat n) in * by lia. rewrite (ts_succ t 0 q) in IH by lia. pose proof (ts_bound t 0 q ltac:(lia)) as TB.
    pose proof (ts_split t 0 (q + 1) (q + 1 + Z.of_nat n) ltac:(lia)) as TS. rewrite (ts_succ t 0 q) in TS by lia. pose proof (ts_bound t (q + 1) (q + 1 + Z.of_nat n) ltac:(lia)) as TB2.
    pose proof (ts_split t 0 (q + 1 + Z.of_nat n) (8 * zlen t) ltac:(lia)) as TS3. pose proof (ts_bound t (q + 1 + Z.of_nat n) (8 * zlen t) ltac:(lia)) as TB3. fold (K t) in TS3.
    destruct (tb_cases t q) as [E|E]; rewrite E in *; cbn [Z.eqb Pos.eqb bind].
    + rewrite Z.add_0_r in IH. exact IH.
    + rewrite !wrap_small by lia. assert (PQ : P t (ts t 0 q + 1) = q) by (symmetry; apply P_uniq; lia). split.
      * intros A. rewrite A by lia. cbn [bind]. rewrite PQ, Z.eqb_refl. apply IH. intros k Hk. apply A. lia.
      * intros (x & EX). destruct (select (ts t 0 q + 1)) as [r| |] eqn:ER; cbn [bind] in EX; try discriminate. destruct (q =? r) eqn:EQ.
        -- intros k Hk. destruct (Z.eq_dec k (ts t 0 q + 1)) as [->|NE]; [rewrite ER, PQ; f_equal; lia|]. apply IH; [eauto|lia].
        -- exfalso. apply sel_row_out32 in EX; [apply EX; reflexivity|discriminate].
Qed.
Lemma test_select32_iff select t : zlen t < 2 ^ 29 -> test_select32 select t = Ok [] <-> forall k, 1 <= k <= K t -> select k = Ok (P t k).
Proof.
  intros Hl. pose proof (zlen_nonneg t). pose proof (sel_rows32 select t Hl (Z.to_nat (8 * zlen t)) 0 ltac:(lia) ltac:(lia)) as R. rewrite Z2Nat.id in R by lia. rewrite Z.add_0_l in R.
  fold (K t) in R. rewrite ts_empty in R. unfold test_select32. fold (sel_row32 select t). split.
  - intros E k Hk. apply R; [|lia]. destruct (foldM (sel_row32 select t) (zrange 0 (Z.to_nat (8 * zlen t))) (0, [])) as [[n out]| |] eqn:E2; cbn [bind] in E; try discriminate. injection E as ->. eauto.
  - intros A. destruct (proj1 R ltac:(intros k Hk; apply A; lia)) as (x & ->). reflexivity.
Qed.
