(** SelectBasic32 with plain headers: what the constructor leaves and what select returns. *)
From Coq Require Import ZifyBool.
From Verif Require Import Base BaseFacts Mem MemFacts Words WordFacts BlockFacts NodeFacts Trees TreeBuild Spec BitmapFacts KernelFacts SpecPoppy PoppyFacts PoppyFacts2 SpecText SpecSel32 MrRank MrRankFacts MrRankFacts2 MrMpe MrRank32 MrRank32Facts2 MrMpe32 MrSelect MrSelectFacts MrSelectFacts2 MrSelectFacts3 MrSelectFacts4 MrSelectFacts5 MrSelect32 MrSelect32Facts MrSelect32Facts2 MrSelect32Facts3 MrSelect32Facts4.
Ltac Zify.zify_post_hook ::= Z.div_mod_to_equations.

Lemma zlen_bytes32 j a n : zlen (fresh_aligned_b32 j a n) = Z.max 0 (u32 (n + 128) - (- a) mod 128).
Proof. unfold fresh_aligned_b32, fresh_b. rewrite zlen_map. unfold zlen. rewrite length_zrange. lia. Qed.
Lemma zlen_ints32 j a n : a mod 16 = 0 -> 0 <= n -> n + 32 < 2 ^ 32 -> zlen (fresh_aligned32 j a n) = n + slack32 a.
Proof. intros H Hn Hb. unfold fresh_aligned32. pose proof (slack32_ok a H). unfold slack32 in *. rewrite wrap_small by lia. rewrite zlen_fresh32; lia. Qed.

(** The bytes allocated for the payload. *)
Lemma alloc32 L T t j a : 1 <= L < T -> T < 2 ^ 32 -> zlen t < 2 ^ 29 -> 1 <= K t ->
  let cap := zlen (fresh_aligned_b32 j a (u32 (O132 L T t (nbk L t)))) in
  cap < 2 ^ 32 /\ (OO32 L T t (nbk L t) <=? cap) = (O132 L T t (nbk L t) + 128 <? 2 ^ 32) && negb (overflows32 L T (room_of a) (text_bits t)).
Proof.
  intros HL HT Hl HK. cbv zeta. rewrite zlen_bytes32, wrap32_l. pose proof (nbk_1 L t ltac:(lia) HK) as N1.
  pose proof (O132_bound L T t (nbk L t) HL ltac:(lia)) as OB. pose proof (most32_all L T t HL HT Hl HK) as MA.
  pose proof (wrap_bound 32 (O132 L T t (nbk L t) + 128) ltac:(lia)) as WB. split; [lia|].
  rewrite <- overflow32_iff by auto. unfold room_of. destruct (O132 L T t (nbk L t) + 128 <? 2 ^ 32) eqn:E; cbn [andb].
  - rewrite wrap_small by lia. f_equal. lia.
  - assert (u32 (O132 L T t (nbk L t) + 128) <= O132 L T t (nbk L t) + 128 - 2 ^ 32).
    { unfold wrap. pose proof (Z.div_mod (O132 L T t (nbk L t) + 128) (2 ^ 32) ltac:(lia)) as DM.
      assert (1 <= (O132 L T t (nbk L t) + 128) / 2 ^ 32) by (apply Z.div_le_lower_bound; lia). lia. }
    lia.
Qed.

(** ** The constructor *)
Definition selP32 (L T : Z) (m : memory) (t : list Z) (r : select_basic) : Prop :=
  zlen (sb_selects r) = 2 * nbk L t + 2 + slack32 (m_addr_r m) /\
  (forall c, 0 <= c <= nbk L t -> zn 0 (sb_selects r) (2 * c) = SS L t c) /\
  (forall c, 0 <= c < nbk L t -> zn 0 (sb_selects r) (2 * c + 1) = OO32 L T t c) /\
  (forall c, 0 <= c < nbk L t -> payload32 L T t (sb_bits r) c) /\ OO32 L T t (nbk L t) <= zlen (sb_bits r) < 2 ^ 32 /\
  sb_selects_len r = 2 * nbk L t + 2 /\ sb_bits_len r = O132 L T t (nbk L t) /\ sb_text_len r = zlen t.

Definition builds32 (L T : Z) (m : memory) (t : list Z) : bool := (O132 L T t (nbk L t) + 128 <? 2 ^ 32) && negb (overflows32 L T (room_of (m_addr_b m)) (text_bits t)).

Lemma build_sel32_ok L T m t : 1 <= L < T -> T < 2 ^ 32 -> addresses_ok m -> text_ok t -> zlen t < 2 ^ 29 -> nbk L t < 2 ^ 31 - 17 -> 1 <= K t ->
  if builds32 L T m t then exists r, build_sel32 L T m t = Ok r /\ selP32 L T m t r else build_sel32 L T m t = Ub UB_bounds.
Proof.
  intros HL HT (A1 & A2 & A3 & A4) H Hl HN HK. unfold build_sel32. rewrite number_of_ones32_ok by auto. rewrite selects_len32_nbk by lia.
  pose proof (nbk_1 L t ltac:(lia) HK) as N1. pose proof (slack32_ok _ A2) as SL.
  assert (ZA : zlen (fresh_aligned32 (m_junk_r m) (m_addr_r m) (2 * nbk L t + 2)) = 2 * nbk L t + 2 + slack32 (m_addr_r m)) by (apply zlen_ints32; auto; lia).
  set (arr0 := fresh_aligned32 _ _ _) in *. clearbody arr0.
  destruct (first_pass32_ok L T t arr0 HL HT H Hl ltac:(lia)) as (arr & -> & FD). cbn [bind].
  pose proof (O132_bound L T t (nbk L t) HL ltac:(lia)) as OB. pose proof FD as [ZF FE]. replace (2 * nbk L t + 2 - 2) with (2 * nbk L t) by lia. rewrite (wrap_small 32 (2 * nbk L t)) by lia.
  pose proof (second_pass32_ok L T t arr (fresh_aligned_b32 (m_junk_b m) (m_addr_b m) (u32 (O132 L T t (nbk L t)))) HL HT H Hl ltac:(lia) HK ltac:(split; auto)) as SP.
  destruct (alloc32 L T t (m_junk_b m) (m_addr_b m) HL HT Hl HK) as [CB CE]. rewrite CE in SP. fold (builds32 L T m t) in SP, CE. destruct (builds32 L T m t) eqn:EO.
  - destruct SP as (arr' & bits' & -> & (B1 & B2 & B3 & B4) & ZB). cbn [bind]. eexists. split; [reflexivity|]. unfold selP32. cbn [sb_selects sb_selects_len sb_bits sb_bits_len sb_text_len].
    split; [lia|]. split; [exact B2|]. split; [exact B3|]. split; [exact B4|]. split; [lia|]. unfold builds32 in EO. rewrite wrap_small by lia. auto.
  - rewrite SP. reflexivity.
Qed.

(** ** Queries *)
Lemma P_wrap32 t k : zlen t < 2 ^ 29 -> 1 <= k <= K t -> u32 (P t k + 1 - 1) = P t k.
Proof. intros Hl Hk. pose proof (P_spec t k Hk) as (B & _). rewrite wrap_small by lia. lia. Qed.

Lemma select_std32_ok L T m t r k : 1 <= L < T -> T <= 2 ^ 32 - 64 -> addresses_ok m -> zlen t < 2 ^ 29 -> nbk L t < 2 ^ 31 - 17 -> selP32 L T m t r -> 1 <= k <= K t ->
  select_std32 L T r k = Ok (answer L T t k).
Proof.
  intros HL HT (A1 & A2 & A3 & A4) Hl HN (Z1 & B2 & B3 & B4 & B5 & _) Hk. unfold select_std32, answer. pose proof (slack32_ok _ A2) as SL.
  destruct (div_parts k L ltac:(lia) ltac:(lia)) as (D1 & D2 & D3). destruct (k mod L =? 0) eqn:E.
  - destruct (start_exact L t k ltac:(lia) Hk ltac:(lia)) as (C1 & C2). rewrite (wrap_small 32 (2 * (k / L))) by lia. rewrite geti_ok by lia. cbn [bind]. rewrite B2 by lia. rewrite C2, P_wrap32 by auto. reflexivity.
  - pose proof (start_inner L t k ltac:(lia) Hk ltac:(lia)) as C. set (c := k / L) in *. set (i := k mod L) in *. clearbody c i.
    rewrite (wrap_small 32 (2 * c)), (wrap_small 32 (2 * c + 2)), (wrap_small 32 (2 * c + 1)) by lia.
    rewrite geti_ok by lia. cbn [bind]. rewrite geti_ok by lia. cbn [bind]. replace (2 * c + 2) with (2 * (c + 1)) by lia. rewrite !B2 by lia. fold (DD L t c).
    pose proof (SS_bound L t c ltac:(lia) ltac:(lia)) as SB. pose proof (DD_pos L t c ltac:(lia) C). pose proof (DD_le L t c ltac:(lia) C).
    rewrite (wrap_small 32 (DD L t c)) by lia. unfold answer_in. rewrite mono_answer with (T := T) by auto. destruct (mo L T t c) eqn:EM.
    + f_equal. rewrite wrap32_l. replace (SS L t c - 1 + i) with (SS L t c + i - 1) by lia. unfold mo in EM. pose proof (SS_bound L t (c + 1) ltac:(lia) ltac:(lia)). unfold DD in *. rewrite wrap_small by lia. reflexivity.
    + rewrite geti_ok by lia. cbn [bind]. rewrite B3 by lia. rewrite block_answer32 with (c := c) by (auto; lia). reflexivity.
Qed.
Lemma select_std32_0 L T m t r : 1 <= L < T -> addresses_ok m -> zlen t < 2 ^ 29 -> selP32 L T m t r -> select_std32 L T r 0 = Ok (2 ^ 32 - 1).
Proof.
  intros HL (A1 & A2 & A3 & A4) Hl (Z1 & B2 & _). unfold select_std32. pose proof (slack32_ok _ A2) as SL. pose proof (nbk_pos L t ltac:(lia)).
  rewrite Z.div_0_l, Z.mod_0_l by lia. change (u32 (2 * 0)) with (2 * 0). rewrite geti_ok by lia. cbn [bind]. rewrite B2 by lia. reflexivity.
Qed.
