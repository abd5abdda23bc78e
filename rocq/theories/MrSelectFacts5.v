(** SelectBasic64 with plain headers: what the constructor leaves and what select returns. *)
From Coq Require Import ZifyBool.
From Verif Require Import Base BaseFacts Mem MemFacts Words WordFacts BlockFacts NodeFacts Trees TreeBuild Spec BitmapFacts KernelFacts SpecPoppy PoppyFacts PoppyFacts2 SpecText MrRank MrRankFacts MrRankFacts2 MrSelect MrSelectFacts MrSelectFacts2 MrSelectFacts3 MrSelectFacts4.
Ltac Zify.zify_post_hook ::= Z.div_mod_to_equations.

(** ** Bytes available for the payload *)
Definition room_of (addr : Z) : Z := 128 - (- addr) mod 128.
Lemma room_bound a : 1 <= room_of a <= 128.
Proof. unfold room_of. lia. Qed.
Lemma room_16 a : a mod 16 = 0 -> 16 <= room_of a <= 128.
Proof. unfold room_of. lia. Qed.
Lemma zlen_fresh_bytes j a n : 0 <= n -> zlen (fresh_bytes j a n) = n + room_of a.
Proof. intros Hn. unfold fresh_bytes. pose proof (room_bound a). unfold room_of in *. rewrite zlen_fresh by lia. lia. Qed.

Lemma up8_div x : 0 <= x -> up8 x = (x + 7) / 8.
Proof. intros. unfold up8. destruct (x mod 8 >? 0) eqn:E; lia. Qed.

Lemma overflow_iff L T t a : 1 <= L < T -> 1 <= K t -> (OO L T t (nbk L t) <=? O1 L T t (nbk L t) + room_of a) = negb (overflows L T (room_of a) (text_bits t)).
Proof.
  intros HL HK. pose proof (room_bound a). unfold overflows. rewrite <- K_ones. fold (P t (K t)). rewrite <- up8_div by lia.
  destruct (tight L T t) eqn:E.
  - destruct (tight_sizes L T t HL E) as (-> & -> & ->). unfold tight in E. replace (1 <=? K t) with true by lia. replace (K t <? L) with true by lia.
    replace (P t (K t) =? T) with true by lia. cbn [andb]. lia.
  - pose proof (fits_all L T t HL E (nbk L t) ltac:(pose proof (nbk_pos L t ltac:(lia)); lia)). unfold tight in E.
    replace (OO L T t (nbk L t) <=? O1 L T t (nbk L t) + room_of a) with true by lia.
    destruct ((1 <=? K t) && (K t <? L) && (P t (K t) =? T)) eqn:E2; [lia|]. reflexivity.
Qed.

(** ** The constructor *)
Definition selP (L T : Z) (m : memory) (t : list Z) (r : select_basic) : Prop :=
  zlen (sb_selects r) = 2 * nbk L t + 2 + slack (m_addr_r m) /\
  (forall c, 0 <= c <= nbk L t -> zn 0 (sb_selects r) (2 * c) = SS L t c) /\
  (forall c, 0 <= c < nbk L t -> zn 0 (sb_selects r) (2 * c + 1) = OO L T t c) /\
  (forall c, 0 <= c < nbk L t -> payload L T t (sb_bits r) c) /\ OO L T t (nbk L t) <= zlen (sb_bits r) /\
  sb_selects_len r = 2 * nbk L t + 2 /\ sb_bits_len r = O1 L T t (nbk L t) /\ sb_text_len r = zlen t.

Lemma nbk_1 L t : 1 <= L -> 1 <= K t -> 1 <= nbk L t.
Proof. intros. pose proof (proj2 (blk_lt L t 0 ltac:(lia) ltac:(lia))). lia. Qed.

Lemma build_sel_ok L T m t : 1 <= L < T -> T < 2 ^ 32 -> addresses_ok m -> text_ok t -> zlen t < 2 ^ 58 -> 1 <= K t ->
  if overflows L T (room_of (m_addr_b m)) (text_bits t) then build_sel L T m t = Ub UB_bounds
  else exists r, build_sel L T m t = Ok r /\ selP L T m t r.
Proof.
  intros HL HT (A1 & A2 & A3 & A4) H Hl HK. unfold build_sel. rewrite number_of_ones_ok by auto. rewrite selects_len_nbk by lia.
  pose proof (nbk_1 L t ltac:(lia) HK) as N1. pose proof (slack_ok _ A2) as SL.
  assert (ZA : zlen (fresh_aligned (m_junk_r m) (m_addr_r m) (2 * nbk L t + 2)) = 2 * nbk L t + 2 + slack (m_addr_r m)) by (apply zlen_aligned; auto; lia).
  set (arr0 := fresh_aligned _ _ _) in *. clearbody arr0.
  destruct (first_pass_ok L T t arr0 HL HT H Hl ltac:(lia)) as (arr & -> & FD). cbn [bind].
  pose proof (O1_bound L T t (nbk L t) HL ltac:(lia)) as OB. pose proof FD as [ZF FE]. replace (2 * nbk L t + 2 - 2) with (2 * nbk L t) by lia.
  pose proof (second_pass_ok L T t arr (fresh_bytes (m_junk_b m) (m_addr_b m) (O1 L T t (nbk L t))) HL HT H Hl ltac:(lia) HK ltac:(split; auto)) as SP.
  rewrite zlen_fresh_bytes in SP by lia. rewrite overflow_iff in SP by auto. destruct (overflows L T (room_of (m_addr_b m)) (text_bits t)) eqn:EO; cbn [negb] in SP.
  - rewrite SP. reflexivity.
  - destruct SP as (arr' & bits' & -> & (B1 & B2 & B3 & B4) & ZB). cbn [bind]. eexists. split; [reflexivity|]. unfold selP. cbn [sb_selects sb_selects_len sb_bits sb_bits_len sb_text_len].
    split; [lia|]. split; [exact B2|]. split; [exact B3|]. split; [exact B4|]. split; [|auto].
    pose proof (overflow_iff L T t (m_addr_b m) HL HK) as OI. rewrite EO in OI. lia.
Qed.

(** ** Queries *)
Definition answer (L T : Z) (t : list Z) (k : Z) : Z := if k mod L =? 0 then P t k else answer_in L T t (k / L) (k mod L).

Lemma P_wrap t k : zlen t < 2 ^ 58 -> 1 <= k <= K t -> u64 (P t k + 1 - 1) = P t k.
Proof. intros Hl Hk. pose proof (P_spec t k Hk) as (B & _). rewrite wrap_small by lia. lia. Qed.

Lemma div_parts k L : 1 <= L -> 1 <= k -> 0 <= k / L /\ k = k / L * L + k mod L /\ 0 <= k mod L < L.
Proof. intros. pose proof (Z.div_mod k L ltac:(lia)). pose proof (Z.mod_pos_bound k L ltac:(lia)). pose proof (Z.div_pos k L ltac:(lia) ltac:(lia)). lia. Qed.

Lemma start_exact L t k : 1 <= L -> 1 <= k <= K t -> k mod L = 0 -> 1 <= k / L <= nbk L t /\ SS L t (k / L) = P t k + 1.
Proof.
  intros HL Hk E. destruct (div_parts k L ltac:(lia) ltac:(lia)) as (D1 & D2 & D3). set (c := k / L) in *. rewrite E, Z.add_0_r in D2. clearbody c.
  assert (1 <= c) by nia. pose proof (proj2 (blk_lt L t (c - 1) ltac:(lia) ltac:(lia))) as BL. split; [nia|]. rewrite SS_pos by lia. do 2 f_equal. lia.
Qed.
Lemma start_inner L t k : 1 <= L -> 1 <= k <= K t -> k mod L <> 0 -> 0 <= k / L < nbk L t.
Proof.
  intros HL Hk E. destruct (div_parts k L ltac:(lia) ltac:(lia)) as (D1 & D2 & D3). split; [lia|]. apply blk_lt; lia.
Qed.

Lemma mono_answer L T t c : 1 <= L < T -> 0 <= c < nbk L t -> (DD L t c =? L) = mo L T t c.
Proof. intros HL Hc. unfold mo, sp. destruct (DD L t c =? L) eqn:E; [replace (DD L t c >? T) with false by lia; reflexivity|rewrite andb_false_r; reflexivity]. Qed.

Lemma select_std_ok L T m t r k : 1 <= L < T -> addresses_ok m -> zlen t < 2 ^ 58 -> selP L T m t r -> 1 <= k <= K t ->
  select_std L T r k = Ok (answer L T t k).
Proof.
  intros HL (A1 & A2 & A3 & A4) Hl (Z1 & B2 & B3 & B4 & B5 & _) Hk. unfold select_std, answer. pose proof (slack_ok _ A2) as SL.
  destruct (div_parts k L ltac:(lia) ltac:(lia)) as (D1 & D2 & D3). destruct (k mod L =? 0) eqn:E.
  - destruct (start_exact L t k ltac:(lia) Hk ltac:(lia)) as (C1 & C2). rewrite geti_ok by lia. cbn [bind]. rewrite B2 by lia. rewrite C2, P_wrap by auto. reflexivity.
  - pose proof (start_inner L t k ltac:(lia) Hk ltac:(lia)) as C. set (c := k / L) in *. set (i := k mod L) in *. clearbody c i.
    rewrite geti_ok by lia. cbn [bind]. rewrite geti_ok by lia. cbn [bind]. replace (2 * c + 2) with (2 * (c + 1)) by lia. rewrite !B2 by lia. fold (DD L t c).
    pose proof (SS_bound L t c ltac:(lia) ltac:(lia)) as SB. pose proof (DD_pos L t c ltac:(lia) C). pose proof (DD_le L t c ltac:(lia) C).
    rewrite (wrap_small 64 (DD L t c)) by lia. unfold answer_in. rewrite mono_answer with (T := T) by auto. destruct (mo L T t c) eqn:EM.
    + f_equal. unfold wrap. rewrite Zplus_mod_idemp_l. replace (SS L t c - 1 + i) with (SS L t c + i - 1) by lia. pose proof (K_bound t). assert (0 <= c * L) by nia. rewrite Z.mod_small by lia. reflexivity.
    + rewrite geti_ok by lia. cbn [bind]. rewrite B3 by lia. rewrite block_answer with (c := c) by (auto; lia). reflexivity.
Qed.
Lemma select_std_0 L T m t r : 1 <= L < T -> addresses_ok m -> zlen t < 2 ^ 58 -> selP L T m t r -> select_std L T r 0 = Ok (2 ^ 64 - 1).
Proof.
  intros HL (A1 & A2 & A3 & A4) Hl (Z1 & B2 & _). unfold select_std. pose proof (slack_ok _ A2) as SL. pose proof (nbk_pos L t ltac:(lia)).
  rewrite Z.div_0_l, Z.mod_0_l by lia. rewrite geti_ok by lia. cbn [bind]. rewrite B2 by lia. reflexivity.
Qed.

(** ** The answer in terms of the bits *)
Lemma group_SS L t c : 1 <= L -> 0 <= c -> c * L <= K t -> group_start L (text_bits t) c = SS L t c.
Proof. intros HL Hc HK. unfold group_start, SS. destruct (c =? 0) eqn:E; [reflexivity|]. fold (P t (c * L)). rewrite Z.min_l by lia. reflexivity. Qed.

Lemma answer_spec L T t k : 1 <= L < T -> 1 <= k <= K t -> answer L T t k = sel_answer L (text_bits t) k.
Proof.
  intros HL Hk. unfold answer, sel_answer. rewrite <- K_ones. fold (P t k). destruct (div_parts k L ltac:(lia) ltac:(lia)) as (D1 & D2 & D3).
  destruct (div_parts (K t) L ltac:(lia) ltac:(lia)) as (F1 & F2 & F3).
  unfold misread. rewrite <- K_ones. fold (P t (K t)). rewrite group_SS by lia. set (g := K t / L) in *. set (f := K t mod L) in *. clearbody g.
  destruct (k mod L =? 0) eqn:E.
  - replace (g * L <? k) with false; [rewrite andb_false_r; reflexivity|]. assert (k / L <= g) by nia. nia.
  - pose proof (start_inner L t k ltac:(lia) Hk ltac:(lia)) as C. set (c := k / L) in *. set (i := k mod L) in *. clearbody c i. unfold answer_in.
    rewrite <- D2. destruct (fullb L t c) eqn:EF.
    + assert (G : (g * L <? k) = false). { unfold fullb in EF. assert (c + 1 <= g) by nia. nia. }
      rewrite G, andb_false_r. destruct (mo L T t c) eqn:EM; [|reflexivity]. rewrite (mono_right L T t c i) by (auto; lia). f_equal. lia.
    + destruct (not_full_last L t c ltac:(lia) C EF) as (_ & NF2 & NF3 & NF4). fold f in NF3, NF4.
      assert (CG : c = g) by nia. rewrite <- mono_answer by auto. unfold DD. rewrite (SS_pos L t (c + 1)) by lia.
      replace (Z.min ((c + 1) * L) (K t)) with (K t) by (unfold fullb in EF; lia). clear NF2. subst c. replace (g * L <? k) with true by lia. rewrite andb_true_r.
      replace (f >? 0) with true by lia. cbn [andb]. destruct (P t (K t) + 1 - SS L t g =? L); [clear - D2; lia|reflexivity].
Qed.
