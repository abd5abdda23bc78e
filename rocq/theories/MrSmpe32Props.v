(** SelectMPE32: the statements of Properties29. *)
From Coq Require Import ZifyBool.
From Verif Require Import Base BaseFacts Mem MemFacts Words WordFacts BlockFacts NodeFacts Trees TreeBuild Spec BitmapFacts ProgramFacts KernelFacts SpecPoppy PoppyFacts PoppyFacts2 SpecText SpecSel32 MrRank MrRankFacts MrRankFacts2 MrRankFacts3 MrRankProps MrSelect MrSelectFacts MrSelectFacts2 MrSelectFacts3 MrSelectFacts4 MrSelectFacts5 MrSelectFacts6 MrSelectProps MrMpe SpecSmpe SpecSmpe32 MrMpeFacts MrMpeFacts2 MrRank32 MrRank32Facts2 MrMpe32 MrSelect32 MrSelect32Facts MrSelect32Facts5 MrSelect32Facts6 MrSelect32Props MrSmpe MrSmpeFacts MrSmpeFacts2 MrSmpeFacts3 MrSmpeFacts5 MrSmpeFacts6 MrSmpeFacts7 MrSmpeProps MrSmpe32 MrSmpe32Facts MrSmpe32Facts3 MrSmpe32Facts5 MrSmpe32Facts6 MrSmpe32Facts7.
Ltac Zify.zify_post_hook ::= Z.div_mod_to_equations.

(** ** Groups *)
Lemma payload_blen3_32 M L T t : 1 <= L < T -> zlen t < 2 ^ 29 -> smpe_payload32 M L T (text_bits t) = blen3_32 M L T t.
Proof.
  intros HL Hl. unfold smpe_payload32, blen3_32. rewrite payload_O132 by lia. rewrite groups_nbk. rewrite (sumf_ext _ (fun c => 2 * rnc M L T t c - hdc M L T t c)) by (intros; apply saved_cw; auto; lia).
  rewrite sumf_sub, sumf_scale. unfold AD, RM. lia.
Qed.

(** ** Constructors *)
Lemma fits_args32 M L T : 1 <= L < T -> fits_fields32 M L T = true -> smpe_arguments32 M L T = true /\ T < 2 ^ 32.
Proof. intros HL F. unfold fits_fields32 in F. unfold smpe_arguments32. destruct M; cbn [field_limit32] in F; cbv zeta; lia. Qed.
Lemma mpe12_args32 M L T : M <> MPE3 -> 1 <= L -> smpe_arguments32 M L T = true <-> L < T /\ fits_fields32 M L T = true.
Proof. intros NM HL. unfold smpe_arguments32, fits_fields32. destruct M; cbn [field_limit32]; cbv zeta; [| |congruence]; split; intros; lia. Qed.
Lemma all_args32 M L T : smpe_arguments32 M L T = true <-> L < T /\ match M with MPE1 => L <= 547 /\ T <= 17473 | _ => L <= 274 /\ T <= 8737 end.
Proof. unfold smpe_arguments32. destruct M; cbv zeta; split; intros; lia. Qed.
Lemma mpe3_fits32 L T : fits_fields32 MPE3 L T = true <-> L <= 274 /\ T <= 7761.
Proof. unfold fits_fields32. cbn [field_limit32]. split; intros; lia. Qed.
Lemma builds3_spec32 M L T m t : 1 <= L < T -> zlen t < 2 ^ 29 -> builds3_32 M L T m t = negb (smpe_too_large32 M L T (text_bits t)) && negb (overflows32 L T (room_of (m_addr_b m)) (text_bits t)).
Proof. intros HL Hl. unfold builds3_32, smpe_too_large32. rewrite payload_blen3_32 by auto. f_equal. lia. Qed.

(** ** Queries *)
Lemma last_fine32 M L T t jf : 1 <= L < T -> 1 <= K t -> (reads_last_flag32 L T (text_bits t) = true -> flag_clear M (jf (groups L (text_bits t) - 1)) = true) -> 1 < L -> last_ok32 M L T t jf.
Proof.
  intros HL HK H H1. unfold reads_last_flag32 in H. cbv zeta in H. rewrite groups_nbk, <- K_ones in H. pose proof (nbk_1 L t ltac:(lia) HK) as N1. rewrite span_DD in H by lia.
  destruct (K t mod L =? 0) eqn:E.
  - replace (1 <? L) with true in H by lia. cbn [andb] in H. split.
    + intros D. apply clear_read, H. apply de_true in D. destruct D as [D1 D2]. unfold sp in D1. rewrite D1. unfold mo, sp in D2. lia.
    + intros D D2. apply clear_read, H. unfold sp in D. rewrite D. lia.
  - assert (Z0 : read_flag M (lastflag L t jf) = 0).
    { unfold lastflag. pose proof (Z.mod_pos_bound (K t) L ltac:(lia)). replace (K t mod L >? 0) with true by lia. destruct M; reflexivity. }
    split; auto.
Qed.

Lemma select_smpe32_0 M L T jf m t r buf : 1 <= L < T -> addresses_ok m -> smpeP32 M L T jf m t r -> select_smpe32 M L T r buf 0 = Ok (2 ^ 32 - 1).
Proof.
  intros HL (A1 & A2 & A3 & A4) (temp & btc & (T1 & T2 & T3) & _ & _ & SA & Z1 & _). unfold select_smpe32. pose proof (slack32_ok _ A2) as SL. pose proof (nbk_pos L t ltac:(lia)).
  rewrite !Z.div_0_l, !Z.mod_0_l by lia. change (u32 (25 * 0) + 0) with 0. rewrite geti_ok by lia. cbn [bind]. rewrite Z.eqb_refl.
  destruct (SA 0 ltac:(lia)) as (v & (_ & V1 & _) & W). specialize (W 0 ltac:(lia)). change (25 * 0 + 0) with 0 in W. rewrite W, V1 by lia. replace (2 * (16 * 0 + 0)) with (2 * 0) by lia. rewrite T2 by lia. reflexivity.
Qed.

Lemma smpe_select32 M L T jf m t : 1 <= L < T -> fits_fields32 M L T = true -> addresses_ok m -> text_ok t -> zlen t < 2 ^ 29 -> 1 <= count_true (text_bits t) ->
  groups L (text_bits t) < 2 ^ 31 - 17 -> smpe_too_large32 M L T (text_bits t) = false -> overflows32 L T (room_of (m_addr_b m)) (text_bits t) = false -> (reads_last_flag32 L T (text_bits t) = true -> flag_clear M (jf (groups L (text_bits t) - 1)) = true) ->
  exists r, build_smpe32 M L T false jf m t = Ok r /\ forall buf, zlen buf = 8 -> select_smpe32 M L T r buf 0 = Ok (2 ^ 32 - 1) /\
    forall k, 1 <= k <= count_true (text_bits t) -> select_smpe32 M L T r buf k = Ok (sel_answer L (text_bits t) k).
Proof.
  intros HL F A H Hl HK HG HP HO HC. destruct (fits_args32 M L T HL F) as [_ HT]. rewrite <- K_ones in *. rewrite groups_nbk in HG. pose proof (build_smpe32_ok M L T jf m t HL HT A H Hl HG HK) as B. rewrite builds3_spec32, HP, HO in B by auto. cbn [negb andb] in B. destruct B as (r & E & R).
  exists r. split; [exact E|]. intros buf Hb. split; [eapply select_smpe32_0; eauto|]. intros k Hk. rewrite <- answer_spec with (T := T) by lia.
  eapply select_smpe32_ok; eauto. apply last_fine32; auto.
Qed.
Lemma smpe_right32 M L T jf m t : 1 <= L < T -> fits_fields32 M L T = true -> addresses_ok m -> text_ok t -> zlen t < 2 ^ 29 -> 1 <= count_true (text_bits t) ->
  groups L (text_bits t) < 2 ^ 31 - 17 -> smpe_too_large32 M L T (text_bits t) = false -> overflows32 L T (room_of (m_addr_b m)) (text_bits t) = false -> misread L (text_bits t) = false -> (reads_last_flag32 L T (text_bits t) = true -> flag_clear M (jf (groups L (text_bits t) - 1)) = true) ->
  exists r, build_smpe32 M L T false jf m t = Ok r /\ forall buf k, zlen buf = 8 -> 1 <= k <= count_true (text_bits t) ->
    exists p, select_smpe32 M L T r buf k = Ok p /\ is_select (text_bits t) (k - 1) p.
Proof.
  intros HL F A H Hl HK HG HP HO HM HC. destruct (smpe_select32 M L T jf m t HL F A H Hl HK HG HP HO HC) as (r & E & S). exists r. split; [exact E|]. intros buf k Hb Hk.
  destruct (S buf Hb) as [_ S1]. exists (nth_one (text_bits t) k). rewrite (S1 k Hk), answer_right by (auto; lia). split; [reflexivity|]. apply nth_one_is_select. exact Hk.
Qed.

(** ** Undefined construction *)
Lemma smpe_undefined32 M L T strict jf m t : 1 <= L < T -> T < 2 ^ 32 -> addresses_ok m -> text_ok t -> zlen t < 2 ^ 29 -> groups L (text_bits t) < 2 ^ 31 - 17 ->
  if strict || (count_true (text_bits t) =? 0) || smpe_too_large32 M L T (text_bits t) || overflows32 L T (room_of (m_addr_b m)) (text_bits t) then build_smpe32 M L T strict jf m t = Ub UB_bounds
  else exists r, build_smpe32 M L T strict jf m t = Ok r.
Proof.
  intros HL HT A H Hl HG. rewrite <- K_ones in *. rewrite groups_nbk in HG. pose proof (K_bound t) as KB. destruct (Z.eq_dec (K t) 0) as [E0|E0].
  - replace (K t =? 0) with true by lia. rewrite orb_true_r. cbn [orb]. apply build_smpe32_none; auto.
  - replace (K t =? 0) with false by lia. rewrite orb_false_r. destruct strict; cbn [orb].
    + apply build_smpe32_strict; auto; lia.
    + pose proof (build_smpe32_ok M L T jf m t HL HT A H Hl HG ltac:(lia)) as B. rewrite builds3_spec32, negb_andb, !negb_involutive in B by auto. destruct (smpe_too_large32 M L T (text_bits t) || overflows32 L T (room_of (m_addr_b m)) (text_bits t)); [exact B|]. destruct B as (r & E & _). eauto.
Qed.

(** ** Sizes *)
Lemma smpe_sizes32 M L T jf m t r : 1 <= L < T -> T < 2 ^ 32 -> addresses_ok m -> text_ok t -> zlen t < 2 ^ 29 -> groups L (text_bits t) < 2 ^ 31 - 17 -> build_smpe32 M L T false jf m t = Ok r ->
  smpe_text_size32 r = zlen t /\
  smpe_size32 r = 308 + 100 * (groups L (text_bits t) / 16 + 1) + (if smpe_payload32 M L T (text_bits t) =? 0 then 0 else smpe_payload32 M L T (text_bits t) + 128).
Proof.
  intros HL HT A H Hl HG E. rewrite groups_nbk in *. pose proof (K_bound t) as KB. destruct (Z.eq_dec (K t) 0) as [E0|E0]; [rewrite (build_smpe32_none M L T false jf m t) in E by (auto; lia); discriminate|].
  pose proof (build_smpe32_ok M L T jf m t HL HT A H Hl HG ltac:(lia)) as B. destruct (builds3_32 M L T m t) eqn:BT; cbn [negb] in B; [|rewrite B in E; discriminate].
  destruct B as (r' & E' & (temp & btc & _ & _ & _ & _ & _ & Z2 & Z3 & Z4)). rewrite E' in E. injection E as <-. unfold smpe_text_size32, smpe_size32. rewrite Z2, Z3, Z4. pose proof (zlen_nonneg t). split; [apply wrap_small; lia|].
  rewrite payload_blen3_32 by lia. pose proof (nbk_pos L t ltac:(lia)) as N0. apply andb_prop in BT. destruct BT as [BT _].
  assert (PB : 0 <= blen3_32 M L T t < 2 ^ 32 - 128). { split; [unfold blen3_32; apply blen_nonneg32; lia|lia]. }
  set (p := blen3_32 M L T t) in *. clearbody p. set (q := nbk L t / 16) in *. assert (QB : 0 <= q <= 2 ^ 27) by (clear - N0 HG; lia). clearbody q. clear - QB PB.
  rewrite (wrap_small 32 (25 * (q + 1) + 32)) by lia. rewrite (wrap_small 32 (p + 128)) by lia.
  replace (25 * (q + 1) >? 0) with true by lia. replace (p >? 0) with (negb (p =? 0)) by lia. destruct (p =? 0); cbn [negb]; rewrite wrap_small; lia.
Qed.

(** ** Witnesses *)
Lemma bad_flag32 : exists m t r, addresses_ok m /\ text_ok t /\ build_smpe32 MPE1 128 4096 false (fun _ => 1) m t = Ok r /\ select_smpe32 MPE1 128 4096 r (repeat 0 8) 64 = Ok 87 /\ is_select (text_bits t) 63 127.
Proof.
  set (t := repeat 85 32). set (m := mem_of 0 0). assert (A : addresses_ok m) by (apply mem_of_ok; [lia|reflexivity]).
  assert (H : text_ok t) by (repeat constructor; lia).
  assert (E : (let* r := build_smpe32 MPE1 128 4096 false (fun _ => 1) m t in select_smpe32 MPE1 128 4096 r (repeat 0 8) 64) = Ok 87) by (vm_compute; reflexivity).
  apply bind_value in E. destruct E as (r & B & E). exists m, t, r. split; [exact A|]. split; [exact H|]. split; [exact B|]. split; [exact E|].
  pose proof (nth_one_is_select t 64 ltac:(vm_compute; split; discriminate)) as I. replace (nth_one (text_bits t) 64) with 127 in I by (vm_compute; reflexivity). exact I.
Qed.
