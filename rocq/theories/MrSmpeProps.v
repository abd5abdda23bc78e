(** SelectMPE64: the statements of Properties20. *)
From Coq Require Import ZifyBool.
From Verif Require Import Base BaseFacts Mem MemFacts Words WordFacts BlockFacts NodeFacts Trees TreeBuild Spec BitmapFacts ProgramFacts KernelFacts SpecPoppy PoppyFacts PoppyFacts2 SpecText MrRank MrRankFacts MrRankFacts2 MrRankFacts3 MrRankProps MrSelect MrSelectFacts MrSelectFacts2 MrSelectFacts3 MrSelectFacts4 MrSelectFacts5 MrSelectFacts6 MrSelectProps MrMpe SpecSmpe MrMpeFacts MrMpeFacts2 MrSmpe MrSmpeFacts MrSmpeFacts2 MrSmpeFacts3 MrSmpeFacts5 MrSmpeFacts6 MrSmpeFacts7.
Ltac Zify.zify_post_hook ::= Z.div_mod_to_equations.

(** ** Groups *)
Lemma span_DD L t c : 1 <= L -> 0 <= c < nbk L t -> group_span L (text_bits t) c = DD L t c.
Proof.
  intros HL Hc. pose proof (proj1 (blk_lt L t c ltac:(lia) ltac:(lia)) ltac:(lia)) as CK. unfold group_span. rewrite <- K_ones. rewrite group_SS by lia.
  fold (P t (Z.min ((c + 1) * L) (K t))). rewrite <- SS_pos by lia. reflexivity.
Qed.
Lemma group_byte_gb L t c j : 1 <= L -> 0 <= c < nbk L t - 1 -> 0 <= j < nb8 L t c -> group_byte L (text_bits t) c j = gb L t c j.
Proof.
  intros HL Hc Hj. assert (FU : fullb L t c = true) by (apply full_iff; lia). pose proof (proj1 (blk_lt L t c ltac:(lia) ltac:(lia)) ltac:(lia)) as CK.
  unfold group_byte, gb, bpart. rewrite span_DD, group_SS by lia. assert (EE : ee L t c = DD L t c - 1) by (unfold ee; rewrite FU; reflexivity).
  pose proof (DD_pos L t c ltac:(lia) ltac:(lia)) as DP. pose proof (SS_bound L t c ltac:(lia) ltac:(lia)) as SB. pose proof (SS_bound L t (c + 1) ltac:(lia) ltac:(lia)) as SB1.
  destruct (nb8_bound L t c ltac:(lia) ltac:(lia)) as [N1 N2]. set (m := Z.min 8 (ee L t c - 8 * j)). rewrite (sumf_split _ 0 m 8) by lia.
  rewrite (sumf_const0 _ m 8), Z.add_0_r.
  - apply sumf_ext. intros b Hb. replace (8 * j + b <? DD L t c - 1) with true by lia. cbn [andb]. rewrite tb_bit by (unfold DD in *; lia). replace (SS L t c + 8 * j + b) with (SS L t c + (8 * j + b)) by lia.
    destruct (bit (text_bits t) (SS L t c + (8 * j + b))); cbn [b2z]; lia.
  - intros b Hb. replace (8 * j + b <? DD L t c - 1) with false by lia. reflexivity.
Qed.
Lemma filter_cnt (f g : Z -> bool) n : (forall j, 0 <= j < Z.of_nat n -> f j = g j) -> zlen (filter f (zrange 0 n)) = cnt g (Z.of_nat n).
Proof.
  induction n as [|n IH]; intros H; [reflexivity|]. rewrite zrange_last, filter_app, zlen_app. rewrite IH by (intros; apply H; lia).
  replace (Z.of_nat (S n)) with (Z.of_nat n + 1) by lia. rewrite cnt_succ by lia. f_equal. cbn [filter]. rewrite Z.add_0_l. rewrite H by lia. destruct (g (Z.of_nat n)); reflexivity.
Qed.
Lemma pairs_gn v L t c : 1 <= L -> 0 <= c < nbk L t - 1 -> byte_pairs v L (text_bits t) c = gn v (gb L t c) (nb8 L t c).
Proof.
  intros HL Hc. assert (FU : fullb L t c = true) by (apply full_iff; lia). unfold byte_pairs, gn. rewrite span_DD by lia. pose proof (DD_pos L t c ltac:(lia) ltac:(lia)) as DP.
  assert (N : (DD L t c + 6) / 8 = nb8 L t c). { unfold nb8, ee. rewrite FU. rewrite up8_div by lia. f_equal. lia. } rewrite N.
  destruct (nb8_bound L t c ltac:(lia) ltac:(lia)) as [N1 N2].
  rewrite (filter_cnt _ (gp v (gb L t c) (nb8 L t c))); [f_equal; lia|]. intros j Hj. rewrite !group_byte_gb by lia. unfold gp. replace (j <? nb8 L t c / 2) with true by lia. reflexivity.
Qed.
Lemma saved_cw M L T t c : 1 <= L < T -> zlen t < 2 ^ 58 -> 0 <= c < nbk L t -> group_saved M L T (text_bits t) c = 2 * rnc M L T t c - hdc M L T t c.
Proof.
  intros HL Hl Hc. unfold group_saved. rewrite groups_nbk, span_DD by lia.
  assert (E : (DD L t c <=? T) && negb (DD L t c =? L) = de L T t c) by (unfold de, mo, sp; lia). rewrite <- andb_assoc, E. clear E.
  destruct ((c + 1 <? nbk L t) && de L T t c) eqn:E.
  - apply andb_prop in E. destruct E as [E1 E2]. rewrite !pairs_gn by lia. unfold table_bytes. rewrite span_DD by lia. rewrite <- tlen_eq by lia.
    destruct (nb8_bound L t c ltac:(lia) ltac:(lia)) as [N1 N2]. unfold rnc, hdc. rewrite rn_parts by lia. unfold cz, co. rewrite E1, E2. cbn [andb]. unfold heads.
    set (n0 := gn 0 _ _). set (n1 := gn 255 _ _). set (tl := tlen L t c). clearbody n0 n1 tl. destruct M; cbn [dz3 do3].
    + destruct (n0 + n1 >? tl); cbn [b2z]; lia.
    + destruct (2 * n0 >? tl), (2 * n1 >? tl); cbn [b2z]; lia.
    + destruct ((n0 >? 9) && (n1 >? 9)) eqn:A; cbn [orb]; [cbn [b2z]; lia|]. destruct ((n0 >=? 18) && (n1 <=? 9)) eqn:B.
      * replace ((n0 <=? 9) && (n1 >=? 18)) with false by lia. cbn [b2z]. lia.
      * destruct ((n0 <=? 9) && (n1 >=? 18)); cbn [b2z]; lia.
  - assert (Q : cz M L T t c = false /\ co M L T t c = false).
    { destruct (de L T t c) eqn:D; [|apply not_de; exact D]. apply last_plain. lia. }
    destruct Q as [Q1 Q2]. destruct (plain_zero M L T t c ltac:(lia) Hc Q1 Q2) as (_ & R & H). rewrite R, H. reflexivity.
Qed.
Lemma sumf_sub f g lo hi : sumf (fun x => f x - g x) lo hi = sumf f lo hi - sumf g lo hi.
Proof. pose proof (sumf_plus (fun x => f x - g x) g lo hi) as E. rewrite (sumf_ext _ f) in E by (intros; lia). lia. Qed.
Lemma payload_blen3 M L T t : 1 <= L < T -> zlen t < 2 ^ 58 -> smpe_payload M L T (text_bits t) = blen3 M L T t.
Proof.
  intros HL Hl. unfold smpe_payload, blen3. rewrite payload_O1 by lia. rewrite groups_nbk. rewrite (sumf_ext _ (fun c => 2 * rnc M L T t c - hdc M L T t c)) by (intros; apply saved_cw; auto).
  rewrite sumf_sub, sumf_scale. unfold AD, RM. lia.
Qed.

(** ** Constructors *)
Lemma fits_args M L T : 1 <= L < T -> fits_fields M L T = true -> smpe_arguments M L T = true /\ T < 2 ^ 32.
Proof. intros HL F. unfold fits_fields in F. unfold smpe_arguments. destruct M; cbn [field_limit] in F; cbv zeta; lia. Qed.
Lemma mpe1_args L T : 1 <= L -> smpe_arguments MPE1 L T = true <-> L < T /\ fits_fields MPE1 L T = true.
Proof. intros HL. unfold smpe_arguments, fits_fields. cbn [field_limit]. cbv zeta. split; [|]; intros; lia. Qed.
Lemma all_args M L T : smpe_arguments M L T = true <-> L < T /\ match M with MPE1 => L <= 274 /\ T <= 17473 | _ => L <= 137 /\ T <= 8737 end.
Proof. unfold smpe_arguments. destruct M; cbv zeta; split; intros; lia. Qed.

(** ** Queries *)
Lemma clear_read M jf L t : flag_clear M (jf (nbk L t - 1)) = true -> read_flag M (lastflag L t jf) = 0.
Proof.
  unfold lastflag. destruct (K t mod L >? 0); [intros _; destruct M; reflexivity|]. set (x := jf (nbk L t - 1)). clearbody x. unfold flag_clear, read_flag, wrap.
  destruct M; [intros H; replace (x mod 2 ^ 8 =? 0) with true by (change (2 ^ 8) with 256; lia); reflexivity|change (2 ^ 8) with 256; lia|change (2 ^ 8) with 256; lia].
Qed.
Lemma last_fine M L T t jf : 1 <= L < T -> 1 <= K t -> (reads_last_flag L T (text_bits t) = true -> flag_clear M (jf (groups L (text_bits t) - 1)) = true) -> 1 < L -> last_ok M L T t jf.
Proof.
  intros HL HK H H1. unfold reads_last_flag in H. cbv zeta in H. rewrite groups_nbk, <- K_ones in H. pose proof (nbk_1 L t ltac:(lia) HK) as N1. rewrite span_DD in H by lia.
  destruct (K t mod L =? 0) eqn:E.
  - replace (1 <? L) with true in H by lia. cbn [andb] in H. split.
    + intros D. apply clear_read, H. apply de_true in D. destruct D as [D1 D2]. unfold sp in D1. rewrite D1. unfold mo, sp in D2. lia.
    + intros D D2. apply clear_read, H. unfold sp in D. rewrite D. lia.
  - assert (Z0 : read_flag M (lastflag L t jf) = 0).
    { unfold lastflag. pose proof (Z.mod_pos_bound (K t) L ltac:(lia)). replace (K t mod L >? 0) with true by lia. destruct M; reflexivity. }
    split; auto.
Qed.

Lemma select_smpe_0 M L T jf m t r buf : 1 <= L < T -> addresses_ok m -> smpeP M L T jf m t r -> select_smpe M L T r buf 0 = Ok (2 ^ 64 - 1).
Proof.
  intros HL (A1 & A2 & A3 & A4) (temp & btc & (T1 & T2 & T3) & _ & _ & SA & Z1 & _). unfold select_smpe. pose proof (slack_ok _ A2) as SL. pose proof (nbk_pos L t ltac:(lia)).
  rewrite !Z.div_0_l, !Z.mod_0_l by lia. change (21 * 0 + 0) with 0. rewrite geti_ok by lia. cbn [bind]. rewrite Z.eqb_refl.
  destruct (SA 0 ltac:(lia)) as (v & (_ & V1 & _) & W). specialize (W 0 ltac:(lia)). change (21 * 0 + 0) with 0 in W. rewrite W, V1 by lia. replace (2 * (16 * 0 + 0)) with (2 * 0) by lia. rewrite T2 by lia. reflexivity.
Qed.

Lemma smpe_select M L T jf m t : 1 <= L < T -> fits_fields M L T = true -> addresses_ok m -> text_ok t -> zlen t < 2 ^ 58 -> 1 <= count_true (text_bits t) ->
  overflows L T (room_of (m_addr_b m)) (text_bits t) = false -> (reads_last_flag L T (text_bits t) = true -> flag_clear M (jf (groups L (text_bits t) - 1)) = true) ->
  exists r, build_smpe M L T false jf m t = Ok r /\ forall buf, zlen buf = 8 -> select_smpe M L T r buf 0 = Ok (2 ^ 64 - 1) /\
    forall k, 1 <= k <= count_true (text_bits t) -> select_smpe M L T r buf k = Ok (sel_answer L (text_bits t) k).
Proof.
  intros HL F A H Hl HK HO HC. destruct (fits_args M L T HL F) as [_ HT]. rewrite <- K_ones in *. pose proof (build_smpe_ok M L T jf m t HL HT A H Hl HK) as B. rewrite HO in B. destruct B as (r & E & R).
  exists r. split; [exact E|]. intros buf Hb. split; [eapply select_smpe_0; eauto|]. intros k Hk. rewrite <- answer_spec with (T := T) by lia.
  eapply select_smpe_ok; eauto. apply last_fine; auto.
Qed.
Lemma smpe_right M L T jf m t : 1 <= L < T -> fits_fields M L T = true -> addresses_ok m -> text_ok t -> zlen t < 2 ^ 58 -> 1 <= count_true (text_bits t) ->
  overflows L T (room_of (m_addr_b m)) (text_bits t) = false -> misread L (text_bits t) = false -> (reads_last_flag L T (text_bits t) = true -> flag_clear M (jf (groups L (text_bits t) - 1)) = true) ->
  exists r, build_smpe M L T false jf m t = Ok r /\ forall buf k, zlen buf = 8 -> 1 <= k <= count_true (text_bits t) ->
    exists p, select_smpe M L T r buf k = Ok p /\ is_select (text_bits t) (k - 1) p.
Proof.
  intros HL F A H Hl HK HO HM HC. destruct (smpe_select M L T jf m t HL F A H Hl HK HO HC) as (r & E & S). exists r. split; [exact E|]. intros buf k Hb Hk.
  destruct (S buf Hb) as [_ S1]. exists (nth_one (text_bits t) k). rewrite (S1 k Hk), answer_right by (auto; lia). split; [reflexivity|]. apply nth_one_is_select. exact Hk.
Qed.

(** ** Undefined construction *)
Lemma smpe_undefined M L T strict jf m t : 1 <= L < T -> T < 2 ^ 32 -> addresses_ok m -> text_ok t -> zlen t < 2 ^ 58 ->
  if strict || (count_true (text_bits t) =? 0) || overflows L T (room_of (m_addr_b m)) (text_bits t) then build_smpe M L T strict jf m t = Ub UB_bounds
  else exists r, build_smpe M L T strict jf m t = Ok r.
Proof.
  intros HL HT A H Hl. rewrite <- K_ones in *. pose proof (K_bound t) as KB. destruct (Z.eq_dec (K t) 0) as [E0|E0].
  - replace (K t =? 0) with true by lia. rewrite orb_true_r. cbn [orb]. apply build_smpe_none; auto.
  - replace (K t =? 0) with false by lia. rewrite orb_false_r. destruct strict; cbn [orb].
    + apply build_smpe_strict; auto; lia.
    + pose proof (build_smpe_ok M L T jf m t HL HT A H Hl ltac:(lia)) as B. destruct (overflows L T (room_of (m_addr_b m)) (text_bits t)); [exact B|]. destruct B as (r & E & _). eauto.
Qed.

(** ** Sizes *)
Lemma smpe_sizes M L T jf m t r : 1 <= L < T -> T < 2 ^ 32 -> addresses_ok m -> text_ok t -> zlen t < 2 ^ 56 -> build_smpe M L T false jf m t = Ok r ->
  smpe_text_size r = zlen t /\
  smpe_size r = 320 + 168 * (groups L (text_bits t) / 16 + 1) + (if smpe_payload M L T (text_bits t) =? 0 then 0 else smpe_payload M L T (text_bits t) + 128).
Proof.
  intros HL HT A H Hl E. pose proof (K_bound t) as KB. destruct (Z.eq_dec (K t) 0) as [E0|E0]; [rewrite (build_smpe_none M L T false jf m t) in E by (auto; lia); discriminate|].
  pose proof (build_smpe_ok M L T jf m t HL HT A H ltac:(lia) ltac:(lia)) as B. destruct (overflows L T (room_of (m_addr_b m)) (text_bits t)); [rewrite B in E; discriminate|].
  destruct B as (r' & E' & (temp & btc & _ & _ & _ & _ & _ & Z2 & Z3 & Z4)). rewrite E' in E. injection E as <-. unfold smpe_text_size, smpe_size. rewrite Z2, Z3, Z4. split; [reflexivity|].
  rewrite groups_nbk. rewrite <- payload_blen3 by lia. pose proof (nbk_le L t ltac:(lia)) as NL. pose proof (nbk_pos L t ltac:(lia)) as N0.
  assert (PB : 0 <= smpe_payload M L T (text_bits t) < 2 ^ 63).
  { rewrite payload_blen3 by lia. unfold blen3. split; [apply blen_nonneg; lia|]. pose proof (blen_upper M L T t HL ltac:(lia) (nbk L t) ltac:(lia)) as BU. pose proof (SS_bound L t (nbk L t) ltac:(lia) ltac:(lia)) as SB. clear - BU SB Hl. lia. }
  set (p := smpe_payload M L T (text_bits t)) in *. clearbody p. set (q := nbk L t / 16) in *. assert (QB : 0 <= q <= 2 ^ 55) by (clear - N0 NL KB Hl; lia). clearbody q. clear - QB PB.
  replace (21 * (q + 1) >? 0) with true by lia. replace (p >? 0) with (negb (p =? 0)) by lia. destruct (p =? 0); cbn [negb]; rewrite wrap_small; lia.
Qed.

(** ** Witnesses *)
Lemma bind_value {A B} (x : res A) (f : A -> res B) v : bind x f = Ok v -> exists r, x = Ok r /\ f r = Ok v.
Proof. destruct x as [r| |]; cbn; intros E; [eauto|discriminate|discriminate]. Qed.
Lemma bad_flag : exists m t r, addresses_ok m /\ text_ok t /\ build_smpe MPE1 128 4096 false (fun _ => 1) m t = Ok r /\ select_smpe MPE1 128 4096 r (repeat 0 8) 64 = Ok 87 /\ is_select (text_bits t) 63 127.
Proof.
  set (t := repeat 85 32). set (m := mem_of 0 0). assert (A : addresses_ok m) by (apply mem_of_ok; [lia|reflexivity]).
  assert (H : text_ok t) by (repeat constructor; lia).
  assert (E : (let* r := build_smpe MPE1 128 4096 false (fun _ => 1) m t in select_smpe MPE1 128 4096 r (repeat 0 8) 64) = Ok 87) by (vm_compute; reflexivity).
  apply bind_value in E. destruct E as (r & B & E). exists m, t, r. split; [exact A|]. split; [exact H|]. split; [exact B|]. split; [exact E|].
  pose proof (nth_one_is_select t 64 ltac:(vm_compute; split; discriminate)) as I. replace (nth_one (text_bits t) 64) with 127 in I by (vm_compute; reflexivity). exact I.
Qed.
Lemma bad_fields : exists m t r, smpe_arguments MPE2 129 130 = true /\ addresses_ok m /\ text_ok t /\ reads_last_flag 129 130 (text_bits t) = false /\
  build_smpe MPE2 129 130 false (fun _ => 0) m t = Ok r /\ select_smpe MPE2 129 130 r (repeat 0 8) 517 = Ok 660 /\ is_select (text_bits t) 516 589.
Proof.
  set (t := repeat 254 75). set (m := mem_of 0 0). assert (A : addresses_ok m) by (apply mem_of_ok; [lia|reflexivity]).
  assert (H : text_ok t) by (repeat constructor; lia).
  assert (E : (let* r := build_smpe MPE2 129 130 false (fun _ => 0) m t in select_smpe MPE2 129 130 r (repeat 0 8) 517) = Ok 660) by (vm_compute; reflexivity).
  apply bind_value in E. destruct E as (r & B & E). exists m, t, r. split; [reflexivity|]. split; [exact A|]. split; [exact H|].
  split; [vm_compute; reflexivity|]. split; [exact B|]. split; [exact E|].
  pose proof (nth_one_is_select t 517 ltac:(vm_compute; split; discriminate)) as I. replace (nth_one (text_bits t) 517) with 589 in I by (vm_compute; reflexivity). exact I.
Qed.
