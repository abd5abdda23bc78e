(** Files and self test of SelectBasic32: the statements of Properties28. *)
From Coq Require Import ZifyBool.
From Verif Require Import Base BaseFacts Mem MemFacts Words WordFacts BlockFacts NodeFacts Trees TreeBuild Spec BitmapFacts ProgramFacts KernelFacts SpecPoppy PoppyFacts PoppyFacts2 SpecText SpecSel32 SpecFile SpecFile32 SpecSelFile32 MrRank MrRankFacts MrRankFacts2 MrRankFacts3 MrRankFacts4 MrRankProps MrMpe MrRank32 MrRank32Facts2 MrMpe32 MrMpe32Facts4 MrMpe32Props MrFile MrFileFacts MrFileFacts2 MrFileFacts4 MrFileFacts5 MrFileProps MrFile32Facts MrSelect MrSelectFacts MrSelectFacts2 MrSelectFacts3 MrSelectFacts4 MrSelectFacts5 MrSelectFacts6 MrSelectProps MrSelect32 MrSelect32Facts MrSelect32Facts2 MrSelect32Facts3 MrSelect32Facts4 MrSelect32Facts5 MrSelect32Facts6 MrSelect32Props MrSelFile32 MrSelFile32Facts MrSelFile32Facts2.
Ltac Zify.zify_post_hook ::= Z.div_mod_to_equations.

(** ** Round trips *)
Lemma std_sel_file32 L T m m' t : 1 <= L -> T <= 2 ^ 32 - 64 -> arguments_ok32 false L T = true -> addresses_ok m -> addresses_ok m' -> text_ok t -> zlen t < 2 ^ 29 ->
  1 <= count_true (text_bits t) -> groups L (text_bits t) < 2 ^ 31 - 17 -> payload_too_large32 L T (text_bits t) = false ->
  overflows32 L T (room_of (m_addr_b m)) (text_bits t) = false -> lost32 L T (text_bits t) = false ->
  exists r f, build_sel32 L T m t = Ok r /\ save_sel32 r = Ok f /\ zlen f = 20 + 8 * groups L (text_bits t) + sel_payload32 L T (text_bits t) /\
    (forall rest, text_ok rest -> exists r', load_sel32 m' (f ++ rest) = Ok (Loaded r' rest) /\ sel_text_size32 r' = zlen t /\
       forall k, 1 <= k <= count_true (text_bits t) -> select_std32 L T r' k = Ok (sel_answer L (text_bits t) k)) /\
    (forall k, 0 <= k < zlen f -> load_sel32 m' (firstn (Z.to_nat k) f) = Ok Exits).
Proof.
  intros HL HT AR A A' H Hl HK HG HP HO LO. apply args_std32 in AR. rewrite groups_nbk, <- K_ones in *. pose proof (build_sel32_ok L T m t ltac:(lia) ltac:(lia) A H Hl HG HK) as B.
  rewrite builds32_spec, HP, HO in B by lia. cbn [negb andb] in B. unfold payload_too_large32 in HP. rewrite payload_O132 in * by lia.
  destruct B as (r & E & R). destruct (std_round_sel32 L T m m' t r ltac:(lia) A A' Hl HG HK LO ltac:(lia) E R) as (f & F1 & F2 & F3 & F4 & F5).
  exists r, f. split; [exact E|]. split; [exact F1|]. split; [exact F2|]. split; [|exact F5].
  intros rest Hr. destruct (F4 rest Hr) as (r' & R1 & R2). exists r'. split; [exact R1|]. pose proof (zlen_nonneg t). split; [unfold sel_text_size32; rewrite (proj2 (proj2 (proj2 (proj2 (proj2 (proj2 (proj2 R2))))))); apply wrap_small; lia|].
  intros k Hk. rewrite <- answer_spec with (T := T) by lia. eapply select_std32_ok; eauto; lia.
Qed.
Lemma bch_sel_file32 L T m m' t : 1 <= L -> arguments_ok32 true L T = true -> addresses_ok m -> addresses_ok m' -> text_ok t -> zlen t < 2 ^ 29 ->
  1 <= count_true (text_bits t) -> groups L (text_bits t) < 2 ^ 31 - 17 -> payload_too_large32 L T (text_bits t) = false ->
  overflows32 L T (room_of (m_addr_b m)) (text_bits t) = false -> lost32 L T (text_bits t) = false ->
  exists r f, build_sel_bch32 L T m t = Ok r /\ save_sel32 r = Ok f /\ zlen f = 112 + 100 * (groups L (text_bits t) / 16) + sel_payload32 L T (text_bits t) /\
    (forall rest, text_ok rest -> exists r', load_sel32 m' (f ++ rest) = Ok (Loaded r' rest) /\ sel_text_size32 r' = zlen t /\
       forall k, 1 <= k <= count_true (text_bits t) -> select_bch32 L T r' k = Ok (sel_answer L (text_bits t) k)) /\
    (forall k, 0 <= k < zlen f -> load_sel32 m' (firstn (Z.to_nat k) f) = Ok Exits).
Proof.
  intros HL AR A A' H Hl HK HG HP HO LO. destruct (args_bounds32 L T HL AR) as (A1 & A2 & A3). rewrite groups_nbk, <- K_ones in *. pose proof (build_sel_bch32_ok L T m t ltac:(lia) ltac:(lia) A H Hl HG HK) as B.
  rewrite builds32_spec, HP, HO in B by lia. cbn [negb andb] in B. unfold payload_too_large32 in HP. rewrite payload_O132 in * by lia.
  destruct B as (r & E & R). destruct (bch_round_sel32 L T m m' t r ltac:(lia) A A' Hl HG HK LO ltac:(lia) E R) as (f & F1 & F2 & F3 & F4 & F5).
  exists r, f. split; [exact E|]. split; [exact F1|]. split; [lia|]. split; [|exact F5].
  intros rest Hr. destruct (F4 rest Hr) as (r' & R1 & R2). exists r'. split; [exact R1|]. pose proof (zlen_nonneg t).
  split; [destruct R2 as (te & _ & _ & _ & _ & _ & _ & _ & _ & R3); unfold sel_text_size32; rewrite R3; apply wrap_small; lia|].
  intros k Hk. rewrite <- answer_spec with (T := T) by lia. eapply select_bch32_ok; eauto; lia.
Qed.

(** ** What is lost *)
Lemma lost_fits32 L T t : 1 <= L < T -> T < 2 ^ 30 -> 1 <= K t -> lost32 L T (text_bits t) = true -> payload_too_large32 L T (text_bits t) = false /\ nbk L t = 1.
Proof. intros HL HT HK LO. destruct (lost_small32 L T t HL HK LO) as (_ & N & B). unfold payload_too_large32. rewrite payload_O132 by lia. lia. Qed.
Lemma last_answer32 L T t : 1 <= L -> 1 <= K t -> lost32 L T (text_bits t) = true -> sel_answer L (text_bits t) (K t) = P t (K t).
Proof.
  intros HL HK LO. unfold sel_answer, misread, lost32 in *. rewrite <- K_ones in *. rewrite Z.div_small, Z.mod_small in * by lia.
  change (group_start L (text_bits t) 0) with 0. rewrite Z.sub_0_r. replace (nth_one (text_bits t) (K t) + 1 =? L) with false by lia. rewrite andb_false_r. reflexivity.
Qed.
Lemma std_sel_lost32 L T m t : 1 <= L -> T < 2 ^ 30 -> arguments_ok32 false L T = true -> addresses_ok m -> text_ok t -> zlen t < 2 ^ 29 ->
  overflows32 L T (room_of (m_addr_b m)) (text_bits t) = false -> lost32 L T (text_bits t) = true ->
  let n := count_true (text_bits t) in
  exists m' r f r', addresses_ok m' /\ build_sel32 L T m t = Ok r /\ select_std32 L T r n = Ok (nth_one (text_bits t) n) /\
    save_sel32 r = Ok f /\ load_sel32 m' f = Ok (Loaded r' []) /\ select_std32 L T r' n <> Ok (nth_one (text_bits t) n).
Proof.
  intros HL HT AR A H Hl HO LO n. apply args_std32 in AR. assert (HK : 1 <= K t) by (rewrite K_ones; unfold lost32 in LO; lia).
  destruct (lost_fits32 L T t ltac:(lia) HT HK LO) as [HP HG].
  pose proof (build_sel32_ok L T m t ltac:(lia) ltac:(lia) A H Hl ltac:(lia) HK) as B. rewrite builds32_spec, HP, HO in B by lia. cbn [negb andb] in B. destruct B as (r & E & R).
  destruct (std_lost32 L T m t r ltac:(lia) HT A H Hl HK LO E R) as (f & r' & F1 & F2 & F3). exists m127, r, f, r'. split; [exact m127_ok|]. split; [exact E|].
  unfold n. rewrite <- K_ones, P_nth. split; [|split; [exact F1|]; split; [exact F2|exact F3]].
  rewrite (select_std32_ok L T m t r (K t) ltac:(lia) ltac:(lia) A ltac:(lia) ltac:(lia) R ltac:(lia)). rewrite answer_spec, (last_answer32 L T) by (auto; lia). reflexivity.
Qed.
Lemma bch_sel_lost32 L T m t : 1 <= L -> arguments_ok32 true L T = true -> addresses_ok m -> text_ok t -> zlen t < 2 ^ 29 ->
  overflows32 L T (room_of (m_addr_b m)) (text_bits t) = false -> lost32 L T (text_bits t) = true ->
  let n := count_true (text_bits t) in
  exists m' r f r', addresses_ok m' /\ build_sel_bch32 L T m t = Ok r /\ select_bch32 L T r n = Ok (nth_one (text_bits t) n) /\
    save_sel32 r = Ok f /\ load_sel32 m' f = Ok (Loaded r' []) /\ select_bch32 L T r' n <> Ok (nth_one (text_bits t) n).
Proof.
  intros HL AR A H Hl HO LO n. destruct (args_bounds32 L T HL AR) as (A1 & A2 & A3). assert (HK : 1 <= K t) by (rewrite K_ones; unfold lost32 in LO; lia).
  destruct (lost_fits32 L T t ltac:(lia) ltac:(lia) HK LO) as [HP HG].
  pose proof (build_sel_bch32_ok L T m t ltac:(lia) ltac:(lia) A H Hl ltac:(lia) HK) as B. rewrite builds32_spec, HP, HO in B by lia. cbn [negb andb] in B. destruct B as (r & E & R).
  destruct (bch_lost32 L T m t r ltac:(lia) ltac:(lia) A H Hl HK LO E R) as (f & r' & F1 & F2 & F3). exists m127, r, f, r'. split; [exact m127_ok|]. split; [exact E|].
  unfold n. rewrite <- K_ones, P_nth. split; [|split; [exact F1|]; split; [exact F2|exact F3]].
  rewrite (select_bch32_ok L T m t r (K t) HL AR ltac:(lia) ltac:(lia) A R ltac:(lia)). rewrite answer_spec, (last_answer32 L T) by (auto; lia). reflexivity.
Qed.

(** ** Any file *)
Lemma sel_any32 m f : addresses_ok m -> text_ok f -> let a := int_field f 4 in let b := int_field f (8 + 4 * a) in a < 2 ^ 32 - 32 -> b < 2 ^ 32 - 128 ->
  if zlen f <? 12 + 4 * a + b then load_sel32 m f = Ok Exits
  else exists r, load_sel32 m f = Ok (Loaded r (skipn (Z.to_nat (12 + 4 * a + b)) f)) /\ sel_text_size32 r = int_field f 0 /\
    (forall k, 0 <= k < a -> zn 0 (sb_selects r) k = int_field f (8 + 4 * k)) /\ (forall k, 0 <= k < b -> zn 0 (sb_bits r) k = zn 0 f (12 + 4 * a + k)).
Proof.
  intros A F a b Ha Hb. pose proof (mpe_any32 m f A F Ha Hb) as X. fold a in X. fold b in X. rewrite load_as_ok. destruct (zlen f <? 12 + 4 * a + b); [rewrite X; reflexivity|].
  destruct X as (r & X1 & X2 & X3 & X4). exists (as_sel r). rewrite X1. split; [reflexivity|]. split; [exact X2|]. split; [exact X3|exact X4].
Qed.
Lemma sel_over32 m f : addresses_ok m -> text_ok f -> 132 < zlen f -> 2 ^ 32 - 32 <= int_field f 4 -> load_sel32 m f = Ub UB_bounds.
Proof. intros A F Hf Hl. rewrite load_as_ok, mpe_over32 by assumption. reflexivity. Qed.
Lemma sel_over_bits32 m f : addresses_ok m -> text_ok f -> let a := int_field f 4 in a < 2 ^ 32 - 32 -> 139 + 4 * a < zlen f -> 2 ^ 32 - 128 <= int_field f (8 + 4 * a) -> load_sel32 m f = Ub UB_bounds.
Proof. intros A F a Ha Hf Hl. rewrite load_as_ok, mpe_over_bits32 by assumption. reflexivity. Qed.

(** ** Self test *)
Lemma select_test32 select t : zlen t < 2 ^ 29 ->
  test_select32 select t = Ok [] <-> forall k, 1 <= k <= count_true (text_bits t) -> select k = Ok (nth_one (text_bits t) k).
Proof. intros Hl. rewrite test_select32_iff by exact Hl. rewrite K_ones. reflexivity. Qed.
Lemma test_of_answers32 L select t : 1 <= L -> zlen t < 2 ^ 29 -> 1 <= count_true (text_bits t) -> (forall k, 1 <= k <= count_true (text_bits t) -> select k = Ok (sel_answer L (text_bits t) k)) ->
  (test_select32 select t = Ok [] <-> misread L (text_bits t) = false).
Proof.
  intros HL Hl HK R. rewrite select_test32 by exact Hl. split; intros X.
  - destruct (misread L (text_bits t)) eqn:M; [|reflexivity]. exfalso. pose proof (answer_wrong L t HL M). specialize (X (count_true (text_bits t)) ltac:(lia)). rewrite R in X by lia. injection X as X. lia.
  - intros k Hk. rewrite R by exact Hk. rewrite answer_right by assumption. reflexivity.
Qed.
Lemma std_sel_test32 L T m t : 1 <= L -> T <= 2 ^ 32 - 64 -> arguments_ok32 false L T = true -> addresses_ok m -> text_ok t -> zlen t < 2 ^ 29 -> 1 <= count_true (text_bits t) ->
  groups L (text_bits t) < 2 ^ 31 - 17 -> payload_too_large32 L T (text_bits t) = false -> overflows32 L T (room_of (m_addr_b m)) (text_bits t) = false ->
  exists r, build_sel32 L T m t = Ok r /\ (test_select32 (select_std32 L T r) t = Ok [] <-> misread L (text_bits t) = false).
Proof.
  intros HL HT AR A H Hl HK HG HP HO. destruct (std_select32 L T m t HL HT AR A H Hl HK HG HP HO) as (r & E & _ & R). exists r. split; [exact E|]. apply test_of_answers32; assumption.
Qed.
Lemma bch_sel_test32 L T m t : 1 <= L -> arguments_ok32 true L T = true -> addresses_ok m -> text_ok t -> zlen t < 2 ^ 29 -> 1 <= count_true (text_bits t) ->
  groups L (text_bits t) < 2 ^ 31 - 17 -> payload_too_large32 L T (text_bits t) = false -> overflows32 L T (room_of (m_addr_b m)) (text_bits t) = false ->
  exists r, build_sel_bch32 L T m t = Ok r /\ (test_select32 (select_bch32 L T r) t = Ok [] <-> misread L (text_bits t) = false).
Proof.
  intros HL AR A H Hl HK HG HP HO. destruct (bch_select32 L T m t HL AR A H Hl HK HG HP HO) as (r & E & _ & R). exists r. split; [exact E|]. apply test_of_answers32; assumption.
Qed.

(** ** Cases where a claim does not hold *)
Lemma sel_file_bad32 : exists m m' t r f r', addresses_ok m /\ addresses_ok m' /\ text_ok t /\ build_sel32 128 4096 m t = Ok r /\ select_std32 128 4096 r 2 = Ok 8 /\
  save_sel32 r = Ok f /\ load_sel32 m' f = Ok (Loaded r' []) /\ select_std32 128 4096 r' 2 = Ok 9.
Proof.
  set (m := mem_of 0 0). set (t := [128; 128]). set (r := match build_sel32 128 4096 m t with Ok r => r | _ => {| sb_selects := []; sb_selects_len := 0; sb_bits := []; sb_bits_len := 0; sb_text_len := 0 |} end).
  set (f := match save_sel32 r with Ok f => f | _ => [] end).
  set (r' := match load_sel32 (mem_of 127 0) f with Ok (Loaded r _) => r | _ => r end).
  exists m, (mem_of 127 0), t, r, f, r'. split; [apply mem_of_ok; [lia|reflexivity]|]. split; [apply mem_of_ok; [lia|reflexivity]|]. split; [repeat constructor; lia|].
  vm_compute. repeat split.
Qed.
Lemma sel_load_bad32 : exists m f, addresses_ok m /\ text_ok f /\ zlen f = 13 /\ load_sel32 m f = Ub UB_bounds.
Proof. destruct mpe_load_bad32 as (m & f & A & F & L & E). exists m, f. rewrite load_as_ok, E. auto. Qed.
Lemma sel_zero_bad32 : exists f, text_ok f /\ forall m, exists r, load_sel32 m f = Ok (Loaded r []) /\ forall L T k, select_std32 L T r k = Ub UB_bounds /\ select_bch32 L T r k = Ub UB_bounds.
Proof.
  exists (repeat 0 12). split; [apply zeros_ok|]. intros m. exists {| sb_selects := []; sb_selects_len := 0; sb_bits := []; sb_bits_len := 0; sb_text_len := 0 |}. split; [reflexivity|]. intros L T k.
  assert (G : forall i, geti (@nil Z) i = Ub UB_bounds).
  { intros i. unfold geti. change (zlen (@nil Z)) with 0. destruct ((0 <=? i) && (i <? 0)) eqn:X; [|reflexivity]. lia. }
  split; [unfold select_std32|unfold select_bch32]; cbv zeta; cbn [sb_selects]; rewrite G; reflexivity.
Qed.
