(** Alignment of the select structures with 32-bit counters: the statements of Properties33. *)
From Coq Require Import ZifyBool.
From Verif Require Import Base BaseFacts Spec SpecText SpecSel32 MrRank MrRankFacts MrRankProps MrSelect MrSelectFacts MrSelectFacts5 MrSelectFacts6 MrSelectProps MrMpe SpecSmpe SpecSmpe32 MrSelect32 MrSelect32Facts5 MrSelect32Facts6 MrSelect32Props MrSmpe MrSmpeFacts MrSmpeFacts6 MrSmpeFacts7 MrSmpeProps MrSmpe32 MrSmpe32Facts6 MrSmpe32Facts7 MrSmpe32Props SpecAlign MrAlignProps SpecAlign32 MrAlign32 MrAlign32Facts.

Lemma std_aligned32 L T m t : 1 <= L -> T <= 2 ^ 32 - 64 -> arguments_ok32 false L T = true -> addresses_ok m -> text_ok t -> zlen t < 2 ^ 29 -> 1 <= count_true (text_bits t) ->
  groups L (text_bits t) < 2 ^ 31 - 17 -> payload_too_large32 L T (text_bits t) = false -> overflows32 L T (room_of (m_addr_b m)) (text_bits t) = false ->
  exists r, build_sel32 L T m t = Ok r /\ forall k, 1 <= k <= count_true (text_bits t) ->
    select_std_al32 L T r k = if misaligned32 L T (text_bits t) k then Ub UB_align else Ok (sel_answer L (text_bits t) k).
Proof.
  intros HL HT AR A H Hl HK HG HP HO. apply args_std32 in AR. rewrite <- K_ones in *. rewrite groups_nbk in HG. pose proof (build_sel32_ok L T m t ltac:(lia) ltac:(lia) A H Hl HG HK) as B.
  rewrite builds32_spec, HP, HO in B by lia. cbn [negb andb] in B.
  destruct B as (r & E & R). exists r. split; [exact E|]. intros k Hk. rewrite <- answer_spec with (T := T) by lia.
  rewrite (select_std_al32_eq L T m t r k) by (auto; lia). rewrite (select_std32_ok L T m t r k) by (auto; lia). reflexivity.
Qed.
Lemma bch_aligned32 L T m t : 1 <= L -> arguments_ok32 true L T = true -> addresses_ok m -> text_ok t -> zlen t < 2 ^ 29 -> 1 <= count_true (text_bits t) ->
  groups L (text_bits t) < 2 ^ 31 - 17 -> payload_too_large32 L T (text_bits t) = false -> overflows32 L T (room_of (m_addr_b m)) (text_bits t) = false ->
  exists r, build_sel_bch32 L T m t = Ok r /\ forall k, 1 <= k <= count_true (text_bits t) ->
    select_bch_al32 L T r k = if misaligned32 L T (text_bits t) k then Ub UB_align else Ok (sel_answer L (text_bits t) k).
Proof.
  intros HL AR A H Hl HK HG HP HO. destruct (args_bounds32 L T HL AR) as (A1 & A2 & A3). rewrite <- K_ones in *. rewrite groups_nbk in HG.
  pose proof (build_sel_bch32_ok L T m t ltac:(lia) ltac:(lia) A H Hl HG HK) as B. rewrite builds32_spec, HP, HO in B by lia. cbn [negb andb] in B.
  destruct B as (r & E & R). exists r. split; [exact E|]. intros k Hk. rewrite <- answer_spec with (T := T) by lia.
  rewrite (select_bch_al32_eq L T m t r k) by (auto; lia). rewrite (select_bch32_ok L T m t r k) by (auto; lia). reflexivity.
Qed.
Lemma smpe_aligned32 M L T jf m t : 1 <= L < T -> fits_fields32 M L T = true -> addresses_ok m -> text_ok t -> zlen t < 2 ^ 29 -> 1 <= count_true (text_bits t) ->
  groups L (text_bits t) < 2 ^ 31 - 17 -> smpe_too_large32 M L T (text_bits t) = false -> overflows32 L T (room_of (m_addr_b m)) (text_bits t) = false ->
  (reads_last_flag32 L T (text_bits t) = true -> flag_clear M (jf (groups L (text_bits t) - 1)) = true) ->
  exists r, build_smpe32 M L T false jf m t = Ok r /\ forall buf k, zlen buf = 8 -> 1 <= k <= count_true (text_bits t) ->
    select_smpe_al32 M L T r buf k = if misaligned_mpe32 M L T (text_bits t) k then Ub UB_align else Ok (sel_answer L (text_bits t) k).
Proof.
  intros HL F A H Hl HK HG HP HO HC. destruct (fits_args32 M L T HL F) as [_ HT]. rewrite <- K_ones in *. rewrite groups_nbk in HG. pose proof (build_smpe32_ok M L T jf m t HL HT A H Hl HG HK) as B.
  rewrite builds3_spec32, HP, HO in B by auto. cbn [negb andb] in B. destruct B as (r & E & R).
  exists r. split; [exact E|]. intros buf k Hb Hk. rewrite <- answer_spec with (T := T) by lia.
  rewrite (select_smpe_al32_eq M L T jf m t r buf k) by (auto; apply last_fine32; auto). rewrite (select_smpe32_ok M L T jf m t r buf k) by (auto; apply last_fine32; auto). reflexivity.
Qed.

(** A query of the 32-bit structures is misaligned less often, but not never. *)
Lemma odd_select32 : exists m t r r' r3, addresses_ok m /\ text_ok t /\ build_sel32 128 4096 m t = Ok r /\ build_sel_bch32 128 4096 m t = Ok r' /\ build_smpe32 MPE1 128 4096 false (fun _ => 0) m t = Ok r3 /\
  select_std_al32 128 4096 r 129 = Ub UB_align /\ select_bch_al32 128 4096 r' 129 = Ub UB_align /\ select_smpe_al32 MPE1 128 4096 r3 (repeat 0 8) 129 = Ub UB_align /\
  is_select (text_bits t) 128 200.
Proof.
  set (m := mem_of 0 0). assert (A : addresses_ok m) by (apply mem_of_ok; [lia|reflexivity]). assert (H : text_ok odd_text) by (repeat constructor; lia).
  assert (C : count_true (text_bits odd_text) = 136) by (vm_compute; reflexivity). assert (G : groups 128 (text_bits odd_text) = 2) by (vm_compute; reflexivity).
  assert (O : overflows32 128 4096 (room_of (m_addr_b m)) (text_bits odd_text) = false) by (vm_compute; reflexivity).
  assert (P : payload_too_large32 128 4096 (text_bits odd_text) = false) by (vm_compute; reflexivity).
  assert (P3 : smpe_too_large32 MPE1 128 4096 (text_bits odd_text) = false) by (vm_compute; reflexivity).
  destruct (std_aligned32 128 4096 m odd_text) as (r & E & R); [lia|lia|reflexivity|exact A|exact H|reflexivity|lia|lia|exact P|exact O|].
  destruct (bch_aligned32 128 4096 m odd_text) as (r' & E' & R'); [lia|reflexivity|exact A|exact H|reflexivity|lia|lia|exact P|exact O|].
  destruct (smpe_aligned32 MPE1 128 4096 (fun _ => 0) m odd_text) as (r3 & E3 & R3); [lia|reflexivity|exact A|exact H|reflexivity|lia|lia|exact P3|exact O|reflexivity|].
  exists m, odd_text, r, r', r3. split; [exact A|]. split; [exact H|]. split; [exact E|]. split; [exact E'|]. split; [exact E3|].
  assert (Mi : misaligned32 128 4096 (text_bits odd_text) 129 = true /\ misaligned_mpe32 MPE1 128 4096 (text_bits odd_text) 129 = true) by (vm_compute; auto). destruct Mi as [M1 M3].
  split; [rewrite R, M1 by lia; reflexivity|]. split; [rewrite R', M1 by lia; reflexivity|]. split; [rewrite R3, M3 by (reflexivity || lia); reflexivity|].
  pose proof (nth_one_is_select odd_text 129 ltac:(lia)) as I. replace (nth_one (text_bits odd_text) 129) with 200 in I by (vm_compute; reflexivity). exact I.
Qed.
