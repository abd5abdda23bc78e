(** Alignment of the select structures: the statements of Properties22. *)
From Coq Require Import ZifyBool.
From Verif Require Import Base BaseFacts Spec SpecText MrRank MrRankFacts MrRankProps MrSelect MrSelectFacts MrSelectFacts5 MrSelectFacts6 MrSelectProps MrMpe SpecSmpe MrSmpe MrSmpeFacts MrSmpeFacts6 MrSmpeFacts7 MrSmpeProps SpecAlign MrAlign MrAlignFacts.

Lemma std_aligned L T m t : 1 <= L -> T < 2 ^ 32 -> arguments_ok false L T = true -> addresses_ok m -> text_ok t -> zlen t < 2 ^ 58 -> 1 <= count_true (text_bits t) ->
  overflows L T (room_of (m_addr_b m)) (text_bits t) = false ->
  exists r, build_sel L T m t = Ok r /\ forall k, 1 <= k <= count_true (text_bits t) ->
    select_std_al L T r k = if misaligned L T (text_bits t) k then Ub UB_align else Ok (sel_answer L (text_bits t) k).
Proof.
  intros HL HT AR A H Hl HK HO. apply args_std in AR. rewrite <- K_ones in *. pose proof (build_sel_ok L T m t ltac:(lia) HT A H Hl HK) as B. rewrite HO in B.
  destruct B as (r & E & R). exists r. split; [exact E|]. intros k Hk. rewrite <- answer_spec with (T := T) by lia.
  rewrite (select_std_al_eq L T m t r k) by (auto; lia). rewrite (select_std_ok L T m t r k) by (auto; lia). reflexivity.
Qed.
Lemma bch_aligned L T m t : 1 <= L -> arguments_ok true L T = true -> addresses_ok m -> text_ok t -> zlen t < 2 ^ 58 -> 1 <= count_true (text_bits t) ->
  groups L (text_bits t) < 2 ^ 31 - 1 -> overflows L T (room_of (m_addr_b m)) (text_bits t) = false ->
  exists r, build_sel_bch L T m t = Ok r /\ forall k, 1 <= k <= count_true (text_bits t) ->
    select_bch_al L T r k = if misaligned L T (text_bits t) k then Ub UB_align else Ok (sel_answer L (text_bits t) k).
Proof.
  intros HL AR A H Hl HK HG HO. destruct (args_bounds L T HL AR) as (A1 & A2 & A3). rewrite <- K_ones in *. rewrite groups_nbk in HG.
  pose proof (build_sel_bch_ok L T m t ltac:(lia) ltac:(lia) A H Hl HK ltac:(lia)) as B. rewrite HO in B.
  destruct B as (r & E & R). exists r. split; [exact E|]. intros k Hk. rewrite <- answer_spec with (T := T) by lia.
  rewrite (select_bch_al_eq L T m t r k) by (auto; lia). rewrite (select_bch_ok L T m t r k) by (auto; lia). reflexivity.
Qed.
Lemma smpe_aligned M L T jf m t : 1 <= L < T -> fits_fields M L T = true -> addresses_ok m -> text_ok t -> zlen t < 2 ^ 58 -> 1 <= count_true (text_bits t) ->
  overflows L T (room_of (m_addr_b m)) (text_bits t) = false -> (reads_last_flag L T (text_bits t) = true -> flag_clear M (jf (groups L (text_bits t) - 1)) = true) ->
  exists r, build_smpe M L T false jf m t = Ok r /\ forall buf k, zlen buf = 8 -> 1 <= k <= count_true (text_bits t) ->
    select_smpe_al M L T r buf k = if misaligned_mpe M L T (text_bits t) k then Ub UB_align else Ok (sel_answer L (text_bits t) k).
Proof.
  intros HL F A H Hl HK HO HC. destruct (fits_args M L T HL F) as [_ HT]. rewrite <- K_ones in *. pose proof (build_smpe_ok M L T jf m t HL HT A H Hl HK) as B. rewrite HO in B. destruct B as (r & E & R).
  exists r. split; [exact E|]. intros buf k Hb Hk. rewrite <- answer_spec with (T := T) by lia.
  rewrite (select_smpe_al_eq M L T jf m t r buf k) by (auto; apply last_fine; auto). rewrite (select_smpe_ok M L T jf m t r buf k) by (auto; apply last_fine; auto). reflexivity.
Qed.

(** In the first group, and in any group of at most 64 bits that are not positions,
    there is no such read. *)
Lemma first_aligned L T B k : 0 <= k < L -> misaligned L T B k = false.
Proof. intros Hk. unfold misaligned. rewrite Z.div_small by lia. rewrite andb_false_r. reflexivity. Qed.
(** A byte of zeros, 128 ones, eight bytes of zeros, eight ones. *)
Definition odd_text : list Z := [0] ++ repeat 255 16 ++ repeat 0 8 ++ [255].
Lemma odd_select : exists m t r r' r3, addresses_ok m /\ text_ok t /\ build_sel 128 4096 m t = Ok r /\ build_sel_bch 128 4096 m t = Ok r' /\ build_smpe MPE1 128 4096 false (fun _ => 0) m t = Ok r3 /\
  select_std_al 128 4096 r 129 = Ub UB_align /\ select_bch_al 128 4096 r' 129 = Ub UB_align /\ select_smpe_al MPE1 128 4096 r3 (repeat 0 8) 129 = Ub UB_align /\
  is_select (text_bits t) 128 200.
Proof.
  set (m := mem_of 0 0). assert (A : addresses_ok m) by (apply mem_of_ok; [lia|reflexivity]). assert (H : text_ok odd_text) by (repeat constructor; lia).
  assert (C : count_true (text_bits odd_text) = 136) by (vm_compute; reflexivity). assert (G : groups 128 (text_bits odd_text) = 2) by (vm_compute; reflexivity).
  assert (O : overflows 128 4096 (room_of (m_addr_b m)) (text_bits odd_text) = false) by (vm_compute; reflexivity).
  destruct (std_aligned 128 4096 m odd_text) as (r & E & R); [lia|lia|reflexivity|exact A|exact H|reflexivity|lia|exact O|].
  destruct (bch_aligned 128 4096 m odd_text) as (r' & E' & R'); [lia|reflexivity|exact A|exact H|reflexivity|lia|lia|exact O|].
  destruct (smpe_aligned MPE1 128 4096 (fun _ => 0) m odd_text) as (r3 & E3 & R3); [lia|reflexivity|exact A|exact H|reflexivity|lia|exact O|reflexivity|].
  exists m, odd_text, r, r', r3. split; [exact A|]. split; [exact H|]. split; [exact E|]. split; [exact E'|]. split; [exact E3|].
  assert (Mi : misaligned 128 4096 (text_bits odd_text) 129 = true /\ misaligned_mpe MPE1 128 4096 (text_bits odd_text) 129 = true) by (vm_compute; auto). destruct Mi as [M1 M3].
  split; [rewrite R, M1 by lia; reflexivity|]. split; [rewrite R', M1 by lia; reflexivity|]. split; [rewrite R3, M3 by (reflexivity || lia); reflexivity|].
  pose proof (nth_one_is_select odd_text 129 ltac:(lia)) as I. replace (nth_one (text_bits odd_text) 129) with 200 in I by (vm_compute; reflexivity). exact I.
Qed.
