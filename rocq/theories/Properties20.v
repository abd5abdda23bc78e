(** C78, C79, C80, C81: SelectMPE64. *)
From Verif Require Import Base Spec SpecText SpecSmpe MrRank MrRankProps MrSelect MrSelectFacts5 MrMpe MrSmpe MrSmpeProps.

(** ** C78: queries *)

(** For every text of at least one one, any memory, any content of the buffer and
    arguments whose groups fit the fields, select(k) is the one of SelectBasic64 (C62),
    unless the flag of the last group, which is not initialised, is read. *)
Theorem C78_smpe_select : forall M L T jf m t, 1 <= L < T -> fits_fields M L T = true -> addresses_ok m -> text_ok t -> zlen t < 2 ^ 58 -> 1 <= count_true (text_bits t) ->
  overflows L T (room_of (m_addr_b m)) (text_bits t) = false -> (reads_last_flag L T (text_bits t) = true -> flag_clear M (jf (groups L (text_bits t) - 1)) = true) ->
  exists r, build_smpe M L T false jf m t = Ok r /\ forall buf, zlen buf = 8 -> select_smpe M L T r buf 0 = Ok (2 ^ 64 - 1) /\
    forall k, 1 <= k <= count_true (text_bits t) -> select_smpe M L T r buf k = Ok (sel_answer L (text_bits t) k).
Proof. exact smpe_select. Qed.
Print Assumptions C78_smpe_select.
Example C78_smpe_select_case :
  let t := [128] ++ repeat 0 20 ++ [1; 3; 192; 5; 1] in
  fits_fields MPE2 4 512 = true /\ count_true (text_bits t) = 9 /\ overflows 4 512 (room_of 16) (text_bits t) = false /\ reads_last_flag 4 512 (text_bits t) = false /\
  group_saved MPE2 4 512 (text_bits t) 0 = 16 /\ map (nth_one (text_bits t)) [2; 6; 9] = [175; 185; 207] /\
  (let* r := build_smpe MPE2 4 512 false (fun _ => 3) (mem_of 9 16) t in
   let* a := select_smpe MPE2 4 512 r (repeat 0 8) 2 in let* b := select_smpe MPE2 4 512 r (repeat 7 8) 6 in
   let* c := select_smpe MPE2 4 512 r (repeat 0 8) 9 in Ok (a, b, c)) = Ok (175, 185, 207).
Proof. vm_compute. repeat split. Qed.

(** It is the right one unless the last group is misread. *)
Theorem C78_smpe_right : forall M L T jf m t, 1 <= L < T -> fits_fields M L T = true -> addresses_ok m -> text_ok t -> zlen t < 2 ^ 58 -> 1 <= count_true (text_bits t) ->
  overflows L T (room_of (m_addr_b m)) (text_bits t) = false -> misread L (text_bits t) = false -> (reads_last_flag L T (text_bits t) = true -> flag_clear M (jf (groups L (text_bits t) - 1)) = true) ->
  exists r, build_smpe M L T false jf m t = Ok r /\ forall buf k, zlen buf = 8 -> 1 <= k <= count_true (text_bits t) ->
    exists p, select_smpe M L T r buf k = Ok p /\ is_select (text_bits t) (k - 1) p.
Proof. exact smpe_right. Qed.
Print Assumptions C78_smpe_right.
Example C78_smpe_right_case :
  let t := [128] ++ repeat 0 20 ++ [1; 3; 192; 5; 1] in misread 4 (text_bits t) = false /\ reads_last_flag 3 512 (text_bits t) = true /\ flag_clear MPE2 8 = true /\
  (let* r := build_smpe MPE2 3 512 false (fun _ => 8) (mem_of 9 16) t in select_smpe MPE2 3 512 r (repeat 0 8) 8) = Ok 199.
Proof. vm_compute. auto. Qed.

(** The flag of the last group matters: with the arguments of the benchmark, if that
    byte is 1, select(64) of 128 ones is 87 instead of 127. *)
Theorem C78_last_flag_refuted : exists m t r, addresses_ok m /\ text_ok t /\ build_smpe MPE1 128 4096 false (fun _ => 1) m t = Ok r /\
  select_smpe MPE1 128 4096 r (repeat 0 8) 64 = Ok 87 /\ is_select (text_bits t) 63 127.
Proof. exact bad_flag. Qed.
Print Assumptions C78_last_flag_refuted.

(** ** C79: build() is undefined for every text, and what it does in fact *)

(** [strict]: reading blockToCompress after its end is undefined.  If such a read gives
    some byte, build() is undefined exactly for texts without ones and for those of C64. *)
Theorem C79_smpe_undefined : forall M L T strict jf m t, 1 <= L < T -> T < 2 ^ 32 -> addresses_ok m -> text_ok t -> zlen t < 2 ^ 58 ->
  if strict || (count_true (text_bits t) =? 0) || overflows L T (room_of (m_addr_b m)) (text_bits t) then build_smpe M L T strict jf m t = Ub UB_bounds
  else exists r, build_smpe M L T strict jf m t = Ok r.
Proof. exact smpe_undefined. Qed.
Print Assumptions C79_smpe_undefined.
Example C79_smpe_undefined_case :
  build_smpe MPE3 128 4096 true (fun _ => 0) (mem_of 0 0) [1; 2] = Ub UB_bounds /\ build_smpe MPE1 128 4096 false (fun _ => 0) (mem_of 0 0) [0; 0] = Ub UB_bounds /\
  (let* r := build_smpe MPE3 128 4096 false (fun _ => 0) (mem_of 0 0) [1; 2] in Ok (sb_text_len r)) = Ok 2.
Proof. vm_compute. auto. Qed.

(** ** C80: what the constructor accepts *)

(** Arguments whose groups fit are accepted, and for MPE1 no others. *)
Theorem C80_fitting_accepted : forall M L T, 1 <= L < T -> fits_fields M L T = true -> smpe_arguments M L T = true /\ T < 2 ^ 32.
Proof. exact fits_args. Qed.
Print Assumptions C80_fitting_accepted.
Example C80_fitting_accepted_case : map (fun M => fits_fields M 128 4096) [MPE1; MPE2; MPE3] = [true; true; true].
Proof. reflexivity. Qed.

Theorem C80_mpe1_exact : forall L T, 1 <= L -> smpe_arguments MPE1 L T = true <-> L < T /\ fits_fields MPE1 L T = true.
Proof. exact mpe1_args. Qed.
Print Assumptions C80_mpe1_exact.
Example C80_mpe1_exact_case : map (fun p => smpe_arguments MPE1 (fst p) (snd p)) [(274, 275); (275, 276); (2, 17473); (2, 17474); (9, 9)] = [true; false; true; false; false].
Proof. reflexivity. Qed.

(** The exact set for each variant. *)
Theorem C80_accepted_exact : forall M L T, smpe_arguments M L T = true <-> L < T /\ match M with MPE1 => L <= 274 /\ T <= 17473 | _ => L <= 137 /\ T <= 8737 end.
Proof. exact all_args. Qed.
Print Assumptions C80_accepted_exact.
Example C80_accepted_exact_case : map (fun p => smpe_arguments MPE2 (fst p) (snd p)) [(137, 8737); (138, 8737); (137, 8738); (9, 9)] = [true; false; false; false].
Proof. reflexivity. Qed.

(** For the others the constructor accepts too much: the offsets of four groups do not
    fit, and select(517) is 660 instead of 589. *)
Theorem C80_mpe2_fields_refuted : exists m t r, smpe_arguments MPE2 129 130 = true /\ addresses_ok m /\ text_ok t /\ reads_last_flag 129 130 (text_bits t) = false /\
  build_smpe MPE2 129 130 false (fun _ => 0) m t = Ok r /\ select_smpe MPE2 129 130 r (repeat 0 8) 517 = Ok 660 /\ is_select (text_bits t) 516 589.
Proof. exact bad_fields. Qed.
Print Assumptions C80_mpe2_fields_refuted.

(** ** C81: sizes *)
Theorem C81_smpe_sizes : forall M L T jf m t r, 1 <= L < T -> T < 2 ^ 32 -> addresses_ok m -> text_ok t -> zlen t < 2 ^ 56 -> build_smpe M L T false jf m t = Ok r ->
  smpe_text_size r = zlen t /\
  smpe_size r = 320 + 168 * (groups L (text_bits t) / 16 + 1) + (if smpe_payload M L T (text_bits t) =? 0 then 0 else smpe_payload M L T (text_bits t) + 128).
Proof. exact smpe_sizes. Qed.
Print Assumptions C81_smpe_sizes.
Example C81_smpe_sizes_case :
  let t := [128] ++ repeat 0 20 ++ [1; 3; 192; 5; 1] in sel_payload 4 512 (text_bits t) = 26 /\ map (fun M => smpe_payload M 4 512 (text_bits t)) [MPE1; MPE2; MPE3] = [12; 10; 26] /\
  (let* r := build_smpe MPE2 4 512 false (fun _ => 3) (mem_of 9 16) t in Ok (smpe_size r, smpe_text_size r)) = Ok (626, 26).
Proof. vm_compute. auto. Qed.
