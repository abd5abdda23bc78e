(** C106, C107, C108, C109: SelectMPE32 of include/mranisz/shared/select.hpp. *)
From Verif Require Import Base Spec SpecText SpecSel32 SpecSmpe SpecSmpe32 MrRank MrRankProps MrSelect MrSelectFacts5 MrMpe MrSmpe MrSmpe32 MrSmpe32Props.

(** ** C106: queries *)

(** For every text with a one that C107 builds, any memory, any content of the buffer and
    arguments whose groups fit the fields, select(k) is the one of SelectBasic32 (C99),
    unless the flag of the last group, which is not initialised, is read. *)
Theorem C106_smpe_select32 : forall M L T jf m t, 1 <= L < T -> fits_fields32 M L T = true -> addresses_ok m -> text_ok t -> zlen t < 2 ^ 29 -> 1 <= count_true (text_bits t) ->
  groups L (text_bits t) < 2 ^ 31 - 17 -> smpe_too_large32 M L T (text_bits t) = false -> overflows32 L T (room_of (m_addr_b m)) (text_bits t) = false ->
  (reads_last_flag32 L T (text_bits t) = true -> flag_clear M (jf (groups L (text_bits t) - 1)) = true) ->
  exists r, build_smpe32 M L T false jf m t = Ok r /\ forall buf, zlen buf = 8 -> select_smpe32 M L T r buf 0 = Ok (2 ^ 32 - 1) /\
    forall k, 1 <= k <= count_true (text_bits t) -> select_smpe32 M L T r buf k = Ok (sel_answer L (text_bits t) k).
Proof. exact smpe_select32. Qed.
Print Assumptions C106_smpe_select32.
Example C106_smpe_select32_case :
  let t := [128] ++ repeat 0 20 ++ [1; 3; 192; 5; 1] in
  fits_fields32 MPE2 4 512 = true /\ count_true (text_bits t) = 9 /\ smpe_too_large32 MPE2 4 512 (text_bits t) = false /\ overflows32 4 512 (room_of 16) (text_bits t) = false /\
  reads_last_flag32 4 512 (text_bits t) = false /\ group_saved MPE2 4 512 (text_bits t) 0 = 16 /\ map (nth_one (text_bits t)) [2; 6; 9] = [175; 185; 207] /\
  (let* r := build_smpe32 MPE2 4 512 false (fun _ => 3) (mem_of 9 16) t in
   let* a := select_smpe32 MPE2 4 512 r (repeat 0 8) 2 in let* b := select_smpe32 MPE2 4 512 r (repeat 7 8) 6 in
   let* c := select_smpe32 MPE2 4 512 r (repeat 0 8) 9 in Ok (a, b, c)) = Ok (175, 185, 207).
Proof. vm_compute. repeat split. Qed.

(** It is the right one unless the last group is misread. *)
Theorem C106_smpe_right32 : forall M L T jf m t, 1 <= L < T -> fits_fields32 M L T = true -> addresses_ok m -> text_ok t -> zlen t < 2 ^ 29 -> 1 <= count_true (text_bits t) ->
  groups L (text_bits t) < 2 ^ 31 - 17 -> smpe_too_large32 M L T (text_bits t) = false -> overflows32 L T (room_of (m_addr_b m)) (text_bits t) = false -> misread L (text_bits t) = false ->
  (reads_last_flag32 L T (text_bits t) = true -> flag_clear M (jf (groups L (text_bits t) - 1)) = true) ->
  exists r, build_smpe32 M L T false jf m t = Ok r /\ forall buf k, zlen buf = 8 -> 1 <= k <= count_true (text_bits t) ->
    exists p, select_smpe32 M L T r buf k = Ok p /\ is_select (text_bits t) (k - 1) p.
Proof. exact smpe_right32. Qed.
Print Assumptions C106_smpe_right32.
Example C106_smpe_right32_case :
  let t := [128] ++ repeat 0 20 ++ [1; 3; 192; 5; 1] in misread 3 (text_bits t) = false /\ reads_last_flag32 3 512 (text_bits t) = true /\ flag_clear MPE2 8 = true /\
  (let* r := build_smpe32 MPE2 3 512 false (fun _ => 8) (mem_of 9 16) t in select_smpe32 MPE2 3 512 r (repeat 0 8) 8) = Ok 199.
Proof. vm_compute. auto. Qed.

(** The flag of the last group matters: with the arguments of the benchmark, if that
    byte is 1, select(64) of 128 ones is 87 instead of 127. *)
Theorem C106_last_flag32_refuted : exists m t r, addresses_ok m /\ text_ok t /\ build_smpe32 MPE1 128 4096 false (fun _ => 1) m t = Ok r /\
  select_smpe32 MPE1 128 4096 r (repeat 0 8) 64 = Ok 87 /\ is_select (text_bits t) 63 127.
Proof. exact bad_flag32. Qed.
Print Assumptions C106_last_flag32_refuted.

(** ** C107: build() is undefined for every text, and what it does in fact *)

(** [strict]: reading blockToCompress after its end is undefined.  If such a read gives
    some byte, build() is undefined exactly for texts without ones, for those whose
    payload wraps new[len + 128] and for those of C101. *)
Theorem C107_smpe_undefined32 : forall M L T strict jf m t, 1 <= L < T -> T < 2 ^ 32 -> addresses_ok m -> text_ok t -> zlen t < 2 ^ 29 -> groups L (text_bits t) < 2 ^ 31 - 17 ->
  if strict || (count_true (text_bits t) =? 0) || smpe_too_large32 M L T (text_bits t) || overflows32 L T (room_of (m_addr_b m)) (text_bits t) then build_smpe32 M L T strict jf m t = Ub UB_bounds
  else exists r, build_smpe32 M L T strict jf m t = Ok r.
Proof. exact smpe_undefined32. Qed.
Print Assumptions C107_smpe_undefined32.
Example C107_smpe_undefined32_case :
  build_smpe32 MPE3 128 4096 true (fun _ => 0) (mem_of 0 0) [1; 2] = Ub UB_bounds /\ build_smpe32 MPE1 128 4096 false (fun _ => 0) (mem_of 0 0) [0; 0] = Ub UB_bounds /\
  smpe_too_large32 MPE3 128 4096 (text_bits [1; 2]) = false /\ overflows32 128 4096 (room_of 0) (text_bits [1; 2]) = false /\
  (let* r := build_smpe32 MPE3 128 4096 false (fun _ => 0) (mem_of 0 0) [1; 2] in Ok (sb_text_len r)) = Ok 2.
Proof. vm_compute. auto 6. Qed.

(** ** C108: what the constructor accepts *)

(** Arguments whose groups fit are accepted, and for MPE1 and MPE2 no others. *)
Theorem C108_fitting_accepted32 : forall M L T, 1 <= L < T -> fits_fields32 M L T = true -> smpe_arguments32 M L T = true /\ T < 2 ^ 32.
Proof. exact fits_args32. Qed.
Print Assumptions C108_fitting_accepted32.
Example C108_fitting_accepted32_case : map (fun M => fits_fields32 M 128 4096) [MPE1; MPE2; MPE3] = [true; true; true].
Proof. reflexivity. Qed.

Theorem C108_mpe12_exact32 : forall M L T, M <> MPE3 -> 1 <= L -> smpe_arguments32 M L T = true <-> L < T /\ fits_fields32 M L T = true.
Proof. exact mpe12_args32. Qed.
Print Assumptions C108_mpe12_exact32.
Example C108_mpe12_exact32_case : map (fun p => smpe_arguments32 MPE1 (fst p) (snd p)) [(547, 548); (548, 549); (2, 17473); (2, 17474); (9, 9)] = [true; false; true; false; false] /\
  map (fun p => smpe_arguments32 MPE2 (fst p) (snd p)) [(274, 275); (275, 276); (2, 8737); (2, 8738)] = [true; false; true; false].
Proof. split; reflexivity. Qed.

(** The exact set for each variant. *)
Theorem C108_accepted_exact32 : forall M L T, smpe_arguments32 M L T = true <-> L < T /\ match M with MPE1 => L <= 547 /\ T <= 17473 | _ => L <= 274 /\ T <= 8737 end.
Proof. exact all_args32. Qed.
Print Assumptions C108_accepted_exact32.
Example C108_accepted_exact32_case : map (fun p => smpe_arguments32 MPE3 (fst p) (snd p)) [(274, 8737); (275, 8737); (274, 8738); (9, 9)] = [true; false; false; false].
Proof. reflexivity. Qed.

(** For MPE3 the fields hold the groups up to THRESHOLD 7761; up to 8737 it is accepted. *)
Theorem C108_mpe3_fits32 : forall L T, fits_fields32 MPE3 L T = true <-> L <= 274 /\ T <= 7761.
Proof. exact mpe3_fits32. Qed.
Print Assumptions C108_mpe3_fits32.
Example C108_mpe3_fits32_case : fits_fields32 MPE3 128 7761 = true /\ smpe_arguments32 MPE3 128 7762 = true.
Proof. split; reflexivity. Qed.

(** ** C109: sizes *)
Theorem C109_smpe_sizes32 : forall M L T jf m t r, 1 <= L < T -> T < 2 ^ 32 -> addresses_ok m -> text_ok t -> zlen t < 2 ^ 29 -> groups L (text_bits t) < 2 ^ 31 - 17 -> build_smpe32 M L T false jf m t = Ok r ->
  smpe_text_size32 r = zlen t /\
  smpe_size32 r = 308 + 100 * (groups L (text_bits t) / 16 + 1) + (if smpe_payload32 M L T (text_bits t) =? 0 then 0 else smpe_payload32 M L T (text_bits t) + 128).
Proof. exact smpe_sizes32. Qed.
Print Assumptions C109_smpe_sizes32.
Example C109_smpe_sizes32_case :
  let t := [128] ++ repeat 0 20 ++ [1; 3; 192; 5; 1] in map (fun M => smpe_payload32 M 4 512 (text_bits t)) [MPE1; MPE2; MPE3] = [12; 10; 26] /\
  (let* r := build_smpe32 MPE2 4 512 false (fun _ => 3) (mem_of 9 16) t in Ok (smpe_size32 r, smpe_text_size32 r)) = Ok (546, 26).
Proof. vm_compute. auto. Qed.
