(** C117: alignment of the reads of SelectBasic32 and SelectMPE32. *)
From Verif Require Import Base Spec SpecText SpecSel32 SpecSmpe SpecSmpe32 SpecAlign SpecAlign32 MrRank MrRankProps MrSelect MrSelectFacts5 MrMpe MrSmpe MrSelect32 MrSmpe32 MrAlign32 MrAlign32Props.

(** select(k) reads at an address that is not a multiple of the size read exactly when its
    group is stored as positions after a number of bytes that is not a multiple of 4, or as
    more than 64 bits after a number of bytes that is not a multiple of 8; otherwise the
    answer is that of C99 and C100. *)
Theorem C117_std : forall L T m t, 1 <= L -> T <= 2 ^ 32 - 64 -> arguments_ok32 false L T = true -> addresses_ok m -> text_ok t -> zlen t < 2 ^ 29 -> 1 <= count_true (text_bits t) ->
  groups L (text_bits t) < 2 ^ 31 - 17 -> payload_too_large32 L T (text_bits t) = false -> overflows32 L T (room_of (m_addr_b m)) (text_bits t) = false ->
  exists r, build_sel32 L T m t = Ok r /\ forall k, 1 <= k <= count_true (text_bits t) ->
    select_std_al32 L T r k = if misaligned32 L T (text_bits t) k then Ub UB_align else Ok (sel_answer L (text_bits t) k).
Proof. exact std_aligned32. Qed.
Print Assumptions C117_std.
Theorem C117_bch : forall L T m t, 1 <= L -> arguments_ok32 true L T = true -> addresses_ok m -> text_ok t -> zlen t < 2 ^ 29 -> 1 <= count_true (text_bits t) ->
  groups L (text_bits t) < 2 ^ 31 - 17 -> payload_too_large32 L T (text_bits t) = false -> overflows32 L T (room_of (m_addr_b m)) (text_bits t) = false ->
  exists r, build_sel_bch32 L T m t = Ok r /\ forall k, 1 <= k <= count_true (text_bits t) ->
    select_bch_al32 L T r k = if misaligned32 L T (text_bits t) k then Ub UB_align else Ok (sel_answer L (text_bits t) k).
Proof. exact bch_aligned32. Qed.
Print Assumptions C117_bch.
Example C117_basic_case :
  let t := [1; 129; 0; 4; 0; 0; 0; 0; 0; 0; 3; 0; 0; 0; 1; 1; 1; 1] in let B := text_bits t in
  count_true B = 10 /\ map (group_offset32 4 70 B) [1; 2] = [4; 16] /\ filter (misaligned32 4 70 B) (zrange 1 10) = [] /\
  map (group_offset32 4 100 B) [1; 2] = [4; 17] /\ filter (misaligned32 4 100 B) (zrange 1 10) = [5; 6; 7] /\
  (let* r := build_sel32 4 70 (mem_of 9 16) t in Ok (map (select_std_al32 4 70 r) [2; 6; 10])) = Ok [Ok 8; Ok 87; Ok 143] /\
  (let* r := build_sel32 4 100 (mem_of 9 16) t in Ok (map (select_std_al32 4 100 r) [2; 6; 10])) = Ok [Ok 8; Ub UB_align; Ok 143] /\
  (let* r := build_sel_bch32 4 100 (mem_of 9 16) t in Ok (map (select_bch_al32 4 100 r) [2; 6; 10])) = Ok [Ok 8; Ub UB_align; Ok 143].
Proof. vm_compute. repeat split. Qed.

(** The same with compressed groups, which are read by bytes, and the bytes they save. *)
Theorem C117_smpe : forall M L T jf m t, 1 <= L < T -> fits_fields32 M L T = true -> addresses_ok m -> text_ok t -> zlen t < 2 ^ 29 -> 1 <= count_true (text_bits t) ->
  groups L (text_bits t) < 2 ^ 31 - 17 -> smpe_too_large32 M L T (text_bits t) = false -> overflows32 L T (room_of (m_addr_b m)) (text_bits t) = false ->
  (reads_last_flag32 L T (text_bits t) = true -> flag_clear M (jf (groups L (text_bits t) - 1)) = true) ->
  exists r, build_smpe32 M L T false jf m t = Ok r /\ forall buf k, zlen buf = 8 -> 1 <= k <= count_true (text_bits t) ->
    select_smpe_al32 M L T r buf k = if misaligned_mpe32 M L T (text_bits t) k then Ub UB_align else Ok (sel_answer L (text_bits t) k).
Proof. exact smpe_aligned32. Qed.
Print Assumptions C117_smpe.
Example C117_smpe_case :
  let t := [128; 0; 0; 0; 0; 13; 0; 0; 8; 0; 0; 0; 0; 0; 0; 0; 1] in let B := text_bits t in
  fits_fields32 MPE2 4 512 = true /\ reads_last_flag32 4 512 B = false /\ map (group_compressed MPE2 4 512 B) [0; 1] = [true; false] /\
  map (misaligned_mpe32 MPE2 4 512 B) [2; 5; 6] = [false; true; true] /\
  (let* r := build_smpe32 MPE2 4 512 false (fun _ => 3) (mem_of 9 16) t in Ok (map (select_smpe_al32 MPE2 4 512 r (repeat 0 8)) [2; 5; 6])) = Ok [Ok 44; Ub UB_align; Ub UB_align].
Proof. vm_compute. repeat split. Qed.

(** It happens with the arguments of the benchmark: the 129th one of a byte of zeros, 128
    ones, 64 zeros and 8 ones. *)
Theorem C117_aligned_refuted : exists m t r r' r3, addresses_ok m /\ text_ok t /\ build_sel32 128 4096 m t = Ok r /\ build_sel_bch32 128 4096 m t = Ok r' /\ build_smpe32 MPE1 128 4096 false (fun _ => 0) m t = Ok r3 /\
  select_std_al32 128 4096 r 129 = Ub UB_align /\ select_bch_al32 128 4096 r' 129 = Ub UB_align /\ select_smpe_al32 MPE1 128 4096 r3 (repeat 0 8) 129 = Ub UB_align /\
  is_select (text_bits t) 128 200.
Proof. exact odd_select32. Qed.
Print Assumptions C117_aligned_refuted.
