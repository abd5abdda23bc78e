(** C84: alignment of the 64-bit reads of SelectBasic64 and SelectMPE64. *)
From Verif Require Import Base Spec SpecText SpecSmpe SpecAlign MrRank MrRankProps MrSelect MrSelectFacts5 MrMpe MrSmpe MrAlign MrAlignProps.

(** select(k) reads a word at an address that is not a multiple of 8 exactly when the
    bytes stored for the groups before the one of k are not a multiple of 8 and that
    group is read by words; otherwise the answer is that of C62. *)
Theorem C84_std : forall L T m t, 1 <= L -> T < 2 ^ 32 -> arguments_ok false L T = true -> addresses_ok m -> text_ok t -> zlen t < 2 ^ 58 -> 1 <= count_true (text_bits t) ->
  overflows L T (room_of (m_addr_b m)) (text_bits t) = false ->
  exists r, build_sel L T m t = Ok r /\ forall k, 1 <= k <= count_true (text_bits t) ->
    select_std_al L T r k = if misaligned L T (text_bits t) k then Ub UB_align else Ok (sel_answer L (text_bits t) k).
Proof. exact std_aligned. Qed.
Print Assumptions C84_std.
Theorem C84_bch : forall L T m t, 1 <= L -> arguments_ok true L T = true -> addresses_ok m -> text_ok t -> zlen t < 2 ^ 58 -> 1 <= count_true (text_bits t) ->
  groups L (text_bits t) < 2 ^ 31 - 1 -> overflows L T (room_of (m_addr_b m)) (text_bits t) = false ->
  exists r, build_sel_bch L T m t = Ok r /\ forall k, 1 <= k <= count_true (text_bits t) ->
    select_bch_al L T r k = if misaligned L T (text_bits t) k then Ub UB_align else Ok (sel_answer L (text_bits t) k).
Proof. exact bch_aligned. Qed.
Print Assumptions C84_bch.
Example C84_basic_case :
  let t := [1; 255; 0; 3; 0; 128; 129; 0; 0; 0; 0; 0; 0; 0; 0; 0; 0; 3] in let B := text_bits t in
  count_true B = 16 /\ map (misaligned 4 20 B) [3; 4; 7; 10; 14; 15] = [false; false; false; true; true; true] /\
  (let* r := build_sel 4 20 (mem_of 9 16) t in Ok (map (select_std_al 4 20 r) [3; 6; 10; 14])) = Ok [Ok 9; Ok 12; Ub UB_align; Ub UB_align] /\
  (let* r := build_sel_bch 4 20 (mem_of 9 16) t in Ok (map (select_bch_al 4 20 r) [3; 6; 10; 14])) = Ok [Ok 9; Ok 12; Ub UB_align; Ub UB_align].
Proof. vm_compute. repeat split. Qed.

(** The same with compressed groups, which are read by bytes, and the bytes they save. *)
Theorem C84_smpe : forall M L T jf m t, 1 <= L < T -> fits_fields M L T = true -> addresses_ok m -> text_ok t -> zlen t < 2 ^ 58 -> 1 <= count_true (text_bits t) ->
  overflows L T (room_of (m_addr_b m)) (text_bits t) = false -> (reads_last_flag L T (text_bits t) = true -> flag_clear M (jf (groups L (text_bits t) - 1)) = true) ->
  exists r, build_smpe M L T false jf m t = Ok r /\ forall buf k, zlen buf = 8 -> 1 <= k <= count_true (text_bits t) ->
    select_smpe_al M L T r buf k = if misaligned_mpe M L T (text_bits t) k then Ub UB_align else Ok (sel_answer L (text_bits t) k).
Proof. exact smpe_aligned. Qed.
Print Assumptions C84_smpe.
Example C84_smpe_case :
  let t := [128; 0; 0; 0; 0; 13; 0; 0; 8; 0; 0; 0; 0; 0; 0; 0; 1] in let B := text_bits t in
  fits_fields MPE2 4 512 = true /\ reads_last_flag 4 512 B = false /\ map (group_compressed MPE2 4 512 B) [0; 1] = [true; false] /\
  map (misaligned_mpe MPE2 4 512 B) [2; 5; 6] = [false; true; true] /\
  (let* r := build_smpe MPE2 4 512 false (fun _ => 3) (mem_of 9 16) t in Ok (map (select_smpe_al MPE2 4 512 r (repeat 0 8)) [2; 5; 6])) = Ok [Ok 44; Ub UB_align; Ub UB_align].
Proof. vm_compute. repeat split. Qed.

(** It happens with the arguments of the benchmark: the 129th one of a byte of zeros, 128
    ones, 64 zeros and 8 ones. *)
Theorem C84_aligned_refuted : exists m t r r' r3, addresses_ok m /\ text_ok t /\ build_sel 128 4096 m t = Ok r /\ build_sel_bch 128 4096 m t = Ok r' /\ build_smpe MPE1 128 4096 false (fun _ => 0) m t = Ok r3 /\
  select_std_al 128 4096 r 129 = Ub UB_align /\ select_bch_al 128 4096 r' 129 = Ub UB_align /\ select_smpe_al MPE1 128 4096 r3 (repeat 0 8) 129 = Ub UB_align /\
  is_select (text_bits t) 128 200.
Proof. exact odd_select. Qed.
Print Assumptions C84_aligned_refuted.
