(** C82, C83: files and self test of SelectMPE64, and the benchmark that measures it. *)
From Verif Require Import Base Spec SpecText SpecFile SpecPerf SpecOrder SpecSmpe Perf PerfBase MrRank MrRankProps MrSelect MrSelectFacts5 MrFile MrFileProps MrMpe MrSmpe MrSmpeProps MrSmpeUse MrSmpeUseFacts.

(** ** C82: files and self test *)

(** The file has the stated size.  Followed by anything, loaded in any memory, it gives a
    structure with the answers of C78 and leaves the rest.  Any part of it makes load()
    exit. *)
Theorem C82_smpe_file : forall M L T jf m m' t, 1 <= L < T -> fits_fields M L T = true -> addresses_ok m -> addresses_ok m' -> text_ok t -> zlen t < 2 ^ 57 ->
  1 <= count_true (text_bits t) -> overflows L T (room_of (m_addr_b m)) (text_bits t) = false -> lost L T (text_bits t) = false ->
  (reads_last_flag L T (text_bits t) = true -> flag_clear M (jf (groups L (text_bits t) - 1)) = true) ->
  exists r f, build_smpe M L T false jf m t = Ok r /\ save_sel r = Ok f /\ zlen f = 192 + 168 * (groups L (text_bits t) / 16) + smpe_payload M L T (text_bits t) /\
    (forall rest, text_ok rest -> exists r', load_sel m' (f ++ rest) = Ok (Loaded r' rest) /\ smpe_text_size r' = zlen t /\
       forall buf k, zlen buf = 8 -> 1 <= k <= count_true (text_bits t) -> select_smpe M L T r' buf k = Ok (sel_answer L (text_bits t) k)) /\
    (forall k, 0 <= k < zlen f -> load_sel m' (firstn (Z.to_nat k) f) = Ok Exits).
Proof. exact smpe_file. Qed.
Print Assumptions C82_smpe_file.
Example C82_smpe_file_case :
  let t := [128] ++ repeat 0 20 ++ [1; 3; 192; 5; 1] in
  fits_fields MPE2 4 512 = true /\ lost 4 512 (text_bits t) = false /\ reads_last_flag 4 512 (text_bits t) = false /\ groups 4 (text_bits t) = 3 /\ smpe_payload MPE2 4 512 (text_bits t) = 10 /\
  (let* r := build_smpe MPE2 4 512 false (fun _ => 3) (mem_of 9 16) t in let* f := save_sel r in let* x := load_sel (mem_of 7 48) (f ++ [5; 6]) in
   match x with Loaded r' rest => let* a := select_smpe MPE2 4 512 r' (repeat 1 8) 2 in let* b := select_smpe MPE2 4 512 r' (repeat 1 8) 6 in Ok (zlen f, rest, a, b) | Exits => Ok (0, [], 0, 0) end) = Ok (202, [5; 6], 175, 185).
Proof. vm_compute. repeat split. Qed.

(** When the text is lost (C67), there is a memory in which the loaded structure gives a
    wrong answer, for each of the three types. *)
Theorem C82_lost_refuted : forall M L T jf m t, 1 <= L < T -> fits_fields M L T = true -> addresses_ok m -> text_ok t -> zlen t < 2 ^ 57 ->
  overflows L T (room_of (m_addr_b m)) (text_bits t) = false -> lost L T (text_bits t) = true ->
  let n := count_true (text_bits t) in
  exists m' r f r', addresses_ok m' /\ bytes_ok m' /\ build_smpe M L T false jf m t = Ok r /\ (forall buf, zlen buf = 8 -> select_smpe M L T r buf n = Ok (nth_one (text_bits t) n)) /\
    save_sel r = Ok f /\ load_sel m' f = Ok (Loaded r' []) /\ forall buf, select_smpe M L T r' buf n <> Ok (nth_one (text_bits t) n).
Proof. exact smpe_lost. Qed.
Print Assumptions C82_lost_refuted.
Example C82_lost_case :
  let t := [128; 128] in lost 128 4096 (text_bits t) = true /\ overflows 128 4096 (room_of 0) (text_bits t) = false /\
  (let* r := build_smpe MPE1 128 4096 false (fun _ => 0) (mem_of 0 0) t in let* f := save_sel r in let* x := load_sel (mem_of 127 0) f in
   let* a := select_smpe MPE1 128 4096 r (repeat 0 8) 2 in match x with Loaded r' _ => let* b := select_smpe MPE1 128 4096 r' (repeat 0 8) 2 in Ok (a, b) | Exits => Ok (a, 0) end) = Ok (8, 9).
Proof. vm_compute. auto. Qed.

(** testSelect() prints nothing exactly when the last group is not misread. *)
Theorem C82_smpe_self_test : forall M L T jf m t buf, 1 <= L < T -> fits_fields M L T = true -> addresses_ok m -> text_ok t -> zlen t < 2 ^ 58 -> 1 <= count_true (text_bits t) ->
  overflows L T (room_of (m_addr_b m)) (text_bits t) = false -> (reads_last_flag L T (text_bits t) = true -> flag_clear M (jf (groups L (text_bits t) - 1)) = true) ->
  (forall i, zlen (buf i) = 8) ->
  exists r, build_smpe M L T false jf m t = Ok r /\ (test_select (fun i => select_smpe M L T r (buf i) i) t = Ok [] <-> misread L (text_bits t) = false).
Proof. exact smpe_self_test. Qed.
Print Assumptions C82_smpe_self_test.
Example C82_smpe_self_test_case :
  misread 5 (text_bits [1; 8]) = false /\ misread 5 (text_bits [24]) = true /\ reads_last_flag 5 512 (text_bits [24]) = false /\
  (let* r := build_smpe MPE3 5 512 false (fun _ => 1) (mem_of 5 16) [1; 8] in test_select (fun i => select_smpe MPE3 5 512 r (repeat 0 8) i) [1; 8]) = Ok [] /\
  (let* r := build_smpe MPE3 5 512 false (fun _ => 1) (mem_of 5 16) [24] in test_select (fun i => select_smpe MPE3 5 512 r (repeat 0 8) i) [24]) <> Ok [].
Proof. vm_compute. repeat split. congruence. Qed.

(** ** C83: what src/perf_compressed_bitmap.cpp prints for select_mpe1, 2 and 3 *)
Theorem C83_smpe_printed : forall M L T buf jf m dbg n t op k runs measures, 1 <= L < T -> fits_fields M L T = true -> addresses_ok m -> 193 <= n < 2 ^ 58 ->
  let B := bench_bits 64 n t in
  op <> BRank -> overflows L T (128 - (- m_addr_b m) mod 128) (reversed 8 B) = false ->
  (reads_last_flag L T (reversed 8 B) = true -> flag_clear M (jf (groups L (reversed 8 B) - 1)) = true) -> (forall i, zlen (buf i) = 8) ->
  bench_smpe M L T buf jf m dbg n t op k runs measures = printed dbg (fun q => if q =? 0 then 2 ^ 64 - 1 else sel_answer L (reversed 8 B) q) op n (count_true B) k runs measures.
Proof. exact bench_smpe_select. Qed.
Print Assumptions C83_smpe_printed.
Example C83_smpe_printed_case : let B := reversed 8 (bench_bits 64 256 (2 ^ 63)) in
  count_true B = 123 /\ map (fun M => fits_fields M 128 4096) [MPE1; MPE2; MPE3] = [true; true; true] /\ overflows 128 4096 (128 - (- 16) mod 128) B = false /\ reads_last_flag 128 4096 B = false /\
  map (fun M => bench_smpe M 128 4096 (fun _ => repeat 0 8) (fun _ => 1) (mem_of 3 16) false 256 (2 ^ 63) BSelect 3 2 1) [MPE1; MPE2; MPE3] = [Ok [692]; Ok [692]; Ok [692]].
Proof. vm_compute. repeat split. Qed.

Theorem C83_smpe_overflow : forall M L T buf jf m dbg n t op k runs measures, 1 <= L < T -> T < 2 ^ 32 -> addresses_ok m -> 193 <= n < 2 ^ 58 ->
  let B := bench_bits 64 n t in
  overflows L T (128 - (- m_addr_b m) mod 128) (reversed 8 B) = true -> bench_smpe M L T buf jf m dbg n t op k runs measures = Ub UB_bounds.
Proof. exact bench_smpe_bad. Qed.
Print Assumptions C83_smpe_overflow.
Example C83_smpe_overflow_case : let B := reversed 8 (bench_bits 64 256 (2 ^ 60)) in
  count_true B = 16 /\ nth_one B 16 = 235 /\ overflows 17 235 (128 - (- 16) mod 128) B = true /\
  bench_smpe MPE2 17 235 (fun _ => repeat 0 8) (fun _ => 1) (mem_of 3 16) false 256 (2 ^ 60) BSelect 3 2 1 = Ub UB_bounds.
Proof. vm_compute. repeat split. Qed.
