(** C110: files and self test of SelectMPE32 of include/mranisz/shared/select.hpp. *)
From Verif Require Import Base Spec SpecText SpecSel32 SpecFile SpecSelFile32 SpecSmpe SpecSmpe32 MrRank MrRankProps MrSelect MrSelectFacts5 MrFile MrFileProps MrMpe MrSmpe MrSelFile32 MrSmpe32 MrSmpe32Props MrSmpe32UseFacts.

(** The file has the stated size.  Followed by anything, loaded in any memory, it gives a
    structure with the answers of C106 and leaves the rest.  Any part of it makes load()
    exit. *)
Theorem C110_smpe_file32 : forall M L T jf m m' t, 1 <= L < T -> fits_fields32 M L T = true -> addresses_ok m -> addresses_ok m' -> text_ok t -> zlen t < 2 ^ 29 ->
  1 <= count_true (text_bits t) -> groups L (text_bits t) < 2 ^ 31 - 17 -> smpe_too_large32 M L T (text_bits t) = false ->
  overflows32 L T (room_of (m_addr_b m)) (text_bits t) = false -> lost32 L T (text_bits t) = false ->
  (reads_last_flag32 L T (text_bits t) = true -> flag_clear M (jf (groups L (text_bits t) - 1)) = true) ->
  exists r f, build_smpe32 M L T false jf m t = Ok r /\ save_sel32 r = Ok f /\ zlen f = 112 + 100 * (groups L (text_bits t) / 16) + smpe_payload32 M L T (text_bits t) /\
    (forall rest, text_ok rest -> exists r', load_sel32 m' (f ++ rest) = Ok (Loaded r' rest) /\ smpe_text_size32 r' = zlen t /\
       forall buf k, zlen buf = 8 -> 1 <= k <= count_true (text_bits t) -> select_smpe32 M L T r' buf k = Ok (sel_answer L (text_bits t) k)) /\
    (forall k, 0 <= k < zlen f -> load_sel32 m' (firstn (Z.to_nat k) f) = Ok Exits).
Proof. exact smpe_file32. Qed.
Print Assumptions C110_smpe_file32.
Example C110_smpe_file32_case :
  let t := [128] ++ repeat 0 20 ++ [1; 3; 192; 5; 1] in
  fits_fields32 MPE2 4 512 = true /\ lost32 4 512 (text_bits t) = false /\ reads_last_flag32 4 512 (text_bits t) = false /\ groups 4 (text_bits t) = 3 /\ smpe_payload32 MPE2 4 512 (text_bits t) = 10 /\
  (let* r := build_smpe32 MPE2 4 512 false (fun _ => 3) (mem_of 9 16) t in let* f := save_sel32 r in let* x := load_sel32 (mem_of 7 48) (f ++ [5; 6]) in
   match x with Loaded r' rest => let* a := select_smpe32 MPE2 4 512 r' (repeat 1 8) 2 in let* b := select_smpe32 MPE2 4 512 r' (repeat 1 8) 6 in Ok (zlen f, rest, a, b) | Exits => Ok (0, [], 0, 0) end) = Ok (122, [5; 6], 175, 185).
Proof. vm_compute. repeat split. Qed.

(** When the text is lost (C103), there is a memory in which the loaded structure gives a
    wrong answer, for each of the three types. *)
Theorem C110_lost32_refuted : forall M L T jf m t, 1 <= L < T -> fits_fields32 M L T = true -> addresses_ok m -> text_ok t -> zlen t < 2 ^ 29 ->
  overflows32 L T (room_of (m_addr_b m)) (text_bits t) = false -> lost32 L T (text_bits t) = true ->
  let n := count_true (text_bits t) in
  exists m' r f r', addresses_ok m' /\ bytes_ok m' /\ build_smpe32 M L T false jf m t = Ok r /\ (forall buf, zlen buf = 8 -> select_smpe32 M L T r buf n = Ok (nth_one (text_bits t) n)) /\
    save_sel32 r = Ok f /\ load_sel32 m' f = Ok (Loaded r' []) /\ forall buf, select_smpe32 M L T r' buf n <> Ok (nth_one (text_bits t) n).
Proof. exact smpe_lost32. Qed.
Print Assumptions C110_lost32_refuted.
Example C110_lost32_case :
  let t := [128; 128] in lost32 128 4096 (text_bits t) = true /\ overflows32 128 4096 (room_of 0) (text_bits t) = false /\
  (let* r := build_smpe32 MPE1 128 4096 false (fun _ => 0) (mem_of 0 0) t in let* f := save_sel32 r in let* x := load_sel32 (mem_of 127 0) f in
   let* a := select_smpe32 MPE1 128 4096 r (repeat 0 8) 2 in match x with Loaded r' _ => let* b := select_smpe32 MPE1 128 4096 r' (repeat 0 8) 2 in Ok (a, b) | Exits => Ok (a, 0) end) = Ok (8, 9).
Proof. vm_compute. auto. Qed.

(** C104 is about load() alone and applies here.  Twelve zero bytes: loaded without an
    error, then every query reads through a null pointer. *)
Theorem C110_query32_refuted : exists f, text_ok f /\ forall m, exists r, load_sel32 m f = Ok (Loaded r []) /\ forall M L T buf k, select_smpe32 M L T r buf k = Ub UB_bounds.
Proof. exact smpe_zero_bad32. Qed.
Print Assumptions C110_query32_refuted.

(** testSelect() prints nothing exactly when the last group is not misread. *)
Theorem C110_smpe_self_test32 : forall M L T jf m t buf, 1 <= L < T -> fits_fields32 M L T = true -> addresses_ok m -> text_ok t -> zlen t < 2 ^ 29 -> 1 <= count_true (text_bits t) ->
  groups L (text_bits t) < 2 ^ 31 - 17 -> smpe_too_large32 M L T (text_bits t) = false -> overflows32 L T (room_of (m_addr_b m)) (text_bits t) = false ->
  (reads_last_flag32 L T (text_bits t) = true -> flag_clear M (jf (groups L (text_bits t) - 1)) = true) -> (forall i, zlen (buf i) = 8) ->
  exists r, build_smpe32 M L T false jf m t = Ok r /\ (test_select32 (fun i => select_smpe32 M L T r (buf i) i) t = Ok [] <-> misread L (text_bits t) = false).
Proof. exact smpe_self_test32. Qed.
Print Assumptions C110_smpe_self_test32.
Example C110_smpe_self_test32_case :
  misread 5 (text_bits [1; 8]) = false /\ misread 5 (text_bits [24]) = true /\ reads_last_flag32 5 512 (text_bits [24]) = false /\
  (let* r := build_smpe32 MPE3 5 512 false (fun _ => 1) (mem_of 5 16) [1; 8] in test_select32 (fun i => select_smpe32 MPE3 5 512 r (repeat 0 8) i) [1; 8]) = Ok [] /\
  (let* r := build_smpe32 MPE3 5 512 false (fun _ => 1) (mem_of 5 16) [24] in test_select32 (fun i => select_smpe32 MPE3 5 512 r (repeat 0 8) i) [24]) <> Ok [].
Proof. vm_compute. repeat split. congruence. Qed.
