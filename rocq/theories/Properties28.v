(** C103-C105: files and self test of SelectBasic32 of include/mranisz/shared/select.hpp. *)
From Verif Require Import Base Trees Spec SpecText SpecSel32 SpecFile SpecFile32 SpecSelFile32 MrRank MrRankProps MrRank32 MrSelect MrFile MrSelect32 MrSelect32Props MrSelFile32 MrSelFile32Props.

(** ** C103: save() and load() *)
Theorem C103_std_file32 : forall L T m m' t, 1 <= L -> T <= 2 ^ 32 - 64 -> arguments_ok32 false L T = true -> addresses_ok m -> addresses_ok m' -> text_ok t -> zlen t < 2 ^ 29 ->
  1 <= count_true (text_bits t) -> groups L (text_bits t) < 2 ^ 31 - 17 -> payload_too_large32 L T (text_bits t) = false ->
  overflows32 L T (128 - (- m_addr_b m) mod 128) (text_bits t) = false -> lost32 L T (text_bits t) = false ->
  exists r f, build_sel32 L T m t = Ok r /\ save_sel32 r = Ok f /\ zlen f = 20 + 8 * groups L (text_bits t) + sel_payload32 L T (text_bits t) /\
    (forall rest, text_ok rest -> exists r', load_sel32 m' (f ++ rest) = Ok (Loaded r' rest) /\ sel_text_size32 r' = zlen t /\
       forall k, 1 <= k <= count_true (text_bits t) -> select_std32 L T r' k = Ok (sel_answer L (text_bits t) k)) /\
    (forall k, 0 <= k < zlen f -> load_sel32 m' (firstn (Z.to_nat k) f) = Ok Exits).
Proof. exact std_sel_file32. Qed.
Print Assumptions C103_std_file32.
Theorem C103_bch_file32 : forall L T m m' t, 1 <= L -> arguments_ok32 true L T = true -> addresses_ok m -> addresses_ok m' -> text_ok t -> zlen t < 2 ^ 29 ->
  1 <= count_true (text_bits t) -> groups L (text_bits t) < 2 ^ 31 - 17 -> payload_too_large32 L T (text_bits t) = false ->
  overflows32 L T (128 - (- m_addr_b m) mod 128) (text_bits t) = false -> lost32 L T (text_bits t) = false ->
  exists r f, build_sel_bch32 L T m t = Ok r /\ save_sel32 r = Ok f /\ zlen f = 112 + 100 * (groups L (text_bits t) / 16) + sel_payload32 L T (text_bits t) /\
    (forall rest, text_ok rest -> exists r', load_sel32 m' (f ++ rest) = Ok (Loaded r' rest) /\ sel_text_size32 r' = zlen t /\
       forall k, 1 <= k <= count_true (text_bits t) -> select_bch32 L T r' k = Ok (sel_answer L (text_bits t) k)) /\
    (forall k, 0 <= k < zlen f -> load_sel32 m' (firstn (Z.to_nat k) f) = Ok Exits).
Proof. exact bch_sel_file32. Qed.
Print Assumptions C103_bch_file32.
Example C103_file32_case :
  let t := [129; 128; 1; 1; 7] in lost32 4 20 (text_bits t) = false /\ count_true (text_bits t) = 8 /\ nth_one (text_bits t) 5 = 31 /\ groups 4 (text_bits t) = 2 /\ sel_payload32 4 20 (text_bits t) = 14 /\
  (let* r := build_sel32 4 20 (mem_of 99 32) t in let* f := save_sel32 r in let* x := load_sel32 (mem_of 7 48) (f ++ [5; 6]) in
   match x with Loaded r' rest => let* a := select_std32 4 20 r' 5 in Ok (zlen f, rest, a) | Exits => Ok (0, [], 0) end) = Ok (50, [5; 6], 31) /\
  (let* r := build_sel_bch32 4 20 (mem_of 99 32) t in let* f := save_sel32 r in let* x := load_sel32 (mem_of 7 48) (f ++ [5; 6]) in
   match x with Loaded r' rest => let* a := select_bch32 4 20 r' 5 in Ok (zlen f, rest, a) | Exits => Ok (0, [], 0) end) = Ok (126, [5; 6], 31).
Proof. vm_compute. auto 8. Qed.

(** The condition is exact: otherwise there is a memory in which the loaded
    structure gives another answer for the last one. *)
Theorem C103_std_lost32 : forall L T m t, 1 <= L -> T < 2 ^ 30 -> arguments_ok32 false L T = true -> addresses_ok m -> text_ok t -> zlen t < 2 ^ 29 ->
  overflows32 L T (128 - (- m_addr_b m) mod 128) (text_bits t) = false -> lost32 L T (text_bits t) = true ->
  let n := count_true (text_bits t) in
  exists m' r f r', addresses_ok m' /\ build_sel32 L T m t = Ok r /\ select_std32 L T r n = Ok (nth_one (text_bits t) n) /\
    save_sel32 r = Ok f /\ load_sel32 m' f = Ok (Loaded r' []) /\ select_std32 L T r' n <> Ok (nth_one (text_bits t) n).
Proof. exact std_sel_lost32. Qed.
Print Assumptions C103_std_lost32.
Theorem C103_bch_lost32 : forall L T m t, 1 <= L -> arguments_ok32 true L T = true -> addresses_ok m -> text_ok t -> zlen t < 2 ^ 29 ->
  overflows32 L T (128 - (- m_addr_b m) mod 128) (text_bits t) = false -> lost32 L T (text_bits t) = true ->
  let n := count_true (text_bits t) in
  exists m' r f r', addresses_ok m' /\ build_sel_bch32 L T m t = Ok r /\ select_bch32 L T r n = Ok (nth_one (text_bits t) n) /\
    save_sel32 r = Ok f /\ load_sel32 m' f = Ok (Loaded r' []) /\ select_bch32 L T r' n <> Ok (nth_one (text_bits t) n).
Proof. exact bch_sel_lost32. Qed.
Print Assumptions C103_bch_lost32.
Example C103_lost32_case : lost32 128 4096 (text_bits [128; 128]) = true /\ overflows32 128 4096 16 (text_bits [128; 128]) = false /\ lost32 128 4096 (text_bits [128; 192]) = false /\
  lost32 6 20 (text_bits [240; 0; 8]) = true /\ overflows32 6 20 128 (text_bits [240; 0; 8]) = false.
Proof. vm_compute. auto 6. Qed.
(** Two ones, at 0 and 8: after loading, the second one is reported at 9. *)
Theorem C103_file32_refuted : exists m m' t r f r', addresses_ok m /\ addresses_ok m' /\ text_ok t /\ build_sel32 128 4096 m t = Ok r /\ select_std32 128 4096 r 2 = Ok 8 /\
  save_sel32 r = Ok f /\ load_sel32 m' f = Ok (Loaded r' []) /\ select_std32 128 4096 r' 2 = Ok 9.
Proof. exact sel_file_bad32. Qed.
Print Assumptions C103_file32_refuted.

(** ** C104: load() of any file *)
Theorem C104_sel_any32 : forall m f, addresses_ok m -> text_ok f -> let a := int_field f 4 in let b := int_field f (8 + 4 * a) in a < 2 ^ 32 - 32 -> b < 2 ^ 32 - 128 ->
  if zlen f <? 12 + 4 * a + b then load_sel32 m f = Ok Exits
  else exists r, load_sel32 m f = Ok (Loaded r (skipn (Z.to_nat (12 + 4 * a + b)) f)) /\ sel_text_size32 r = int_field f 0 /\
    (forall k, 0 <= k < a -> zn 0 (sb_selects r) k = int_field f (8 + 4 * k)) /\ (forall k, 0 <= k < b -> zn 0 (sb_bits r) k = zn 0 f (12 + 4 * a + k)).
Proof. exact sel_any32. Qed.
Print Assumptions C104_sel_any32.
Example C104_sel_any32_case :
  let f := [9; 1; 0; 0] ++ [1; 0; 0; 0] ++ [0; 2; 0; 0] ++ [2; 0; 0; 0] ++ [7; 8] ++ [77] in int_field f 4 = 1 /\ int_field f 12 = 2 /\
  (let* x := load_sel32 (mem_of 7 48) f in match x with Loaded r rest => Ok (sel_text_size32 r, zn 0 (sb_selects r) 0, zn 0 (sb_bits r) 1, rest) | Exits => Ok (0, 0, 0, []) end) = Ok (265, 512, 8, [77]).
Proof. vm_compute. auto. Qed.
(** Lengths that wrap in new[len + 32] or new[len + 128]: the file is read past the array. *)
Theorem C104_sel_wraps32 : forall m f, addresses_ok m -> text_ok f -> 132 < zlen f -> 2 ^ 32 - 32 <= int_field f 4 -> load_sel32 m f = Ub UB_bounds.
Proof. exact sel_over32. Qed.
Print Assumptions C104_sel_wraps32.
Theorem C104_sel_bits_wrap32 : forall m f, addresses_ok m -> text_ok f -> let a := int_field f 4 in a < 2 ^ 32 - 32 -> 139 + 4 * a < zlen f -> 2 ^ 32 - 128 <= int_field f (8 + 4 * a) ->
  load_sel32 m f = Ub UB_bounds.
Proof. exact sel_over_bits32. Qed.
Print Assumptions C104_sel_bits_wrap32.
Example C104_sel_wraps32_case : let f := put32 1 ++ put32 (2 ^ 32 - 3) ++ repeat 5 137 in int_field f 4 = 2 ^ 32 - 3 /\ zlen f = 145 /\ load_sel32 (mem_of 7 48) f = Ub UB_bounds /\
  (let g := put32 1 ++ put32 1 ++ put32 8 ++ put32 (2 ^ 32 - 1) ++ repeat 5 137 in int_field g 12 = 2 ^ 32 - 1 /\ load_sel32 (mem_of 7 48) g = Ub UB_bounds).
Proof. vm_compute. auto 6. Qed.
Theorem C104_load32_refuted : exists m f, addresses_ok m /\ text_ok f /\ zlen f = 13 /\ load_sel32 m f = Ub UB_bounds.
Proof. exact sel_load_bad32. Qed.
Print Assumptions C104_load32_refuted.
(** Twelve zero bytes: loaded without an error, then every query reads through a null pointer. *)
Theorem C104_query32_refuted : exists f, text_ok f /\ forall m, exists r, load_sel32 m f = Ok (Loaded r []) /\
  forall L T k, select_std32 L T r k = Ub UB_bounds /\ select_bch32 L T r k = Ub UB_bounds.
Proof. exact sel_zero_bad32. Qed.
Print Assumptions C104_query32_refuted.

(** ** C105: testSelect() *)
Theorem C105_select_test32 : forall select t, zlen t < 2 ^ 29 ->
  test_select32 select t = Ok [] <-> forall k, 1 <= k <= count_true (text_bits t) -> select k = Ok (nth_one (text_bits t) k).
Proof. exact select_test32. Qed.
Print Assumptions C105_select_test32.
Theorem C105_std_self_test32 : forall L T m t, 1 <= L -> T <= 2 ^ 32 - 64 -> arguments_ok32 false L T = true -> addresses_ok m -> text_ok t -> zlen t < 2 ^ 29 ->
  1 <= count_true (text_bits t) -> groups L (text_bits t) < 2 ^ 31 - 17 -> payload_too_large32 L T (text_bits t) = false ->
  overflows32 L T (128 - (- m_addr_b m) mod 128) (text_bits t) = false ->
  exists r, build_sel32 L T m t = Ok r /\ (test_select32 (select_std32 L T r) t = Ok [] <-> misread L (text_bits t) = false).
Proof. exact std_sel_test32. Qed.
Print Assumptions C105_std_self_test32.
Theorem C105_bch_self_test32 : forall L T m t, 1 <= L -> arguments_ok32 true L T = true -> addresses_ok m -> text_ok t -> zlen t < 2 ^ 29 ->
  1 <= count_true (text_bits t) -> groups L (text_bits t) < 2 ^ 31 - 17 -> payload_too_large32 L T (text_bits t) = false ->
  overflows32 L T (128 - (- m_addr_b m) mod 128) (text_bits t) = false ->
  exists r, build_sel_bch32 L T m t = Ok r /\ (test_select32 (select_bch32 L T r) t = Ok [] <-> misread L (text_bits t) = false).
Proof. exact bch_sel_test32. Qed.
Print Assumptions C105_bch_self_test32.
Example C105_self_test32_case :
  let t := [1; 128; 0; 1] in let u := [1; 128; 0; 2] in
  misread 32 (text_bits t) = true /\ misread 32 (text_bits u) = false /\
  (let* r := build_sel32 32 40 (mem_of 3 16) t in test_select32 (select_std32 32 40 r) t) = Ok [(1, 7, 0); (2, 8, 1); (3, 31, 2)] /\
  (let* r := build_sel32 32 40 (mem_of 3 16) u in test_select32 (select_std32 32 40 r) u) = Ok [] /\
  (let* r := build_sel_bch32 32 40 (mem_of 3 16) u in test_select32 (select_bch32 32 40 r) u) = Ok [].
Proof. vm_compute. auto 8. Qed.
