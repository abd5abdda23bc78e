(** C99-C102: SelectBasic32 of include/mranisz/shared/select.hpp (both header types), SelectBasic64 with
    counters of 32 bits.  Texts are shorter than 2^29 bytes, so that a bit position fits into an
    unsigned int. *)
From Verif Require Import Base Trees Spec SpecText SpecSel32 MrRank MrRankProps MrSelect MrSelect32 MrSelect32Props.

(** ** C99: select with plain headers *)
Theorem C99_std_select32 : forall L T m t, 1 <= L -> T <= 2 ^ 32 - 64 -> arguments_ok32 false L T = true -> addresses_ok m -> text_ok t -> zlen t < 2 ^ 29 ->
  1 <= count_true (text_bits t) -> groups L (text_bits t) < 2 ^ 31 - 17 -> payload_too_large32 L T (text_bits t) = false ->
  overflows32 L T (128 - (- m_addr_b m) mod 128) (text_bits t) = false -> misread L (text_bits t) = false ->
  exists r, build_sel32 L T m t = Ok r /\
    forall k, 1 <= k <= count_true (text_bits t) -> exists p, select_std32 L T r k = Ok p /\ is_select (text_bits t) (k - 1) p.
Proof. exact std_right32. Qed.
Print Assumptions C99_std_select32.
Example C99_std_select32_case :
  let t := repeat 255 3 ++ [8] ++ repeat 0 8 ++ [3; 1; 255] in
  let B := text_bits t in
  arguments_ok32 false 4 20 = true /\ count_true B = 36 /\ groups 4 B = 9 /\ payload_too_large32 4 20 B = false /\ overflows32 4 20 16 B = false /\ misread 4 B = false /\
  (let* r := build_sel32 4 20 (mem_of 3 16) t in mapM (select_std32 4 20 r) [7; 25; 26; 27; 28; 36]) = Ok [6; 28; 102; 103; 111; 119].
Proof. vm_compute. auto 10. Qed.

(** All cases that can be built, also those answered wrongly; C62_answer_right and
    C62_answer_wrong say what [sel_answer] is. *)
Theorem C99_std_select32_exact : forall L T m t, 1 <= L -> T <= 2 ^ 32 - 64 -> arguments_ok32 false L T = true -> addresses_ok m -> text_ok t -> zlen t < 2 ^ 29 ->
  1 <= count_true (text_bits t) -> groups L (text_bits t) < 2 ^ 31 - 17 -> payload_too_large32 L T (text_bits t) = false ->
  overflows32 L T (128 - (- m_addr_b m) mod 128) (text_bits t) = false ->
  exists r, build_sel32 L T m t = Ok r /\ select_std32 L T r 0 = Ok (2 ^ 32 - 1) /\
    forall k, 1 <= k <= count_true (text_bits t) -> select_std32 L T r k = Ok (sel_answer L (text_bits t) k).
Proof. exact std_select32. Qed.
Print Assumptions C99_std_select32_exact.
Example C99_std_select32_exact_case :
  let t := [1; 128; 0; 1] in let B := text_bits t in
  misread 32 B = true /\ groups 32 B = 1 /\ payload_too_large32 32 40 B = false /\ overflows32 32 40 16 B = false /\
  (let* r := build_sel32 32 40 (mem_of 3 16) t in mapM (select_std32 32 40 r) [0; 1; 2; 3]) = Ok [4294967295; 0; 1; 2] /\ map (sel_answer 32 B) [1; 2; 3] = [0; 1; 2] /\ one_positions B = [7; 8; 31].
Proof. vm_compute. auto 10. Qed.

(** One set bit, at position 127: select(1) is 0. *)
Theorem C99_std_select32_refuted : exists m t r, addresses_ok m /\ text_ok t /\ build_sel32 128 4096 m t = Ok r /\ select_std32 128 4096 r 1 = Ok 0 /\
  bit (text_bits t) 0 = false /\ is_select (text_bits t) 0 127.
Proof. exact bad_answer32. Qed.
Print Assumptions C99_std_select32_refuted.

(** ** C100: select with compressed headers *)
Theorem C100_bch_select32 : forall L T m t, 1 <= L -> arguments_ok32 true L T = true -> addresses_ok m -> text_ok t -> zlen t < 2 ^ 29 ->
  1 <= count_true (text_bits t) -> groups L (text_bits t) < 2 ^ 31 - 17 -> payload_too_large32 L T (text_bits t) = false ->
  overflows32 L T (128 - (- m_addr_b m) mod 128) (text_bits t) = false -> misread L (text_bits t) = false ->
  exists r, build_sel_bch32 L T m t = Ok r /\
    forall k, 1 <= k <= count_true (text_bits t) -> exists p, select_bch32 L T r k = Ok p /\ is_select (text_bits t) (k - 1) p.
Proof. exact bch_right32. Qed.
Print Assumptions C100_bch_select32.
Theorem C100_bch_select32_exact : forall L T m t, 1 <= L -> arguments_ok32 true L T = true -> addresses_ok m -> text_ok t -> zlen t < 2 ^ 29 ->
  1 <= count_true (text_bits t) -> groups L (text_bits t) < 2 ^ 31 - 17 -> payload_too_large32 L T (text_bits t) = false ->
  overflows32 L T (128 - (- m_addr_b m) mod 128) (text_bits t) = false ->
  exists r, build_sel_bch32 L T m t = Ok r /\ select_bch32 L T r 0 = Ok (2 ^ 32 - 1) /\
    forall k, 1 <= k <= count_true (text_bits t) -> select_bch32 L T r k = Ok (sel_answer L (text_bits t) k).
Proof. exact bch_select32. Qed.
Print Assumptions C100_bch_select32_exact.
Example C100_bch_select32_case :
  let t := repeat 37 25 ++ repeat 0 4 ++ [1; 3; 255; 0; 17] in
  let B := text_bits t in
  arguments_ok32 true 4 20 = true /\ arguments_ok32 true 128 4096 = true /\ arguments_ok32 true 1024 16384 = true /\
  count_true B = 88 /\ groups 4 B = 22 /\ payload_too_large32 4 20 B = false /\ overflows32 4 20 16 B = false /\ misread 4 B = false /\
  (let* r := build_sel_bch32 4 20 (mem_of 3 16) t in mapM (select_bch32 4 20 r) [0; 1; 50; 66; 74; 75; 78; 88]) = Ok [4294967295; 2; 133; 175; 197; 199; 247; 271].
Proof. vm_compute. auto 12. Qed.

(** ** C101: when the constructor leaves its memory *)

(** The bytes of the last group were not counted, or 128 more than their number wraps
    around. *)
Theorem C101_std_overflow32 : forall L T m t, 1 <= L -> T < 2 ^ 32 -> arguments_ok32 false L T = true -> addresses_ok m -> text_ok t -> zlen t < 2 ^ 29 ->
  1 <= count_true (text_bits t) -> groups L (text_bits t) < 2 ^ 31 - 17 ->
  payload_too_large32 L T (text_bits t) = true \/ overflows32 L T (128 - (- m_addr_b m) mod 128) (text_bits t) = true -> build_sel32 L T m t = Ub UB_bounds.
Proof. exact std_overflow32. Qed.
Print Assumptions C101_std_overflow32.
Theorem C101_bch_overflow32 : forall L T m t, 1 <= L -> arguments_ok32 true L T = true -> addresses_ok m -> text_ok t -> zlen t < 2 ^ 29 ->
  1 <= count_true (text_bits t) -> groups L (text_bits t) < 2 ^ 31 - 17 ->
  payload_too_large32 L T (text_bits t) = true \/ overflows32 L T (128 - (- m_addr_b m) mod 128) (text_bits t) = true -> build_sel_bch32 L T m t = Ub UB_bounds.
Proof. exact bch_overflow32. Qed.
Print Assumptions C101_bch_overflow32.
Example C101_overflow32_case :
  let t := [248; 0; 8] in overflows32 12 20 16 (text_bits t) = true /\ overflows32 12 20 128 (text_bits t) = false /\ overflows32 12 21 16 (text_bits t) = false /\
  build_sel32 12 20 (mem_of 3 16) t = Ub UB_bounds /\ (let* r := build_sel32 12 20 (mem_of 3 0) t in mapM (select_std32 12 20 r) [1; 2; 3; 4; 5; 6]) = Ok [0; 1; 2; 3; 4; 20].
Proof. vm_compute. auto 10. Qed.

(** No ones at all: compressed headers. *)
Theorem C101_bch_no_ones32 : forall L T m t, 1 <= L -> arguments_ok32 true L T = true -> addresses_ok m -> text_ok t -> zlen t < 2 ^ 29 ->
  count_true (text_bits t) = 0 ->
  if zlen t - 1 <=? 128 - (- m_addr_b m) mod 128 then exists r, build_sel_bch32 L T m t = Ok r /\ select_bch32 L T r 0 = Ok (2 ^ 32 - 1)
  else build_sel_bch32 L T m t = Ub UB_bounds.
Proof. exact bch_zero32. Qed.
Print Assumptions C101_bch_no_ones32.
Example C101_bch_no_ones32_case : count_true (text_bits (repeat 0 17)) = 0 /\ (let* r := build_sel_bch32 4 20 (mem_of 3 16) (repeat 0 17) in Ok (sel_text_size32 r)) = Ok 17 /\
  build_sel_bch32 4 20 (mem_of 3 16) (repeat 0 18) = Ub UB_bounds.
Proof. vm_compute. auto. Qed.

(** Plain headers: it depends on an int that was never written. *)
Theorem C101_std_no_ones32 : forall L T m t, 1 <= L -> T < 2 ^ 32 -> arguments_ok32 false L T = true -> addresses_ok m -> text_ok t -> zlen t < 2 ^ 29 ->
  count_true (text_bits t) = 0 -> T <= u32 (m_junk_r m 2) < 2 ^ 32 - 1 -> 8 * zlen t <= u32 (m_junk_r m 2) ->
  exists r, build_sel32 L T m t = Ok r /\ select_std32 L T r 0 = Ok (2 ^ 32 - 1).
Proof. exact std_zero32. Qed.
Print Assumptions C101_std_no_ones32.
Example C101_std_no_ones32_case : (let* r := build_sel32 4 20 (mem_of 1000 16) (repeat 0 30) in Ok (sel_text_size32 r)) = Ok 30 /\
  build_sel32 4 20 (mem_of 0 16) (repeat 0 30) = Ub UB_bounds.
Proof. vm_compute. auto. Qed.

Theorem C101_build32_refuted : exists m t, addresses_ok m /\ text_ok t /\ count_true (text_bits t) = 6 /\
  build_sel32 12 20 m t = Ub UB_bounds /\ build_sel_bch32 12 20 m t = Ub UB_bounds.
Proof. exact bad_build32. Qed.
Print Assumptions C101_build32_refuted.
Theorem C101_no_ones32_refuted : exists m t, addresses_ok m /\ text_ok t /\ build_sel32 128 4096 m t = Ub UB_bounds /\ build_sel_bch32 128 4096 m t = Ub UB_bounds.
Proof. exact bad_zero32. Qed.
Print Assumptions C101_no_ones32_refuted.
(** A text of 2^29 - 1 bytes whose payload does not fit. *)
Theorem C101_payload32_refuted : exists m t, addresses_ok m /\ text_ok t /\ zlen t = 2 ^ 29 - 1 /\ payload_too_large32 2 3 (text_bits t) = true /\
  build_sel32 2 3 m t = Ub UB_bounds /\ build_sel_bch32 2 3 m t = Ub UB_bounds.
Proof. exact bad_payload32. Qed.
Print Assumptions C101_payload32_refuted.

(** ** C102: the arguments and the sizes *)
Theorem C102_arguments32 : forall bch L T, arguments_ok32 bch L T = true <-> L < T /\ (bch = true -> 4 * (L - 1) <= 4369 /\ T <= 8 * 4369 + 1).
Proof. exact arguments32_iff. Qed.
Print Assumptions C102_arguments32.
Example C102_arguments32_case : arguments_ok32 true 1093 34953 = true /\ arguments_ok32 true 1094 34953 = false /\ arguments_ok32 true 1093 34954 = false /\ arguments_ok32 false 7 7 = false.
Proof. auto. Qed.

Theorem C102_std_sizes32 : forall L T m t r, 1 <= L -> T < 2 ^ 32 -> arguments_ok32 false L T = true -> addresses_ok m -> text_ok t -> zlen t < 2 ^ 29 ->
  groups L (text_bits t) < 2 ^ 31 - 17 -> build_sel32 L T m t = Ok r ->
  sel_text_size32 r = zlen t /\
  sel_size32 r = 164 + 8 * groups L (text_bits t) + (if sel_payload32 L T (text_bits t) =? 0 then 0 else sel_payload32 L T (text_bits t) + 128).
Proof. exact std_sizes32. Qed.
Print Assumptions C102_std_sizes32.
Theorem C102_bch_sizes32 : forall L T m t r, 1 <= L -> arguments_ok32 true L T = true -> addresses_ok m -> text_ok t -> zlen t < 2 ^ 29 ->
  groups L (text_bits t) < 2 ^ 31 - 17 -> build_sel_bch32 L T m t = Ok r ->
  sel_text_size32 r = zlen t /\
  sel_size32 r = 156 + 100 * (groups L (text_bits t) / 16 + 1) + (if sel_payload32 L T (text_bits t) =? 0 then 0 else sel_payload32 L T (text_bits t) + 128).
Proof. exact bch_sizes32. Qed.
Print Assumptions C102_bch_sizes32.
Example C102_sizes32_case : let t := repeat 255 3 ++ [8] ++ repeat 0 8 ++ [3; 1; 255] in
  groups 4 (text_bits t) = 9 /\ sel_payload32 4 20 (text_bits t) = 12 /\
  (let* r := build_sel32 4 20 (mem_of 3 16) t in Ok (sel_size32 r)) = Ok 376 /\ (let* r := build_sel_bch32 4 20 (mem_of 3 16) t in Ok (sel_size32 r)) = Ok 396 /\
  (let* r := build_sel32 4 20 (mem_of 3 16) [255; 255] in Ok (sel_size32 r)) = Ok 196.
Proof. vm_compute. auto 10. Qed.
