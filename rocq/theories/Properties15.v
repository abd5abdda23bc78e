(** C62-C65: SelectBasic64 of include/mranisz (both header types). *)
From Verif Require Import Base Trees Spec SpecText MrRank MrRankProps MrSelect MrSelectProps.

(** ** C62: select with plain headers *)
Theorem C62_std_select : forall L T m t, 1 <= L -> T < 2 ^ 32 -> arguments_ok false L T = true -> addresses_ok m -> text_ok t -> zlen t < 2 ^ 58 ->
  1 <= count_true (text_bits t) -> overflows L T (128 - (- m_addr_b m) mod 128) (text_bits t) = false -> misread L (text_bits t) = false ->
  exists r, build_sel L T m t = Ok r /\
    forall k, 1 <= k <= count_true (text_bits t) -> exists p, select_std L T r k = Ok p /\ is_select (text_bits t) (k - 1) p.
Proof. exact std_right. Qed.
Print Assumptions C62_std_select.
Example C62_std_select_case :
  let t := repeat 255 3 ++ [8] ++ repeat 0 8 ++ [3; 1; 255] in
  let B := text_bits t in
  arguments_ok false 4 20 = true /\ count_true B = 36 /\ overflows 4 20 16 B = false /\ misread 4 B = false /\
  (let* r := build_sel 4 20 (mem_of 3 16) t in mapM (select_std 4 20 r) [7; 25; 26; 27; 28; 36]) = Ok [6; 28; 102; 103; 111; 119].
Proof. vm_compute. auto 10. Qed.

(** All cases that can be built, also those answered wrongly. *)
Theorem C62_std_select_exact : forall L T m t, 1 <= L -> T < 2 ^ 32 -> arguments_ok false L T = true -> addresses_ok m -> text_ok t -> zlen t < 2 ^ 58 ->
  1 <= count_true (text_bits t) -> overflows L T (128 - (- m_addr_b m) mod 128) (text_bits t) = false ->
  exists r, build_sel L T m t = Ok r /\ select_std L T r 0 = Ok (2 ^ 64 - 1) /\
    forall k, 1 <= k <= count_true (text_bits t) -> select_std L T r k = Ok (sel_answer L (text_bits t) k).
Proof. exact std_select. Qed.
Print Assumptions C62_std_select_exact.
Example C62_std_select_exact_case :
  let t := [1; 128; 0; 1] in let B := text_bits t in
  misread 2 B = false /\ misread 24 B = false /\ misread 32 B = true /\ overflows 32 40 16 B = false /\
  (let* r := build_sel 32 40 (mem_of 3 16) t in mapM (select_std 32 40 r) [1; 2; 3]) = Ok [0; 1; 2] /\ map (sel_answer 32 B) [1; 2; 3] = [0; 1; 2] /\ one_positions B = [7; 8; 31].
Proof. vm_compute. auto 10. Qed.

(** What the two answers are: the position of the k-th one, and something else
    for the last one of a misread group. *)
Theorem C62_answer_right : forall L t k, 1 <= L -> misread L (text_bits t) = false -> 1 <= k <= count_true (text_bits t) ->
  is_select (text_bits t) (k - 1) (sel_answer L (text_bits t) k).
Proof. exact answer_is_right. Qed.
Print Assumptions C62_answer_right.
Theorem C62_answer_wrong : forall L t, 1 <= L -> misread L (text_bits t) = true ->
  ~ is_select (text_bits t) (count_true (text_bits t) - 1) (sel_answer L (text_bits t) (count_true (text_bits t))).
Proof. exact answer_is_wrong. Qed.
Print Assumptions C62_answer_wrong.
Example C62_answer_case : misread 4 (text_bits [1; 1; 1]) = false /\ misread 8 (text_bits [1]) = true /\ sel_answer 8 (text_bits [1]) 1 = 0 /\ one_positions (text_bits [1]) = [7].
Proof. vm_compute. auto. Qed.

(** One set bit, at position 127: select(1) is 0. *)
Theorem C62_std_select_refuted : exists m t r, addresses_ok m /\ text_ok t /\ build_sel 128 4096 m t = Ok r /\ select_std 128 4096 r 1 = Ok 0 /\
  bit (text_bits t) 0 = false /\ is_select (text_bits t) 0 127.
Proof. exact bad_answer. Qed.
Print Assumptions C62_std_select_refuted.

(** ** C63: select with compressed headers *)
Theorem C63_bch_select : forall L T m t, 1 <= L -> arguments_ok true L T = true -> addresses_ok m -> text_ok t -> zlen t < 2 ^ 58 ->
  1 <= count_true (text_bits t) -> groups L (text_bits t) < 2 ^ 31 - 1 -> overflows L T (128 - (- m_addr_b m) mod 128) (text_bits t) = false ->
  misread L (text_bits t) = false ->
  exists r, build_sel_bch L T m t = Ok r /\
    forall k, 1 <= k <= count_true (text_bits t) -> exists p, select_bch L T r k = Ok p /\ is_select (text_bits t) (k - 1) p.
Proof. exact bch_right. Qed.
Print Assumptions C63_bch_select.
Theorem C63_bch_select_exact : forall L T m t, 1 <= L -> arguments_ok true L T = true -> addresses_ok m -> text_ok t -> zlen t < 2 ^ 58 ->
  1 <= count_true (text_bits t) -> groups L (text_bits t) < 2 ^ 31 - 1 -> overflows L T (128 - (- m_addr_b m) mod 128) (text_bits t) = false ->
  exists r, build_sel_bch L T m t = Ok r /\ select_bch L T r 0 = Ok (2 ^ 64 - 1) /\
    forall k, 1 <= k <= count_true (text_bits t) -> select_bch L T r k = Ok (sel_answer L (text_bits t) k).
Proof. exact bch_select. Qed.
Print Assumptions C63_bch_select_exact.
Example C63_bch_select_case :
  let t := repeat 37 25 ++ repeat 0 4 ++ [1; 3; 255; 0; 17] in
  let B := text_bits t in
  arguments_ok true 4 20 = true /\ arguments_ok true 128 4096 = true /\ arguments_ok true 512 8192 = true /\
  count_true B = 88 /\ groups 4 B = 22 /\ overflows 4 20 16 B = false /\ misread 4 B = false /\
  (let* r := build_sel_bch 4 20 (mem_of 3 16) t in mapM (select_bch 4 20 r) [1; 50; 66; 74; 75; 78; 88]) = Ok [2; 133; 175; 197; 199; 247; 271].
Proof. vm_compute. auto 12. Qed.

(** ** C64: when the constructor writes past its memory *)
Theorem C64_std_overflow : forall L T m t, 1 <= L -> T < 2 ^ 32 -> arguments_ok false L T = true -> addresses_ok m -> text_ok t -> zlen t < 2 ^ 58 ->
  1 <= count_true (text_bits t) -> overflows L T (128 - (- m_addr_b m) mod 128) (text_bits t) = true -> build_sel L T m t = Ub UB_bounds.
Proof. exact std_overflow. Qed.
Print Assumptions C64_std_overflow.
Theorem C64_bch_overflow : forall L T m t, 1 <= L -> arguments_ok true L T = true -> addresses_ok m -> text_ok t -> zlen t < 2 ^ 58 ->
  1 <= count_true (text_bits t) -> groups L (text_bits t) < 2 ^ 31 - 1 -> overflows L T (128 - (- m_addr_b m) mod 128) (text_bits t) = true ->
  build_sel_bch L T m t = Ub UB_bounds.
Proof. exact bch_overflow. Qed.
Print Assumptions C64_bch_overflow.
Example C64_overflow_case :
  let t := [240; 0; 8] in overflows 6 20 16 (text_bits t) = true /\ overflows 6 20 128 (text_bits t) = false /\ overflows 6 21 16 (text_bits t) = false /\
  build_sel 6 20 (mem_of 3 16) t = Ub UB_bounds /\ (let* r := build_sel 6 20 (mem_of 3 0) t in mapM (select_std 6 20 r) [1; 2; 3; 4; 5]) = Ok [0; 1; 2; 3; 20].
Proof. vm_compute. auto 10. Qed.

(** No ones at all: compressed headers. *)
Theorem C64_bch_no_ones : forall L T m t, 1 <= L -> arguments_ok true L T = true -> addresses_ok m -> text_ok t -> zlen t < 2 ^ 58 ->
  count_true (text_bits t) = 0 ->
  if zlen t - 1 <=? 128 - (- m_addr_b m) mod 128 then exists r, build_sel_bch L T m t = Ok r /\ select_bch L T r 0 = Ok (2 ^ 64 - 1)
  else build_sel_bch L T m t = Ub UB_bounds.
Proof. exact bch_zero. Qed.
Print Assumptions C64_bch_no_ones.
Example C64_bch_no_ones_case : count_true (text_bits (repeat 0 17)) = 0 /\ (let* r := build_sel_bch 4 20 (mem_of 3 16) (repeat 0 17) in Ok (sel_text_size r)) = Ok 17 /\
  build_sel_bch 4 20 (mem_of 3 16) (repeat 0 18) = Ub UB_bounds.
Proof. vm_compute. auto. Qed.

(** Plain headers: it depends on a word that was never written. *)
Theorem C64_std_no_ones : forall L T m t, 1 <= L -> T < 2 ^ 32 -> arguments_ok false L T = true -> addresses_ok m -> text_ok t -> zlen t < 2 ^ 58 ->
  count_true (text_bits t) = 0 -> T <= m_junk_r m 2 < 2 ^ 64 - 1 -> 8 * zlen t <= m_junk_r m 2 ->
  exists r, build_sel L T m t = Ok r /\ select_std L T r 0 = Ok (2 ^ 64 - 1).
Proof. exact std_zero. Qed.
Print Assumptions C64_std_no_ones.
Example C64_std_no_ones_case : (let* r := build_sel 4 20 (mem_of 1000 16) (repeat 0 30) in Ok (sel_text_size r)) = Ok 30 /\
  build_sel 4 20 (mem_of 0 16) (repeat 0 30) = Ub UB_bounds.
Proof. vm_compute. auto. Qed.

Theorem C64_build_refuted : exists m t, addresses_ok m /\ text_ok t /\ count_true (text_bits t) = 90 /\
  build_sel 128 4096 m t = Ub UB_bounds /\ build_sel_bch 128 4096 m t = Ub UB_bounds.
Proof. exact bad_build. Qed.
Print Assumptions C64_build_refuted.
Theorem C64_no_ones_refuted : exists m t, addresses_ok m /\ text_ok t /\ build_sel 128 4096 m t = Ub UB_bounds /\ build_sel_bch 128 4096 m t = Ub UB_bounds.
Proof. exact bad_zero. Qed.
Print Assumptions C64_no_ones_refuted.

(** ** C65: the arguments and the sizes *)

(** What the constructor accepts: 4369 bytes is a sixteenth of 2^16. *)
Theorem C65_arguments : forall bch L T, arguments_ok bch L T = true <-> L < T /\ (bch = true -> 8 * (L - 1) <= 4369 /\ T <= 8 * 4369 + 1).
Proof. exact arguments_iff. Qed.
Print Assumptions C65_arguments.
Example C65_arguments_case : arguments_ok true 547 34953 = true /\ arguments_ok true 548 34953 = false /\ arguments_ok true 547 34954 = false /\ arguments_ok false 7 7 = false.
Proof. auto. Qed.

Theorem C65_std_sizes : forall L T m t r, 1 <= L -> T < 2 ^ 32 -> arguments_ok false L T = true -> addresses_ok m -> text_ok t -> zlen t < 2 ^ 56 ->
  build_sel L T m t = Ok r ->
  sel_text_size r = zlen t /\
  sel_size r = 184 + 16 * groups L (text_bits t) + (if sel_payload L T (text_bits t) =? 0 then 0 else sel_payload L T (text_bits t) + 128).
Proof. exact std_sizes. Qed.
Print Assumptions C65_std_sizes.
Theorem C65_bch_sizes : forall L T m t r, 1 <= L -> arguments_ok true L T = true -> addresses_ok m -> text_ok t -> zlen t < 2 ^ 56 ->
  build_sel_bch L T m t = Ok r ->
  sel_text_size r = zlen t /\
  sel_size r = 168 + 168 * (groups L (text_bits t) / 16 + 1) + (if sel_payload L T (text_bits t) =? 0 then 0 else sel_payload L T (text_bits t) + 128).
Proof. exact bch_sel_sizes. Qed.
Print Assumptions C65_bch_sizes.
Example C65_sizes_case : let t := repeat 255 3 ++ [8] ++ repeat 0 8 ++ [3; 1; 255] in
  groups 4 (text_bits t) = 9 /\ sel_payload 4 20 (text_bits t) = 24 /\
  (let* r := build_sel 4 20 (mem_of 3 16) t in Ok (sel_size r)) = Ok 480 /\ (let* r := build_sel_bch 4 20 (mem_of 3 16) t in Ok (sel_size r)) = Ok 488 /\
  (let* r := build_sel 4 20 (mem_of 3 16) [255; 255] in Ok (sel_size r)) = Ok 248.
Proof. vm_compute. auto 10. Qed.
