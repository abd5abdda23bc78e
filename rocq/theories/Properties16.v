(** C66-C69: files and self tests of the structures of include/mranisz. *)
From Verif Require Import Base Spec SpecText SpecFile MrRank MrRankProps MrSelect MrFile MrFileProps.

(** ** C66: save() and load() of the rank structures *)

(** The file has the stated size.  Followed by anything, loaded in any memory, it
    gives a structure with the same answers and leaves the rest.  Any part of it
    makes load() exit. *)
Theorem C66_basic_file : forall m m' t, addresses_ok m -> addresses_ok m' -> text_ok t -> zlen t < 2 ^ 58 ->
  exists r f, build_std m t = Ok r /\ save_basic r = Ok f /\ zlen f = 32 + 16 * text_blocks t + 64 * kept_blocks t /\
    (forall rest, text_ok rest -> exists r', load_basic m' (f ++ rest) = Ok (Loaded r' rest) /\ basic_text_size r' = zlen t /\
       forall i, 0 <= i < 512 * text_blocks t -> rank_std r' i = Ok (ones_before (text_bits t) i)) /\
    (forall k, 0 <= k < zlen f -> load_basic m' (firstn (Z.to_nat k) f) = Ok Exits).
Proof. exact std_file. Qed.
Print Assumptions C66_basic_file.
Example C66_basic_file_case :
  let t := [1; 128; 3] in addresses_ok (mem_of 99 32) /\ text_ok t /\ ones_before (text_bits t) 9 = 2 /\
  (let* r := build_std (mem_of 99 32) t in let* f := save_basic r in let* x := load_basic (mem_of 7 48) (f ++ [5; 6]) in
   match x with Loaded r' rest => let* a := rank_std r' 9 in Ok (zlen f, rest, a) | Exits => Ok (0, [], 0) end) = Ok (112, [5; 6], 2).
Proof. split; [apply mem_of_ok; [lia|reflexivity]|]. split; [repeat constructor; lia|]. vm_compute. auto. Qed.

Theorem C66_bch_file : forall jf m m' t, addresses_ok m -> addresses_ok m' -> text_ok t -> zlen t < 2 ^ 58 ->
  exists r f, build_bch false jf m t = Ok r /\ save_basic r = Ok f /\ zlen f = 176 + 152 * (text_blocks t / 64) + 64 * kept_blocks t /\
    (forall rest, text_ok rest -> exists r', load_basic m' (f ++ rest) = Ok (Loaded r' rest) /\ basic_text_size r' = zlen t /\
       forall i, 0 <= i < 512 * text_blocks t \/ (1 <= kept_blocks t /\ i = 512 * text_blocks t) -> rank_bch r' i = Ok (ones_before (text_bits t) i)) /\
    (forall k, 0 <= k < zlen f -> load_basic m' (firstn (Z.to_nat k) f) = Ok Exits).
Proof. exact bch_file. Qed.
Print Assumptions C66_bch_file.
Example C66_bch_file_case :
  let t := [1; 128; 3] in kept_blocks t = 1 /\
  (let* r := build_bch false (fun _ => 0) (mem_of 99 32) t in let* f := save_basic r in let* x := load_basic (mem_of 7 48) (f ++ [5; 6]) in
   match x with Loaded r' rest => let* a := rank_bch r' 512 in Ok (zlen f, rest, a) | Exits => Ok (0, [], 0) end) = Ok (240, [5; 6], 4).
Proof. vm_compute. auto. Qed.

Theorem C66_cf_file : forall m m' t, addresses_ok m -> addresses_ok m' -> text_ok t -> zlen t < 2 ^ 58 ->
  ~ (1 <= text_blocks t /\ forall b, 0 <= b < text_blocks t -> uniform_block t b) ->
  exists r f, build_cf m t = Ok r /\ save_cf r = Ok f /\ zlen f = 40 + 56 * kept_blocks t + 16 * text_blocks t /\
    (forall rest, text_ok rest -> exists r', load_cf m' (f ++ rest) = Ok (Loaded r' rest) /\ cf_text_size r' = zlen t /\
       forall i, 0 <= i < 512 * text_blocks t -> rank_of_cf r' i = Ok (ones_before (text_bits t) i)) /\
    (forall k, 0 <= k < zlen f -> load_cf m' (firstn (Z.to_nat k) f) = Ok Exits).
Proof. exact cf_file. Qed.
Print Assumptions C66_cf_file.
Example C66_cf_file_case :
  let t := [1; 128; 3] in kept_blocks t = 1 /\ text_blocks t = 1 /\
  (let* r := build_cf (mem_of 99 32) t in let* f := save_cf r in let* x := load_cf (mem_of 7 48) (f ++ [5; 6]) in
   match x with Loaded r' rest => let* a := rank_of_cf r' 9 in Ok (zlen f, rest, a) | Exits => Ok (0, [], 0) end) = Ok (112, [5; 6], 2) /\
  (let* r := build_cf (mem_of 99 32) t in let* f := save_cf r in load_cf (mem_of 7 48) (firstn 111 f)) = Ok Exits.
Proof. vm_compute. auto. Qed.

(** ** C67: save() and load() of the select structure *)
Theorem C67_std_file : forall L T m m' t, 1 <= L -> T < 2 ^ 32 -> arguments_ok false L T = true -> addresses_ok m -> bytes_ok m -> addresses_ok m' -> text_ok t ->
  zlen t < 2 ^ 57 -> 1 <= count_true (text_bits t) -> overflows L T (128 - (- m_addr_b m) mod 128) (text_bits t) = false -> lost L T (text_bits t) = false ->
  exists r f, build_sel L T m t = Ok r /\ save_sel r = Ok f /\ zlen f = 40 + 16 * groups L (text_bits t) + sel_payload L T (text_bits t) /\
    (forall rest, text_ok rest -> exists r', load_sel m' (f ++ rest) = Ok (Loaded r' rest) /\ sel_text_size r' = zlen t /\
       forall k, 1 <= k <= count_true (text_bits t) -> select_std L T r' k = Ok (sel_answer L (text_bits t) k)) /\
    (forall k, 0 <= k < zlen f -> load_sel m' (firstn (Z.to_nat k) f) = Ok Exits).
Proof. exact std_sel_file. Qed.
Print Assumptions C67_std_file.
Example C67_std_file_case :
  let t := [129; 128; 1; 1; 7] in lost 4 20 (text_bits t) = false /\ count_true (text_bits t) = 8 /\ nth_one (text_bits t) 5 = 31 /\
  (let* r := build_sel 4 20 (mem_of 99 32) t in let* f := save_sel r in let* x := load_sel (mem_of 7 48) (f ++ [5; 6]) in
   match x with Loaded r' rest => let* a := select_std 4 20 r' 5 in Ok (zlen f, rest, a) | Exits => Ok (0, [], 0) end) = Ok (98, [5; 6], 31).
Proof. vm_compute. auto. Qed.

Theorem C67_bch_file : forall L T m m' t, 1 <= L -> arguments_ok true L T = true -> addresses_ok m -> bytes_ok m -> addresses_ok m' -> text_ok t -> zlen t < 2 ^ 57 ->
  1 <= count_true (text_bits t) -> groups L (text_bits t) < 2 ^ 31 - 1 -> overflows L T (128 - (- m_addr_b m) mod 128) (text_bits t) = false -> lost L T (text_bits t) = false ->
  exists r f, build_sel_bch L T m t = Ok r /\ save_sel r = Ok f /\ zlen f = 192 + 168 * (groups L (text_bits t) / 16) + sel_payload L T (text_bits t) /\
    (forall rest, text_ok rest -> exists r', load_sel m' (f ++ rest) = Ok (Loaded r' rest) /\ sel_text_size r' = zlen t /\
       forall k, 1 <= k <= count_true (text_bits t) -> select_bch L T r' k = Ok (sel_answer L (text_bits t) k)) /\
    (forall k, 0 <= k < zlen f -> load_sel m' (firstn (Z.to_nat k) f) = Ok Exits).
Proof. exact bch_sel_file. Qed.
Print Assumptions C67_bch_file.
Example C67_bch_file_case :
  let t := [129; 128; 1; 1; 7] in
  (let* r := build_sel_bch 4 20 (mem_of 99 32) t in let* f := save_sel r in let* x := load_sel (mem_of 7 48) (f ++ [5; 6]) in
   match x with Loaded r' rest => let* a := select_bch 4 20 r' 5 in Ok (zlen f, rest, a) | Exits => Ok (0, [], 0) end) = Ok (218, [5; 6], 31).
Proof. vm_compute. reflexivity. Qed.

(** The condition is exact: otherwise there is a memory in which the loaded
    structure gives another answer for the last one. *)
Theorem C67_std_lost : forall L T m t, 1 <= L -> T < 2 ^ 32 -> arguments_ok false L T = true -> addresses_ok m -> bytes_ok m -> text_ok t -> zlen t < 2 ^ 57 ->
  overflows L T (128 - (- m_addr_b m) mod 128) (text_bits t) = false -> lost L T (text_bits t) = true ->
  let n := count_true (text_bits t) in
  exists m' r f r', addresses_ok m' /\ bytes_ok m' /\ build_sel L T m t = Ok r /\ select_std L T r n = Ok (nth_one (text_bits t) n) /\
    save_sel r = Ok f /\ load_sel m' f = Ok (Loaded r' []) /\ select_std L T r' n <> Ok (nth_one (text_bits t) n).
Proof. exact std_sel_lost. Qed.
Print Assumptions C67_std_lost.
Theorem C67_bch_lost : forall L T m t, 1 <= L -> arguments_ok true L T = true -> addresses_ok m -> bytes_ok m -> text_ok t -> zlen t < 2 ^ 57 ->
  overflows L T (128 - (- m_addr_b m) mod 128) (text_bits t) = false -> lost L T (text_bits t) = true ->
  let n := count_true (text_bits t) in
  exists m' r f r', addresses_ok m' /\ bytes_ok m' /\ build_sel_bch L T m t = Ok r /\ select_bch L T r n = Ok (nth_one (text_bits t) n) /\
    save_sel r = Ok f /\ load_sel m' f = Ok (Loaded r' []) /\ select_bch L T r' n <> Ok (nth_one (text_bits t) n).
Proof. exact bch_sel_lost. Qed.
Print Assumptions C67_bch_lost.
Example C67_lost_case : lost 128 4096 (text_bits [128; 128]) = true /\ overflows 128 4096 16 (text_bits [128; 128]) = false /\ lost 128 4096 (text_bits [128; 192]) = false /\
  lost 6 20 (text_bits [240; 0; 8]) = true /\ overflows 6 20 128 (text_bits [240; 0; 8]) = false.
Proof. vm_compute. auto 6. Qed.

(** Two ones, at 0 and 8: after loading, the second one is reported at 9. *)
Theorem C67_std_file_refuted : exists m m' t r f r', addresses_ok m /\ addresses_ok m' /\ text_ok t /\ build_sel 128 4096 m t = Ok r /\ select_std 128 4096 r 2 = Ok 8 /\
  save_sel r = Ok f /\ load_sel m' f = Ok (Loaded r' []) /\ select_std 128 4096 r' 2 = Ok 9.
Proof. exact sel_file_bad. Qed.
Print Assumptions C67_std_file_refuted.
(** A single one at 0: after loading, in every memory, select(1) reads through a
    null pointer. *)
Theorem C67_std_file_null_refuted : exists m t r f, addresses_ok m /\ text_ok t /\ build_sel 128 4096 m t = Ok r /\ select_std 128 4096 r 1 = Ok 0 /\ save_sel r = Ok f /\
  forall m', addresses_ok m' -> exists r', load_sel m' f = Ok (Loaded r' []) /\ select_std 128 4096 r' 1 = Ub UB_bounds.
Proof. exact sel_file_null. Qed.
Print Assumptions C67_std_file_null_refuted.

(** ** C68: load() of any file *)
Theorem C68_basic_any : forall m f, addresses_ok m -> text_ok f -> let a := field f 8 in let b := field f (16 + 8 * a) in a < 2 ^ 64 - 16 -> b < 2 ^ 64 - 16 ->
  if zlen f <? 24 + 8 * a + 8 * b then load_basic m f = Ok Exits
  else exists r, load_basic m f = Ok (Loaded r (skipn (Z.to_nat (24 + 8 * a + 8 * b)) f)) /\ basic_text_size r = field f 0 /\
    (forall k, 0 <= k < a -> zn 0 (rb_ranks r) k = field f (16 + 8 * k)) /\ (forall k, 0 <= k < b -> zn 0 (rb_bits r) k = field f (24 + 8 * a + 8 * k)).
Proof. exact basic_any. Qed.
Print Assumptions C68_basic_any.
Theorem C68_cf_any : forall m f, addresses_ok m -> text_ok f -> let b := field f 24 in b < 2 ^ 64 - 16 ->
  if zlen f <? 32 + 8 * b then load_cf m f = Ok Exits
  else exists r, load_cf m f = Ok (Loaded r (skipn (Z.to_nat (32 + 8 * b)) f)) /\ cf_text_size r = field f 0 /\ cf_border r = field f 8 /\ cf_block_border r = field f 16 /\
    (forall k, 0 <= k < b -> zn 0 (cf_bits r) k = field f (32 + 8 * k)).
Proof. exact cf_any. Qed.
Print Assumptions C68_cf_any.
Theorem C68_sel_any : forall m f, addresses_ok m -> text_ok f -> let a := field f 8 in let b := field f (16 + 8 * a) in a < 2 ^ 64 - 16 -> b < 2 ^ 64 - 128 ->
  if zlen f <? 24 + 8 * a + b then load_sel m f = Ok Exits
  else exists r, load_sel m f = Ok (Loaded r (skipn (Z.to_nat (24 + 8 * a + b)) f)) /\ sel_text_size r = field f 0 /\
    (forall k, 0 <= k < a -> zn 0 (sb_selects r) k = field f (16 + 8 * k)) /\ (forall k, 0 <= k < b -> zn 0 (sb_bits r) k = zn 0 f (24 + 8 * a + k)).
Proof. exact sel_any. Qed.
Print Assumptions C68_sel_any.
Example C68_any_case :
  let f := [9; 1; 0; 0; 0; 0; 0; 0] ++ [1; 0; 0; 0; 0; 0; 0; 0] ++ [0; 2; 0; 0; 0; 0; 0; 0] ++ [2; 0; 0; 0; 0; 0; 0; 0] ++ [77; 78; 79] in
  field f 0 = 265 /\ field f 8 = 1 /\ field f 24 = 2 /\
  (let* x := load_sel (mem_of 7 48) f in match x with Loaded r rest => Ok (sel_text_size r, zn 0 (sb_selects r) 0, zn 0 (sb_bits r) 1, rest) | Exits => Ok (0, 0, 0, []) end) = Ok (265, 512, 78, [79]) /\
  load_basic (mem_of 7 48) f = Ok Exits /\ load_cf (mem_of 7 48) f = Ok Exits.
Proof. vm_compute. auto 6. Qed.

(** A length from 2^64-16 on wraps in new[len + 16]: the file is read past the array. *)
Theorem C68_basic_wraps : forall m f, addresses_ok m -> text_ok f -> 136 < zlen f -> 2 ^ 64 - 16 <= field f 8 -> load_basic m f = Ub UB_bounds.
Proof. exact basic_over. Qed.
Print Assumptions C68_basic_wraps.
Theorem C68_cf_wraps : forall m f, addresses_ok m -> text_ok f -> 152 < zlen f -> 2 ^ 64 - 16 <= field f 24 -> load_cf m f = Ub UB_bounds.
Proof. exact cf_over. Qed.
Print Assumptions C68_cf_wraps.
Theorem C68_sel_wraps : forall m f, addresses_ok m -> text_ok f -> 136 < zlen f -> 2 ^ 64 - 16 <= field f 8 -> load_sel m f = Ub UB_bounds.
Proof. exact sel_over. Qed.
Print Assumptions C68_sel_wraps.
Example C68_wraps_case : let f := put64 1 ++ put64 (2 ^ 64 - 3) ++ repeat 5 137 in field f 8 = 2 ^ 64 - 3 /\ zlen f = 153 /\ load_basic (mem_of 7 48) f = Ub UB_bounds.
Proof. vm_compute. auto. Qed.

(** Seventeen bytes are enough. *)
Theorem C68_load_refuted : exists m f, addresses_ok m /\ text_ok f /\ zlen f = 17 /\ load_basic m f = Ub UB_bounds /\ load_sel m f = Ub UB_bounds.
Proof. exact load_over_bad. Qed.
Print Assumptions C68_load_refuted.
(** A file of zeros is accepted, and every query then reads through a null pointer. *)
Theorem C68_query_refuted : exists f, text_ok f /\ forall m, exists r s, load_basic m f = Ok (Loaded r []) /\ rank_std r 0 = Ub UB_bounds /\ rank_bch r 0 = Ub UB_bounds /\
  load_sel m f = Ok (Loaded s []) /\ select_std 128 4096 s 1 = Ub UB_bounds.
Proof. exact load_zero_bad. Qed.
Print Assumptions C68_query_refuted.

(** ** C69: the self tests *)

(** testRank and testSelect print nothing exactly if every answer is right. *)
Theorem C69_rank_test : forall rank t, zlen t < 2 ^ 58 ->
  test_rank rank t = Ok [] <-> forall i, 1 <= i <= zlen (text_bits t) -> rank i = Ok (ones_before (text_bits t) i).
Proof. exact rank_test. Qed.
Print Assumptions C69_rank_test.
Theorem C69_select_test : forall select t, zlen t < 2 ^ 58 ->
  test_select select t = Ok [] <-> forall k, 1 <= k <= count_true (text_bits t) -> select k = Ok (nth_one (text_bits t) k).
Proof. exact select_test. Qed.
Print Assumptions C69_select_test.
Example C69_test_case : test_rank (fun i => Ok (if i =? 8 then 1 else 0)) [1] = Ok [] /\ test_rank (fun i => Ok (i / 7)) [1] = Ok [(7, 0, 1)] /\
  test_select (fun k => Ok (8 * k - 1)) [1; 1] = Ok [] /\ test_select (fun k => Ok k) [1; 1] = Ok [(1, 7, 1); (2, 15, 2)].
Proof. vm_compute. auto. Qed.

Theorem C69_basic_self_test : forall m t, addresses_ok m -> text_ok t -> zlen t < 2 ^ 58 -> zlen t mod 64 <> 0 ->
  exists r, build_std m t = Ok r /\ test_rank (rank_std r) t = Ok [].
Proof. exact std_self_test. Qed.
Print Assumptions C69_basic_self_test.
Theorem C69_bch_self_test : forall jf m t, addresses_ok m -> text_ok t -> zlen t < 2 ^ 58 ->
  exists r, build_bch false jf m t = Ok r /\ test_rank (rank_bch r) t = Ok [].
Proof. exact bch_self_test. Qed.
Print Assumptions C69_bch_self_test.
Theorem C69_cf_self_test : forall m t, addresses_ok m -> text_ok t -> zlen t < 2 ^ 58 -> zlen t mod 64 <> 0 ->
  exists r, build_cf m t = Ok r /\ test_rank (rank_of_cf r) t = Ok [].
Proof. exact cf_self_test. Qed.
Print Assumptions C69_cf_self_test.
Theorem C69_std_select_self_test : forall L T m t, 1 <= L -> T < 2 ^ 32 -> arguments_ok false L T = true -> addresses_ok m -> text_ok t -> zlen t < 2 ^ 58 ->
  1 <= count_true (text_bits t) -> overflows L T (128 - (- m_addr_b m) mod 128) (text_bits t) = false ->
  exists r, build_sel L T m t = Ok r /\ (test_select (select_std L T r) t = Ok [] <-> misread L (text_bits t) = false).
Proof. exact std_sel_test. Qed.
Print Assumptions C69_std_select_self_test.
Theorem C69_bch_select_self_test : forall L T m t, 1 <= L -> arguments_ok true L T = true -> addresses_ok m -> text_ok t -> zlen t < 2 ^ 58 ->
  1 <= count_true (text_bits t) -> groups L (text_bits t) < 2 ^ 31 - 1 -> overflows L T (128 - (- m_addr_b m) mod 128) (text_bits t) = false ->
  exists r, build_sel_bch L T m t = Ok r /\ (test_select (select_bch L T r) t = Ok [] <-> misread L (text_bits t) = false).
Proof. exact bch_sel_test. Qed.
Print Assumptions C69_bch_select_self_test.
Example C69_self_test_case : (let* r := build_std (mem_of 99 32) [9; 200] in test_rank (rank_std r) [9; 200]) = Ok [] /\
  (let* r := build_sel 4 20 (mem_of 99 32) [9; 200] in test_select (select_std 4 20 r) [9; 200]) = Ok [] /\
  (let* r := build_sel 8 20 (mem_of 99 32) [1] in test_select (select_std 8 20 r) [1]) = Ok [(1, 7, 0)].
Proof. vm_compute. auto. Qed.

(** For a text of whole blocks testRank can fail although nothing is wrong before the end. *)
Theorem C69_basic_self_test_refuted : exists m t r, addresses_ok m /\ text_ok t /\ build_std m t = Ok r /\ test_rank (rank_std r) t <> Ok [].
Proof. exact std_test_bad. Qed.
Print Assumptions C69_basic_self_test_refuted.
