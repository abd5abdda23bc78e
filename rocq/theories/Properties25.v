(** C92-C94: files and self test of RankBasic32 and RankCF32. *)
From Verif Require Import Base MemFacts Spec SpecText SpecText32 SpecFile SpecFile32 MrRank MrRankProps MrFile MrRank32 MrRank32Props MrFile32Props.

(** ** C92: save() and load() *)

(** The file has the stated size.  Followed by anything, loaded in any memory, it
    gives a structure with the same answers and leaves the rest.  Any part of it
    makes load() exit. *)
Theorem C92_basic_file32 : forall m m' t, addresses_ok m -> addresses_ok m' -> text_ok t -> zlen t <= 2 ^ 32 - 64 ->
  exists r f, build_std32 m t = Ok r /\ save_basic32 r = Ok f /\ zlen f = 16 + 8 * text_blocks t + 64 * kept_blocks t /\
    (forall rest, text_ok rest -> exists r', load_basic32 m' (f ++ rest) = Ok (Loaded r' rest) /\ basic_text_size32 r' = zlen t /\
       forall i, 0 <= i < 512 * text_blocks t -> i < 2 ^ 32 -> rank_std32 r' i = Ok (ones_before (text_bits t) i)) /\
    (forall k, 0 <= k < zlen f -> load_basic32 m' (firstn (Z.to_nat k) f) = Ok Exits).
Proof. exact std_file32. Qed.
Print Assumptions C92_basic_file32.
Example C92_basic_file32_case :
  let t := [1; 128; 3] in addresses_ok (mem_of 99 32) /\ text_ok t /\ ones_before (text_bits t) 9 = 2 /\
  (let* r := build_std32 (mem_of 99 32) t in let* f := save_basic32 r in let* x := load_basic32 (mem_of 7 48) (f ++ [5; 6]) in
   match x with Loaded r' rest => let* a := rank_std32 r' 9 in Ok (zlen f, rest, a) | Exits => Ok (0, [], 0) end) = Ok (88, [5; 6], 2).
Proof. split; [apply mem_of_ok; [lia|reflexivity]|]. split; [repeat constructor; lia|]. vm_compute. auto. Qed.

Theorem C92_bch_file32 : forall jf m m' t, addresses_ok m -> addresses_ok m' -> text_ok t -> zlen t <= 2 ^ 32 - 64 ->
  exists r f, build_bch32 false jf m t = Ok r /\ save_basic32 r = Ok f /\ zlen f = 88 + 76 * (text_blocks t / 32) + 64 * kept_blocks t /\
    (forall rest, text_ok rest -> exists r', load_basic32 m' (f ++ rest) = Ok (Loaded r' rest) /\ basic_text_size32 r' = zlen t /\
       forall i, 0 <= i < 512 * text_blocks t \/ (1 <= kept_blocks t /\ i = 512 * text_blocks t) -> i < 2 ^ 32 -> rank_bch32 r' i = Ok (ones_before (text_bits t) i)) /\
    (forall k, 0 <= k < zlen f -> load_basic32 m' (firstn (Z.to_nat k) f) = Ok Exits).
Proof. exact bch_file32. Qed.
Print Assumptions C92_bch_file32.
Example C92_bch_file32_case :
  let t := [1; 128; 3] in kept_blocks t = 1 /\
  (let* r := build_bch32 false (fun _ => 0) (mem_of 99 32) t in let* f := save_basic32 r in let* x := load_basic32 (mem_of 7 48) (f ++ [5; 6]) in
   match x with Loaded r' rest => let* a := rank_bch32 r' 512 in Ok (zlen f, rest, a) | Exits => Ok (0, [], 0) end) = Ok (152, [5; 6], 4).
Proof. vm_compute. auto. Qed.

Theorem C92_cf_file32 : forall m m' t, addresses_ok m -> addresses_ok m' -> text_ok t -> zlen t <= 2 ^ 32 - 64 ->
  ~ (1 <= text_blocks t /\ forall b, 0 <= b < text_blocks t -> uniform_block t b) ->
  exists r f, build_cf32 m t = Ok r /\ save_cf32 r = Ok f /\ zlen f = 20 + 60 * kept_blocks t + 8 * text_blocks t /\
    (forall rest, text_ok rest -> exists r', load_cf32 m' (f ++ rest) = Ok (Loaded r' rest) /\ cf_text_size32 r' = zlen t /\
       forall al i, 0 <= i < 512 * text_blocks t -> i < 2 ^ 32 ->
         rank_of_cf32 al r' i = if al && has_both t (i / 512) && Z.even (cf_place t (i / 512)) then Ub UB_align else Ok (ones_before (text_bits t) i)) /\
    (forall k, 0 <= k < zlen f -> load_cf32 m' (firstn (Z.to_nat k) f) = Ok Exits).
Proof. exact cf_file32. Qed.
Print Assumptions C92_cf_file32.
Example C92_cf_file32_case :
  let t := [1; 128; 3] in kept_blocks t = 1 /\ text_blocks t = 1 /\
  (let* r := build_cf32 (mem_of 99 32) t in let* f := save_cf32 r in let* x := load_cf32 (mem_of 7 48) (f ++ [5; 6]) in
   match x with Loaded r' rest => let* a := rank_of_cf32 false r' 9 in Ok (zlen f, rest, a) | Exits => Ok (0, [], 0) end) = Ok (88, [5; 6], 2) /\
  (let* r := build_cf32 (mem_of 99 32) t in let* f := save_cf32 r in load_cf32 (mem_of 7 48) (firstn 87 f)) = Ok Exits.
Proof. vm_compute. auto. Qed.

(** ** C93: load() of any file *)
Theorem C93_basic_any32 : forall m f, addresses_ok m -> text_ok f -> let a := int_field f 4 in let b := int_field f (8 + 4 * a) in a < 2 ^ 32 - 32 -> b < 2 ^ 32 - 16 ->
  if zlen f <? 12 + 4 * a + 8 * b then load_basic32 m f = Ok Exits
  else exists r, load_basic32 m f = Ok (Loaded r (skipn (Z.to_nat (12 + 4 * a + 8 * b)) f)) /\ basic_text_size32 r = int_field f 0 /\
    (forall k, 0 <= k < a -> zn 0 (rb_ranks r) k = int_field f (8 + 4 * k)) /\ (forall k, 0 <= k < b -> zn 0 (rb_bits r) k = field f (12 + 4 * a + 8 * k)).
Proof. exact basic_any32. Qed.
Print Assumptions C93_basic_any32.
Theorem C93_cf_any32 : forall m f, addresses_ok m -> text_ok f -> let b := int_field f 12 in b < 2 ^ 32 - 32 ->
  if zlen f <? 16 + 4 * b then load_cf32 m f = Ok Exits
  else exists r, load_cf32 m f = Ok (Loaded r (skipn (Z.to_nat (16 + 4 * b)) f)) /\ cf_text_size32 r = int_field f 0 /\ cf_border r = int_field f 4 /\ cf_block_border r = int_field f 8 /\
    (forall k, 0 <= k < b -> zn 0 (cf_bits r) k = int_field f (16 + 4 * k)).
Proof. exact cf_any32. Qed.
Print Assumptions C93_cf_any32.
Example C93_any32_case :
  let f := [9; 1; 0; 0] ++ [1; 0; 0; 0] ++ [0; 2; 0; 0] ++ [1; 0; 0; 0] ++ [7; 0; 0; 0; 1; 0; 0; 0] ++ [77] in
  int_field f 0 = 265 /\ int_field f 4 = 1 /\ int_field f 12 = 1 /\
  (let* x := load_basic32 (mem_of 7 48) f in match x with Loaded r rest => Ok (basic_text_size32 r, zn 0 (rb_ranks r) 0, zn 0 (rb_bits r) 0, rest) | Exits => Ok (0, 0, 0, []) end) = Ok (265, 512, 4294967303, [77]) /\
  (let* x := load_cf32 (mem_of 7 48) f in match x with Loaded r rest => Ok (cf_text_size32 r, cf_border r, cf_block_border r, zn 0 (cf_bits r) 0, rest) | Exits => Ok (0, 0, 0, 0, []) end) = Ok (265, 1, 512, 7, [1; 0; 0; 0; 77]).
Proof. vm_compute. auto 6. Qed.

(** Lengths that wrap in new[len + 32] or new[len + 16]: the file is read past the array. *)
Theorem C93_basic_wraps32 : forall m f, addresses_ok m -> text_ok f -> 132 < zlen f -> 2 ^ 32 - 32 <= int_field f 4 -> load_basic32 m f = Ub UB_bounds.
Proof. exact basic_over32. Qed.
Print Assumptions C93_basic_wraps32.
Theorem C93_basic_bits_wrap32 : forall m f, addresses_ok m -> text_ok f -> let a := int_field f 4 in a < 2 ^ 32 - 32 -> 132 + 4 * a < zlen f -> 2 ^ 32 - 16 <= int_field f (8 + 4 * a) ->
  load_basic32 m f = Ub UB_bounds.
Proof. exact basic_over_bits32. Qed.
Print Assumptions C93_basic_bits_wrap32.
Theorem C93_cf_wraps32 : forall m f, addresses_ok m -> text_ok f -> 140 < zlen f -> 2 ^ 32 - 32 <= int_field f 12 -> load_cf32 m f = Ub UB_bounds.
Proof. exact cf_over32. Qed.
Print Assumptions C93_cf_wraps32.
Example C93_wraps32_case : let f := put32 1 ++ put32 (2 ^ 32 - 3) ++ repeat 5 137 in int_field f 4 = 2 ^ 32 - 3 /\ zlen f = 145 /\ load_basic32 (mem_of 7 48) f = Ub UB_bounds /\
  (let g := put32 1 ++ put32 1 ++ put32 8 ++ put32 (2 ^ 32 - 1) ++ repeat 5 137 in load_basic32 (mem_of 7 48) g = Ub UB_bounds /\ load_cf32 (mem_of 7 48) g = Ub UB_bounds).
Proof. vm_compute. auto 6. Qed.

(** Nine and seventeen bytes are enough. *)
Theorem C93_load32_refuted : exists m f g, addresses_ok m /\ text_ok f /\ text_ok g /\ zlen f = 9 /\ zlen g = 17 /\ load_basic32 m f = Ub UB_bounds /\ load_cf32 m g = Ub UB_bounds.
Proof. exact load_over_bad32. Qed.
Print Assumptions C93_load32_refuted.
(** Files of zeros are accepted, and every query then reads through a null pointer. *)
Theorem C93_query32_refuted : exists f g, text_ok f /\ text_ok g /\ forall m, exists r s, load_basic32 m f = Ok (Loaded r []) /\ rank_std32 r 0 = Ub UB_bounds /\ rank_bch32 r 0 = Ub UB_bounds /\
  load_cf32 m g = Ok (Loaded s []) /\ rank_of_cf32 false s 0 = Ub UB_bounds.
Proof. exact load_zero_bad32. Qed.
Print Assumptions C93_query32_refuted.

(** ** C94: testRank *)

(** Nothing is printed exactly if every answer asked for is the expected one, where both
    the position asked for and the count expected are taken modulo 2^32. *)
Theorem C94_rank_test32 : forall rank t, test_rank32 rank t = Ok [] <->
  forall i, 1 <= i <= zlen (text_bits t) -> rank (i mod 2 ^ 32) = Ok (ones_before (text_bits t) i mod 2 ^ 32).
Proof. exact rank_test32. Qed.
Print Assumptions C94_rank_test32.
Example C94_rank_test32_case : test_rank32 (fun i => Ok (if i =? 8 then 1 else 0)) [1] = Ok [] /\ test_rank32 (fun i => Ok (i / 7)) [1] = Ok [(7, 0, 1)].
Proof. vm_compute. auto. Qed.

(** Texts of less than 2^29 bytes: silent. *)
Theorem C94_basic_self_test32 : forall m t, addresses_ok m -> text_ok t -> zlen t < 2 ^ 29 -> zlen t mod 64 <> 0 ->
  exists r, build_std32 m t = Ok r /\ test_rank32 (rank_std32 r) t = Ok [].
Proof. exact std_silent32. Qed.
Print Assumptions C94_basic_self_test32.
Theorem C94_bch_self_test32 : forall jf m t, addresses_ok m -> text_ok t -> zlen t < 2 ^ 29 -> exists r, build_bch32 false jf m t = Ok r /\ test_rank32 (rank_bch32 r) t = Ok [].
Proof. exact bch_silent32. Qed.
Print Assumptions C94_bch_self_test32.
Theorem C94_cf_self_test32 : forall m t, addresses_ok m -> text_ok t -> zlen t < 2 ^ 29 -> zlen t mod 64 <> 0 ->
  exists r, build_cf32 m t = Ok r /\ test_rank32 (rank_of_cf32 false r) t = Ok [].
Proof. exact cf_silent32. Qed.
Print Assumptions C94_cf_self_test32.
Example C94_self_test32_case : (let* r := build_std32 (mem_of 99 32) [9; 200] in test_rank32 (rank_std32 r) [9; 200]) = Ok [] /\
  (let* r := build_cf32 (mem_of 99 32) [9; 200] in test_rank32 (rank_of_cf32 false r) [9; 200]) = Ok [].
Proof. vm_compute. auto. Qed.

(** Longer texts: rank(2^32) is asked for as rank(0), so a zero and a one among the first
    2^32 bits make the test report errors although every answer is right. *)
Theorem C94_basic_long_test32 : forall m t, addresses_ok m -> text_ok t -> 2 ^ 29 <= zlen t <= 2 ^ 32 - 64 -> 0 < ones_before (text_bits t) (2 ^ 32) < 2 ^ 32 ->
  exists r, build_std32 m t = Ok r /\ test_rank32 (rank_std32 r) t <> Ok [].
Proof. exact std_noisy32. Qed.
Print Assumptions C94_basic_long_test32.
Theorem C94_bch_long_test32 : forall jf m t, addresses_ok m -> text_ok t -> 2 ^ 29 <= zlen t <= 2 ^ 32 - 64 -> 0 < ones_before (text_bits t) (2 ^ 32) < 2 ^ 32 ->
  exists r, build_bch32 false jf m t = Ok r /\ test_rank32 (rank_bch32 r) t <> Ok [].
Proof. exact bch_noisy32. Qed.
Print Assumptions C94_bch_long_test32.
Theorem C94_cf_long_test32 : forall m t, addresses_ok m -> text_ok t -> 2 ^ 29 <= zlen t <= 2 ^ 32 - 64 -> ~ (1 <= text_blocks t /\ forall b, 0 <= b < text_blocks t -> uniform_block t b) ->
  0 < ones_before (text_bits t) (2 ^ 32) < 2 ^ 32 -> exists r, build_cf32 m t = Ok r /\ test_rank32 (rank_of_cf32 false r) t <> Ok [].
Proof. exact cf_noisy32. Qed.
Print Assumptions C94_cf_long_test32.
Example C94_long_test32_case : let t := repeat 1 (Z.to_nat (2 ^ 29)) in zlen t = 2 ^ 29 /\ 0 < ones_before (text_bits t) (2 ^ 32) < 2 ^ 32.
Proof. intros t. subst t. split; [rewrite zlen_repeat; lia|]. apply noisy_case; [apply zn_same|]; lia. Qed.

(** The two ways a test can fail on a good structure. *)
Theorem C94_basic_self_test32_refuted : exists m t r, addresses_ok m /\ text_ok t /\ build_std32 m t = Ok r /\ test_rank32 (rank_std32 r) t <> Ok [].
Proof. exact std_test_bad32. Qed.
Print Assumptions C94_basic_self_test32_refuted.
Theorem C94_long_test32_refuted : exists m t r, addresses_ok m /\ text_ok t /\ zlen t = 2 ^ 29 /\ build_std32 m t = Ok r /\
  (forall i, 0 <= i < 2 ^ 32 -> rank_std32 r i = Ok (ones_before (text_bits t) i)) /\ test_rank32 (rank_std32 r) t <> Ok [].
Proof. exact noisy_bad32. Qed.
Print Assumptions C94_long_test32_refuted.
