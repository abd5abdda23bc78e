(** C88-C91: the rank structures of include/mranisz/shared/rank.hpp made of 32-bit integers. *)
From Verif Require Import Base MemFacts Spec SpecText SpecText32 MrRank MrRankProps MrRank32 MrRank32Props.

(** ** C88: RankBasic32, standard headers *)

(** rank(i) is the number of ones before i.  Texts of 2^29 bytes and more have positions
    that the argument cannot express; those below 2^32 are answered. *)
Theorem C88_basic_rank32 : forall m t, addresses_ok m -> text_ok t -> zlen t <= 2 ^ 32 - 64 ->
  exists r, build_std32 m t = Ok r /\ forall i, 0 <= i < 512 * text_blocks t -> i < 2 ^ 32 -> rank_std32 r i = Ok (ones_before (text_bits t) i).
Proof. exact basic_rank32. Qed.
Print Assumptions C88_basic_rank32.
Example C88_basic_rank32_case :
  let t := repeat 255 64 ++ [1; 128; 3] in
  addresses_ok (mem_of 99 32) /\ text_blocks t = 2 /\
  (let* r := build_std32 (mem_of 99 32) t in rank_std32 r 300) = Ok 300 /\ (let* r := build_std32 (mem_of 99 32) t in rank_std32 r 521) = Ok 514.
Proof. split; [apply mem_of_ok; [lia|reflexivity]|]. vm_compute. auto. Qed.

(** At the size of a text of whole blocks: two ints that were never written decide. *)
Theorem C88_basic_rank32_at_size : forall m t, addresses_ok m -> text_ok t -> zlen t < 2 ^ 29 -> zlen t mod 64 = 0 ->
  exists r, build_std32 m t = Ok r /\
    rank_std32 r (zlen (text_bits t)) =
      let n := text_blocks t in let total := ones_before (text_bits t) (zlen (text_bits t)) in
      let next := m_junk_r m (2 * n + 2) in let off := m_junk_r m (2 * n + 1) mod 2 ^ 32 in
      if (Z.land (u32 (next - total)) 511 =? 0) || (off <? 8 * kept_blocks t + 16 - (- m_addr_b m) mod 128 / 8)
      then Ok total else Ub UB_bounds.
Proof. exact basic_rank32_size. Qed.
Print Assumptions C88_basic_rank32_at_size.
Example C88_basic_rank32_at_size_case :
  let t := repeat 15 64 in text_ok t /\ zlen t mod 64 = 0 /\ kept_blocks t = 1 /\
  (let* r := build_std32 (mem_of 1000 16) t in rank_std32 r 512) = Ub UB_bounds /\ (let* r := build_std32 (mem_of 3 16) t in rank_std32 r 512) = Ok 256.
Proof. split; [repeat constructor; lia|]. vm_compute. auto. Qed.
Theorem C88_basic_rank32_at_size_refuted : exists m t r, addresses_ok m /\ text_ok t /\ build_std32 m t = Ok r /\ rank_std32 r (zlen (text_bits t)) = Ub UB_bounds.
Proof. exact basic_rank32_size_bad. Qed.
Print Assumptions C88_basic_rank32_at_size_refuted.

(** The last 63 lengths an unsigned int can hold: nothing is stored. *)
Theorem C88_basic_rank32_long : forall m t, addresses_ok m -> 2 ^ 32 - 64 < zlen t < 2 ^ 32 ->
  exists r, build_std32 m t = Ok r /\ basic_size32 r = 156 /\ forall i, 8192 <= i < 2 ^ 32 -> rank_std32 r i = Ub UB_bounds.
Proof. exact basic_rank32_long. Qed.
Print Assumptions C88_basic_rank32_long.
Example C88_long_case : let t := repeat 0 (Z.to_nat (2 ^ 32 - 1)) in text_ok t /\ 2 ^ 32 - 64 < zlen t < 2 ^ 32.
Proof. split; [apply zeros_ok|]. rewrite zlen_repeat. lia. Qed.
Theorem C88_basic_rank32_long_refuted : exists m t r, addresses_ok m /\ text_ok t /\ zlen t < 2 ^ 32 /\ build_std32 m t = Ok r /\ rank_std32 r 8192 = Ub UB_bounds.
Proof. exact basic_rank32_long_bad. Qed.
Print Assumptions C88_basic_rank32_long_refuted.

(** ** C89: RankBasic32, compressed headers *)

(** Whatever the flags read past the end of emptyBlock hold. *)
Theorem C89_bch_rank32 : forall jf m t, addresses_ok m -> text_ok t -> zlen t <= 2 ^ 32 - 64 ->
  exists r, build_bch32 false jf m t = Ok r /\ forall i, 0 <= i <= 512 * text_blocks t -> i < 2 ^ 32 -> rank_bch32 r i = Ok (ones_before (text_bits t) i).
Proof. exact bch_rank32. Qed.
Print Assumptions C89_bch_rank32.
Example C89_bch_rank32_case :
  let t := repeat 255 64 ++ [1; 128; 3] in
  (let* r := build_bch32 false (fun k => k mod 2) (mem_of 99 32) t in rank_bch32 r 300) = Ok 300 /\
  (let* r := build_bch32 false (fun k => k mod 2) (mem_of 99 32) t in rank_bch32 r 1024) = Ok 516.
Proof. vm_compute. auto. Qed.

(** In the language the build is undefined, except for 31, 63, ... blocks. *)
Theorem C89_bch_strict32 : forall jf m t, addresses_ok m -> text_ok t -> zlen t <= 2 ^ 32 - 64 ->
  if text_blocks t mod 32 =? 31
  then exists r, build_bch32 true jf m t = Ok r /\ forall i, 0 <= i <= 512 * text_blocks t -> i < 2 ^ 32 -> rank_bch32 r i = Ok (ones_before (text_bits t) i)
  else build_bch32 true jf m t = Ub UB_bounds.
Proof. exact bch_strict32. Qed.
Print Assumptions C89_bch_strict32.
Example C89_bch_strict32_case : text_blocks (repeat 7 (31 * 64)) mod 32 = 31 /\ text_ok (repeat 0 64) /\ text_blocks (repeat 0 64) mod 32 = 1.
Proof. split; [vm_compute; reflexivity|]. split; [apply zeros_ok|reflexivity]. Qed.
Theorem C89_bch_build32_refuted : exists jf m t, addresses_ok m /\ text_ok t /\ build_bch32 true jf m t = Ub UB_bounds.
Proof. exact bch_build32_bad. Qed.
Print Assumptions C89_bch_build32_refuted.

(** The last 63 lengths: the same structure as for the empty text. *)
Theorem C89_bch_rank32_long : forall strict jf m t, 2 ^ 32 - 64 < zlen t < 2 ^ 32 ->
  match build_bch32 strict jf m [], build_bch32 strict jf m t with
  | Ok r0, Ok r => basic_size32 r = basic_size32 r0 /\ forall i, rank_bch32 r i = rank_bch32 r0 i
  | x, y => x = y
  end.
Proof. exact bch_rank32_long. Qed.
Print Assumptions C89_bch_rank32_long.
Example C89_bch_rank32_long_case : 2 ^ 32 - 64 < zlen (repeat 255 (Z.to_nat (2 ^ 32 - 63))) < 2 ^ 32.
Proof. rewrite zlen_repeat, Z2Nat.id; lia. Qed.

(** ** C90: RankCF32 *)

(** On a machine that reads 64-bit words at any address. *)
Theorem C90_cf_rank32 : forall m t, addresses_ok m -> text_ok t -> zlen t <= 2 ^ 32 - 64 ->
  ~ (1 <= text_blocks t /\ forall b, 0 <= b < text_blocks t -> uniform_block t b) ->
  exists r, build_cf32 m t = Ok r /\ forall i, 0 <= i < 512 * text_blocks t -> i < 2 ^ 32 -> rank_of_cf32 false r i = Ok (ones_before (text_bits t) i).
Proof. exact cf_rank32. Qed.
Print Assumptions C90_cf_rank32.
Example C90_cf_rank32_case :
  let t := repeat 255 64 ++ [1; 128; 3] in
  kept_blocks t = 1 /\
  (let* r := build_cf32 (mem_of 99 32) t in rank_of_cf32 false r 300) = Ok 300 /\ (let* r := build_cf32 (mem_of 99 32) t in rank_of_cf32 false r 521) = Ok 514.
Proof. vm_compute. auto. Qed.

(** By the rule of the language: the words of a block kept in an even place are
    misaligned. *)
Theorem C90_cf_aligned32 : forall m t, addresses_ok m -> text_ok t -> zlen t <= 2 ^ 32 - 64 ->
  ~ (1 <= text_blocks t /\ forall b, 0 <= b < text_blocks t -> uniform_block t b) ->
  exists r, build_cf32 m t = Ok r /\ forall i, 0 <= i < 512 * text_blocks t -> i < 2 ^ 32 ->
    rank_of_cf32 true r i = if has_both t (i / 512) && Z.even (cf_place t (i / 512)) then Ub UB_align else Ok (ones_before (text_bits t) i).
Proof. exact cf_aligned32. Qed.
Print Assumptions C90_cf_aligned32.
Example C90_cf_aligned32_case :
  let t := repeat 3 64 ++ repeat 255 64 ++ [1; 128; 3] in
  kept_blocks t = 2 /\ cf_place t 0 = 0 /\ cf_place t 2 = 1 /\ has_both t 0 = true /\ has_both t 1 = false /\ has_both t 2 = true /\
  (let* r := build_cf32 (mem_of 99 32) t in rank_of_cf32 true r 5) = Ub UB_align /\ (let* r := build_cf32 (mem_of 99 32) t in rank_of_cf32 true r 1033) = Ok 642.
Proof. vm_compute. auto 10. Qed.
Theorem C90_cf_aligned32_refuted : exists m t r, addresses_ok m /\ text_ok t /\ build_cf32 m t = Ok r /\ rank_of_cf32 true r 1 = Ub UB_align.
Proof. exact cf_aligned32_bad. Qed.
Print Assumptions C90_cf_aligned32_refuted.

(** A text whose blocks are all uniform cannot be built. *)
Theorem C90_cf_uniform32 : forall m t, addresses_ok m -> text_ok t -> zlen t <= 2 ^ 32 - 64 -> 1 <= text_blocks t ->
  (forall b, 0 <= b < text_blocks t -> uniform_block t b) -> build_cf32 m t = Ub UB_bounds.
Proof. exact cf_uniform32. Qed.
Print Assumptions C90_cf_uniform32.
Example C90_cf_uniform32_case : let t := repeat 255 64 ++ repeat 0 64 in text_blocks t = 2 /\ forall b, 0 <= b < 2 -> uniform_block t b.
Proof. split; [reflexivity|]. intros b Hb. apply (proj1 (kept_zero (repeat 255 64 ++ repeat 0 64))); [vm_compute; reflexivity|exact Hb]. Qed.
Theorem C90_cf_build32_refuted : exists m t, addresses_ok m /\ text_ok t /\ build_cf32 m t = Ub UB_bounds.
Proof. exact cf_build32_bad. Qed.
Print Assumptions C90_cf_build32_refuted.

Theorem C90_cf_rank32_at_size : forall al m t, addresses_ok m -> text_ok t -> zlen t < 2 ^ 29 -> zlen t mod 64 = 0 ->
  ~ (1 <= text_blocks t /\ forall b, 0 <= b < text_blocks t -> uniform_block t b) ->
  exists r, build_cf32 m t = Ok r /\
    rank_of_cf32 al r (zlen (text_bits t)) =
      let e := 15 * kept_blocks t + 2 * text_blocks t + 1 in let total := ones_before (text_bits t) (zlen (text_bits t)) in
      let next := m_junk_b m (e + 1) in let off := m_junk_b m e mod 2 ^ 32 in
      if Z.land (u32 (next - total)) 511 =? 0 then Ok total
      else if al && (off mod 2 =? 1) then Ub UB_align
      else if off + 1 <? e + 32 - (- m_addr_b m) mod 128 / 4 then Ok total else Ub UB_bounds.
Proof. exact cf_rank32_size. Qed.
Print Assumptions C90_cf_rank32_at_size.
Example C90_cf_rank32_at_size_case : let t := repeat 15 64 in text_ok t /\ zlen t mod 64 = 0 /\ kept_blocks t = 1 /\
  (let* r := build_cf32 (mem_of 1000 16) t in rank_of_cf32 false r 512) = Ub UB_bounds /\ (let* r := build_cf32 (mem_of 3 16) t in rank_of_cf32 false r 512) = Ok 256 /\
  (let* r := build_cf32 (mem_of 3 16) t in rank_of_cf32 true r 512) = Ub UB_align.
Proof. split; [repeat constructor; lia|]. vm_compute. auto 10. Qed.

Theorem C90_cf_rank32_long : forall al m t, 2 ^ 32 - 64 < zlen t < 2 ^ 32 ->
  match build_cf32 m [], build_cf32 m t with
  | Ok r0, Ok r => cf_size32 r = cf_size32 r0 /\ forall i, rank_of_cf32 al r i = rank_of_cf32 al r0 i
  | x, y => x = y
  end.
Proof. exact cf_rank32_long. Qed.
Print Assumptions C90_cf_rank32_long.
Example C90_cf_rank32_long_case : 2 ^ 32 - 64 < zlen (repeat 15 (Z.to_nat (2 ^ 32 - 1))) < 2 ^ 32.
Proof. rewrite zlen_repeat, Z2Nat.id; lia. Qed.

(** ** C91: getSize and getTextSize *)
Theorem C91_basic_sizes32 : forall m t r, addresses_ok m -> text_ok t -> zlen t <= 2 ^ 32 - 64 -> build_std32 m t = Ok r ->
  basic_text_size32 r = zlen t /\ basic_size32 r = 8 * text_blocks t + 156 + (if kept_blocks t =? 0 then 0 else 64 * kept_blocks t + 128).
Proof. exact basic_sizes32. Qed.
Print Assumptions C91_basic_sizes32.
Example C91_basic_sizes32_case : (let* r := build_std32 (mem_of 0 0) [5; 6] in Ok (basic_size32 r)) = Ok 356.
Proof. vm_compute. reflexivity. Qed.

Theorem C91_bch_sizes32 : forall jf m t r, addresses_ok m -> text_ok t -> zlen t <= 2 ^ 32 - 64 -> build_bch32 false jf m t = Ok r ->
  basic_text_size32 r = zlen t /\ basic_size32 r = 76 * (text_blocks t / 32 + 1) + 152 + (if kept_blocks t =? 0 then 0 else 64 * kept_blocks t + 128).
Proof. exact bch_sizes32. Qed.
Print Assumptions C91_bch_sizes32.
Example C91_bch_sizes32_case : (let* r := build_bch32 false (fun _ => 0) (mem_of 0 0) [5; 6] in Ok (basic_size32 r)) = Ok 420.
Proof. vm_compute. reflexivity. Qed.

(** RankCF32 counts in an unsigned int. *)
Theorem C91_cf_sizes32 : forall m t r, addresses_ok m -> text_ok t -> zlen t <= 2 ^ 32 - 64 -> build_cf32 m t = Ok r ->
  cf_text_size32 r = zlen t /\ cf_size32 r = (60 * kept_blocks t + 8 * text_blocks t + 156) mod 2 ^ 32.
Proof. exact cf_sizes32. Qed.
Print Assumptions C91_cf_sizes32.
Example C91_cf_sizes32_case : (let* r := build_cf32 (mem_of 0 0) [5; 6] in Ok (cf_size32 r)) = Ok 224.
Proof. vm_compute. reflexivity. Qed.

Theorem C91_cf_size32_refuted : exists m t r, addresses_ok m /\ text_ok t /\ zlen t = 2 ^ 32 - 64 /\ build_cf32 m t = Ok r /\ cf_size32 r < 2 ^ 29.
Proof. exact cf_size32_bad. Qed.
Print Assumptions C91_cf_size32_refuted.
