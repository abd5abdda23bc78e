(** In-word algorithms: include/rank_select_algorithms/common.hpp and the
    select_u64 part of select.hpp. *)
From Verif Require Import Base Mem Tables.

(** Number of ones among bits 0..63; models [__builtin_popcountll] and the
    POPCNT instruction. *)
Definition popcount (x : Z) : Z := sumn (fun j => b2z (Z.testbit x j)) 0 64.

(** Shifts of a [uint64_t]: undefined for amounts of 64 or more. *)
Definition shl64 (x n : Z) : res Z :=
  if (0 <=? n) && (n <? 64) then Ok (u64 (Z.shiftl x n)) else Ub UB_shift.
Definition shr64 (x n : Z) : res Z :=
  if (0 <=? n) && (n <? 64) then Ok (Z.shiftr x n) else Ub UB_shift.

(** common.hpp lines 236-238. *)
Definition ones_step_4 : Z := 0x1111111111111111.
Definition ones_step_8 : Z := 0x0101010101010101.
Definition msbs_step_8 : Z := u64 (0x80 * ones_step_8).

(** common.hpp lines 241-246. *)
Definition byte_counts (x : Z) : Z :=
  let x := u64 (x - Z.shiftr (Z.land x (u64 (0xa * ones_step_4))) 1) in
  let x := u64 (Z.land x (u64 (3 * ones_step_4)) + Z.land (Z.shiftr x 2) (u64 (3 * ones_step_4))) in
  Z.land (u64 (x + Z.shiftr x 4)) (u64 (0x0f * ones_step_8)).

(** The first three lines of common.hpp 266-268 and select.hpp 31-33, 98-100. *)
Definition swar3 (x : Z) : Z :=
  let x := u64 (x - Z.land (Z.shiftr x 1) 0x5555555555555555) in
  let x := u64 (Z.land x 0x3333333333333333 + Z.land (Z.shiftr x 2) 0x3333333333333333) in
  Z.land (u64 (x + Z.shiftr x 4)) 0x0F0F0F0F0F0F0F0F.

(** common.hpp lines 253-258. *)
Inductive popcount_mode := PC_broadword | PC_builtin | PC_avx2 | PC_avx512.

(** popcount_u64: common.hpp lines 259-263 (primary template), 264-271
    (broadword), 273-276 (builtin). *)
Definition popcount_u64 (c : cfg) (pm : popcount_mode) (x : Z) : res Z :=
  match pm with
  | PC_broadword => Ok (Z.shiftr (u64 (0x0101010101010101 * swar3 x)) 56)
  | PC_builtin => Ok (popcount x)
  | _ => let* _ := massert (c_debug c) false in Ok 0
  end.

(** [_pdep_u64(src, mask)] (Intel intrinsics guide pseudo-code): for m = 0..63,
    if mask[m] then dst[m] = src[k++]. *)
Fixpoint pdep_loop (fuel : nat) (m k src mask : Z) : Z :=
  match fuel with
  | O => 0
  | S fuel' =>
      if Z.testbit mask m
      then (if Z.testbit src k then 2 ^ m else 0) + pdep_loop fuel' (m + 1) (k + 1) src mask
      else pdep_loop fuel' (m + 1) k src mask
  end.
Definition pdep64 (src mask : Z) : Z := pdep_loop 64 0 0 src mask.

(** select.hpp lines 12-18. *)
Inductive select64_mode := S_broadword_sdsl | S_broadword_succinct | S_sse4_sdsl | S_sse4_succinct | S_pdep.

(** select.hpp lines 25-74. *)
Definition select_broadword_sdsl (x i : Z) : res Z :=
  let i := u64 (i + 1) in
  let s := u64 (0x0101010101010101 * swar3 x) in
  let* o := geti ps_overflow i in
  let b := u64 (s + o) in
  let i := u64 (Z.shiftl (u64 (i - 1)) 8) in
  let nz m := negb (Z.land b m =? 0) in
  let byte n sh := Z.land (u64 (Z.land (Z.shiftr x n) 0xFF + i - sh)) 0x7FF in
  if nz 0x0000000080000000 then
    if nz 0x0000000000008000 then
      if nz 0x0000000000000080 then geti lt_sel (u64 (Z.land x 0xFF + i))
      else let* t := geti lt_sel (byte 8 (Z.shiftl (Z.land s 0xFF) 8)) in Ok (8 + t)
    else if nz 0x0000000000800000 then
      let* t := geti lt_sel (byte 16 (Z.land s 0xFF00)) in Ok (16 + t)
    else let* t := geti lt_sel (byte 24 (Z.land (Z.shiftr s 8) 0xFF00)) in Ok (24 + t)
  else
    if nz 0x0000800000000000 then
      if nz 0x0000008000000000 then
        let* t := geti lt_sel (byte 32 (Z.land (Z.shiftr s 16) 0xFF00)) in Ok (32 + t)
      else let* t := geti lt_sel (byte 40 (Z.land (Z.shiftr s 24) 0xFF00)) in Ok (40 + t)
    else if nz 0x0080000000000000 then
      let* t := geti lt_sel (byte 48 (Z.land (Z.shiftr s 32) 0xFF00)) in Ok (48 + t)
    else let* t := geti lt_sel (byte 56 (Z.land (Z.shiftr s 40) 0xFF00)) in Ok (56 + t).

(** select.hpp lines 93-115. *)
Definition select_sse4_sdsl (x i : Z) : res Z :=
  let i := u64 (i + 1) in
  let s := u64 (0x0101010101010101 * swar3 x) in
  let* o := geti ps_overflow i in
  let b := Z.land (u64 (s + o)) 0x8080808080808080 in
  let byte_nr := Z.shiftr (tzcnt64 b) 3 in
  let s := u64 (Z.shiftl s 8) in
  let* t := shr64 s (byte_nr * 8) in
  let i := u64 (i - Z.land t 0xFF) in
  let* y := shr64 x (byte_nr * 8) in
  let* r := geti lt_sel (u64 (u64 (Z.shiftl (u64 (i - 1)) 8) + Z.land y 0xFF)) in
  Ok (byte_nr * 8 + r).

(** Common middle part of select.hpp 81-84 and 122-125. *)
Definition geq_k_step_8 (byte_sums k : Z) : Z :=
  let k_step_8 := u64 (k * ones_step_8) in
  Z.land (u64 (Z.lor k_step_8 msbs_step_8 - byte_sums)) msbs_step_8.

(** Last lines of select.hpp 87-89 and 128-130. *)
Definition succinct_tail (x k byte_sums place : Z) : res Z :=
  let* t := shr64 (u64 (Z.shiftl byte_sums 8)) place in
  let byte_rank := u64 (k - Z.land t 0xFF) in
  let* y := shr64 x place in
  let* r := geti select_in_byte (Z.lor (Z.land y 0xFF) (u64 (Z.shiftl byte_rank 8))) in
  Ok (place + r).

(** select.hpp lines 76-90. *)
Definition select_broadword_succinct (c : cfg) (x k : Z) : res Z :=
  let* pc := popcount_u64 c PC_broadword x in
  let* _ := massert (c_debug c) (k <? pc) in
  let byte_sums := u64 (byte_counts x * ones_step_8) in
  let g := geq_k_step_8 byte_sums k in
  let place := Z.land (Z.shiftr (u64 (Z.shiftr g 7 * ones_step_8)) 53) (2 ^ 64 - 1 - 7) in
  succinct_tail x k byte_sums place.

(** select.hpp lines 116-131. *)
Definition select_sse4_succinct (c : cfg) (x k : Z) : res Z :=
  let* pc := popcount_u64 c PC_broadword x in
  let* _ := massert (c_debug c) (k <? pc) in
  let byte_sums := u64 (byte_counts x * ones_step_8) in
  let g := geq_k_step_8 byte_sums k in
  let place := popcount g * 8 in
  succinct_tail x k byte_sums place.

(** select.hpp lines 133-138. *)
Definition select_pdep (x i : Z) : res Z :=
  let* one := shl64 1 i in
  Ok (tzcnt64 (pdep64 one x)).

(** select_u64 (select.hpp lines 19-138). *)
Definition select_u64 (c : cfg) (sm : select64_mode) (x i : Z) : res Z :=
  match sm with
  | S_broadword_sdsl => select_broadword_sdsl x i
  | S_broadword_succinct => select_broadword_succinct c x i
  | S_sse4_sdsl => select_sse4_sdsl x i
  | S_sse4_succinct => select_sse4_succinct c x i
  | S_pdep => select_pdep x i
  end.

(** ** Vector popcount and prefix sums *)

(** The 8 bytes of a 64-bit word, least significant first. *)
Fixpoint le_bytes (n : nat) (x : Z) : list Z :=
  match n with O => [] | S n' => x mod 256 :: le_bytes n' (x / 256) end.

(** _mm256_srli_epi16 / _mm512_srli_epi16 on a vector given as bytes. *)
Fixpoint srli_epi16 (k : Z) (v : list Z) : list Z :=
  match v with
  | lo :: hi :: r =>
      let w := Z.shiftr (lo + 256 * hi) k in
      w mod 256 :: w / 256 :: srli_epi16 k r
  | _ => []
  end.
Definition vand_epi8 (m : Z) (v : list Z) : list Z := map (fun b => Z.land b m) v.
Definition vadd_epi8 (a b : list Z) : list Z := map2 (fun x y => u8 (x + y)) a b.
Definition vsub_epi8 (a b : list Z) : list Z := map2 (fun x y => u8 (x - y)) a b.

(** _mm256_sad_epu8 / _mm512_sad_epu8 against zero: per 64-bit lane the sum of
    its eight bytes. *)
Fixpoint sad_epu8 (lanes : nat) (v : list Z) : list Z :=
  match lanes with
  | O => []
  | S l' => fold_right Z.add 0 (firstn 8 v) :: sad_epu8 l' (skipn 8 v)
  end.

(** popcount_m256i / popcount_m512i: common.hpp lines 280-289, 293-302; [v] is
    the vector as 64-bit lanes. *)
Definition popcount_vec (v : list Z) : list Z :=
  let b := flat_map (le_bytes 8) v in
  let t1 := vsub_epi8 b (vand_epi8 0x55 (srli_epi16 1 b)) in
  let t2 := vadd_epi8 (vand_epi8 0x33 t1) (vand_epi8 0x33 (srli_epi16 2 t1)) in
  let t3 := vand_epi8 0x0F (vadd_epi8 t2 (srli_epi16 4 t2)) in
  sad_epu8 (length v) t3.

(** _mm256_maskz_permutex_epi64 / _mm512_maskz_permutexvar_epi64: lane j =
    mask[j] ? x[idx[j]] : 0. *)
Definition maskz_permute (mask : Z) (idx : list Z) (x : list Z) : list Z :=
  map2 (fun j s => if Z.testbit mask j then zn 0 x s else 0) (zrange 0 (length idx)) idx.

(** prefixsum_m256i: common.hpp lines 318-324.  _MM_SHUFFLE(2,1,0,3) selects
    lane 3 for lane 0, 0 for 1, 1 for 2, 2 for 3. *)
Definition prefixsum_m256i (x : list Z) : list Z :=
  let x := vadd 64 x (maskz_permute 254 [3; 0; 1; 2] x) in
  vadd 64 x (maskz_permute 252 [2; 3; 0; 1] x).

(** prefixsum_m512i: common.hpp lines 326-334 (_mm512_set_epi64 lists lanes
    from high to low). *)
Definition prefixsum_m512i (x : list Z) : list Z :=
  let x := vadd 64 x (maskz_permute 254 [7; 0; 1; 2; 3; 4; 5; 6] x) in
  let x := vadd 64 x (maskz_permute 252 [6; 7; 0; 1; 2; 3; 4; 5] x) in
  vadd 64 x (maskz_permute 240 [4; 5; 6; 7; 0; 1; 2; 3] x).

(** _mm256_cmple_epi64_mask / _mm512_cmple_epi64_mask (signed). *)
Definition vcmple_mask (a b : list Z) : Z :=
  fold_right (fun c acc => b2z c + 2 * acc) 0 (map2 (fun x y => sgn 64 x <=? sgn 64 y) a b).
