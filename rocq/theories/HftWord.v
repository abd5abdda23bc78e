(** The helpers of include/hft/common.hpp on bit fields and single words that the trees do
    not use, with bitread (Hft).  All line numbers refer to that file. *)
From Verif Require Import Base Mem Tables Words Hft.

(** bitextract, lines 228-233; [ws]: the words from the pointer on. *)
Definition bitextract (ws : list Z) (from length : Z) : res Z :=
  let* w0 := geti ws 0 in
  if from + length <=? 64 then
    let* a := shr false w0 from in
    let* mask := shr false (2 ^ 64 - 1) (64 - length) in
    Ok (Z.land a mask)
  else
    let* a := shr false w0 from in
    let* w1 := geti ws 1 in
    let* b := shl w1 (128 - from - length) in
    let* b := shr false b (64 - from) in
    Ok (Z.lor a b).

(** bitwrite, lines 269-288; [p] is the byte the pointer refers to. *)
Definition bitwrite (m : list Z) (p from length v : Z) : res (list Z) :=
  let* old := load 8 m p in
  if from + length <=? 64 then
    let* mask := shr false (2 ^ 64 - 1) (64 - length) in
    let* mask := shl mask from in
    let* x := shl v from in
    store 8 m p (Z.lor (Z.land old (2 ^ 64 - 1 - mask)) x)
  else
    let* maskw := shl (2 ^ 64 - 1) from in
    let* x := shl v from in
    let* m := store 8 m p (Z.lor (Z.land old (2 ^ 64 - 1 - maskw)) x) in
    let* next := load 8 m (p + 8) in
    let* maskb := shr false (2 ^ 64 - 1) (128 - from - length) in
    let* y := shr false v (64 - from) in
    store 8 m (p + 8) (Z.lor (Z.land next (2 ^ 64 - 1 - maskb)) y).

(** compact_bitmask, lines 214-216: the shift is evaluated for count 0 too. *)
Definition compact_bitmask (count pos : Z) : res Z :=
  let* a := shr false (2 ^ 64 - 1) (u64 (64 - count)) in
  let* b := shl a pos in
  Ok (Z.land (if count =? 0 then 0 else 2 ^ 64 - 1) b).

(** round_pow2, lines 77-86. *)
Definition round_pow2 (v : Z) : Z :=
  let v := u64 (v - 1) in
  let v := Z.lor v (Z.shiftr v 1) in
  let v := Z.lor v (Z.shiftr v 2) in
  let v := Z.lor v (Z.shiftr v 4) in
  let v := Z.lor v (Z.shiftr v 8) in
  let v := Z.lor v (Z.shiftr v 16) in
  let v := Z.lor v (Z.shiftr v 32) in
  u64 (v + 1).

(** mround, lines 323-325. *)
Definition mround (number multiple : Z) : Z := u64 (Z.lor (u64 (number - 1)) (u64 (multiple - 1)) + 1).

(** updroot, lines 333-335. *)
Definition updroot (j n : Z) : res Z :=
  let* l := lambda (Z.lor (Z.lxor j n) (mask_rho j)) in
  let* s := shl (2 ^ 64 - 1) l in
  Ok (Z.land n s).

(** select64 without __haswell__, lines 355-371.  kSelectInByte, lines 89-153, has the
    values of select_in_byte (include/rank_select_algorithms/common.hpp); the code is that
    of select_sse4_succinct without its assertion. *)
Definition select64_hft (x k : Z) : res Z :=
  let byte_sums := u64 (byte_counts x * ones_step_8) in
  let g := geq_k_step_8 byte_sums k in
  let place := popcount g * 8 in
  succinct_tail x k byte_sums place.

(** select64 with __haswell__, lines 372-384: pdep of 2^k and tzcnt, by inline assembly or by
    intrinsics. *)
Definition select64_haswell (x k : Z) : res Z :=
  let* result := shl 1 k in
  Ok (tzcnt64 (pdep64 result x)).
