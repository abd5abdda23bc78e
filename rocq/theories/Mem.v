(** Byte memory of one heap buffer: typed little-endian loads and stores, and
    the vector loads, stores and lane operations the sources use. *)
From Verif Require Import Base.

(** Unsigned little-endian value of the [n] bytes at [off].
    Models the dereference of a [uint16_t*]/[uint32_t*]/[uint64_t*] obtained by
    [reinterpret_cast] from [uint8_t*] (node*.hpp, [at]) on x86. *)
Fixpoint rd (n : nat) (m : list Z) (off : Z) : Z :=
  match n with
  | O => 0
  | S n' => zn 0 m off + 256 * rd n' m (off + 1)
  end.

(** Store of the low [n] bytes of [v] at [off]. *)
Fixpoint wr (n : nat) (m : list Z) (off v : Z) : list Z :=
  match n with
  | O => m
  | S n' => wr n' (upd m off (v mod 256)) (off + 1) (v / 256)
  end.

(** The access [off, off+len) lies inside the buffer. *)
Definition in_bounds (m : list Z) (off len : Z) : bool :=
  (0 <=? off) && (off + len <=? zlen m).

(** Bounds-checked load and store of [n] bytes. *)
Definition load (n : nat) (m : list Z) (off : Z) : res Z :=
  if in_bounds m off (Z.of_nat n) then Ok (rd n m off) else Ub UB_bounds.

Definition store (n : nat) (m : list Z) (off v : Z) : res (list Z) :=
  if in_bounds m off (Z.of_nat n) then Ok (wr n m off v) else Ub UB_bounds.

(** [lanes] elements of [w] bytes starting at [off]. *)
Fixpoint rdv (w : nat) (lanes : nat) (m : list Z) (off : Z) : list Z :=
  match lanes with
  | O => []
  | S l' => rd w m off :: rdv w l' m (off + Z.of_nat w)
  end.

Fixpoint wrv (w : nat) (m : list Z) (off : Z) (v : list Z) : list Z :=
  match v with
  | [] => m
  | x :: r => wrv w (wr w m off x) (off + Z.of_nat w) r
  end.

(** _mm256_loadu_si256 / _mm512_loadu_si512, seen as [lanes] lanes of [w]
    bytes (Intel intrinsics guide). *)
Definition loadu (w lanes : nat) (m : list Z) (off : Z) : res (list Z) :=
  if in_bounds m off (Z.of_nat (w * lanes)) then Ok (rdv w lanes m off) else Ub UB_bounds.

(** _mm256_load_si256 on buffer memory whose first byte has address [base]:
    faults when the address is not a multiple of the vector size. *)
Definition load_aligned (trap : bool) (base : Z) (w lanes : nat) (m : list Z) (off : Z) : res (list Z) :=
  if in_bounds m off (Z.of_nat (w * lanes)) then
    if trap && negb ((base + off) mod Z.of_nat (w * lanes) =? 0) then Ub UB_align
    else Ok (rdv w lanes m off)
  else Ub UB_bounds.

(** _mm256_storeu_si256 / _mm512_storeu_si512. *)
Definition storeu (w : nat) (m : list Z) (off : Z) (v : list Z) : res (list Z) :=
  if in_bounds m off (Z.of_nat (w * length v)) then Ok (wrv w m off v) else Ub UB_bounds.

(** Row [r] of a table of rows of [n] signed entries, as unsigned [bits]-bit
    lanes: [_mm256_load_si256((__m256i const* )table + r)] on an aligned table. *)
Definition tbl_row (bits : Z) (n : nat) (tbl : list Z) (r : Z) : res (list Z) :=
  if (0 <=? r) && ((r + 1) * Z.of_nat n <=? zlen tbl)
  then Ok (map (fun j => wrap bits (zn 0 tbl (r * Z.of_nat n + j))) (zrange 0 n))
  else Ub UB_bounds.

Fixpoint map2 {A B C} (f : A -> B -> C) (a : list A) (b : list B) : list C :=
  match a, b with
  | x :: a', y :: b' => f x y :: map2 f a' b'
  | _, _ => []
  end.

(** _mm256_add_epi16/32/64, _mm512_add_epi16/32/64. *)
Definition vadd (bits : Z) (a b : list Z) : list Z := map2 (fun x y => wrap bits (x + y)) a b.

(** _mm256_set1_epi16/32/64x, _mm512_set1_epi16/32/64: the argument is
    converted to the lane type first. *)
Definition set1 (bits : Z) (n : nat) (x : Z) : list Z := repeat (wrap bits x) n.

(** _mm256_cmpgt_epi16/32/64: signed comparison, all-ones lanes for true. *)
Definition vcmpgt (bits : Z) (a b : list Z) : list Z :=
  map2 (fun x y => if sgn bits y <? sgn bits x then 2 ^ bits - 1 else 0) a b.

(** _mm512_cmpgt_epi16/32/64_mask: signed comparison, bit j = lane j. *)
Definition vcmpgt_mask (bits : Z) (a b : list Z) : Z :=
  fold_right (fun c acc => b2z c + 2 * acc) 0 (map2 (fun x y => sgn bits y <? sgn bits x) a b).

(** Value of lanes of [bits] bits packed little-endian. *)
Definition pack (bits : Z) (l : list Z) : Z := fold_right (fun x acc => x + 2 ^ bits * acc) 0 l.
