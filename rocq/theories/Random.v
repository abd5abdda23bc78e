(** The random bit generator of include/util.hpp (lines 32-77), which the tests
    and the benchmarks use to make their inputs. *)
From Verif Require Import Base Mem.

(** splitmix64::next (util.hpp 36-41): the number and the next state.  [x] is a
    uint64_t. *)
Definition sm_next (x : Z) : Z * Z :=
  let x := u64 (x + 0x9E3779B97F4A7C15) in
  let z := x in
  let z := u64 (Z.lxor z (Z.shiftr z 30) * 0xBF58476D1CE4E5B9) in
  let z := u64 (Z.lxor z (Z.shiftr z 27) * 0x94D049BB133111EB) in
  (Z.lxor z (Z.shiftr z 31), x).

(** One round of the first loop (util.hpp 51-56).  State: bits, num_ones, x. *)
Definition random_step (threshold : Z) (st : list Z * Z * Z) (i : Z) : res (list Z * Z * Z) :=
  let '(bits, num, x) := st in
  let '(z, x) := sm_next x in
  if z <? threshold then
    let* w := geti bits (i / 64) in
    let* bits := seti bits (i / 64) (Z.lor w (u64 (Z.shiftl 1 (i mod 64)))) in
    Ok (bits, u64 (num + 1), x)
  else Ok (bits, num, x).

(** The second loop (util.hpp 61-67): is every one of bits[i], bits[i+1], ...
    zero?  operator[] does not check the index. *)
Fixpoint all_zero (bits : list Z) (i : Z) (fuel : nat) : res bool :=
  match fuel with
  | O => Ok true
  | S fuel' => let* w := geti bits i in if w =? 0 then all_zero bits (i + 1) fuel' else Ok false
  end.

(** create_random_bits (util.hpp 47-74): the array and num_ones.  The loop bound
    bits.size() * 64 is a uint64_t. *)
Definition create_random_bits (bits : list Z) (threshold seed : Z) : res (list Z * Z) :=
  let* '(bits, num, _) := foldM (random_step threshold) (zrange 0 (Z.to_nat (u64 (zlen bits * 64)))) (bits, 0, seed) in
  let* z := all_zero bits 0 4 in
  if z then
    let* bits := seti bits 0 1 in
    Ok (bits, u64 (num + 1))
  else Ok (bits, num).

(** The first [n] results of next() after construction with state [x]. *)
Fixpoint calls (n : nat) (x : Z) : list Z :=
  match n with O => [] | S n' => let '(z, x) := sm_next x in z :: calls n' x end.
