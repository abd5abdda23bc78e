(** Specification of what RankMPE64 keeps of a text: blocks of 1024 bits, without
    those that are all equal, and without pairs of bytes 00 00 or FF FF where that
    pays.  From the model only the names of the three variants are used. *)
From Verif Require Import Base Spec SpecText MrMpe.

(** Blocks of 1024 bits, the last one perhaps incomplete. *)
Definition big_blocks (t : list Z) : Z := (zlen t + 127) / 128.
Definition big_bits (t : list Z) (b : Z) : list bool := firstn 1024 (skipn (Z.to_nat (1024 * b)) (text_bits t)).
Definition big_uniform (t : list Z) (b : Z) : bool :=
  (zlen (big_bits t b) =? 1024) && (forallb negb (big_bits t b) || forallb (fun x => x) (big_bits t b)).

(** The number of the 64 pairs of bytes of a block that are [v], [v]; missing bytes
    count as 0. *)
Definition byte_at (t : list Z) (k : Z) : Z := zn 0 t k.
Definition pairs_of (v : Z) (t : list Z) (b : Z) : Z :=
  zlen (filter (fun j => (byte_at t (128 * b + 2 * j) =? v) && (byte_at t (128 * b + 2 * j + 1) =? v)) (zrange 0 64)).

(** Which pairs are left out of a block with [n0] pairs of zeros and [n1] of ones. *)
Definition drops_zeros (T : mpe_type) (n0 n1 : Z) : bool :=
  match T with
  | MPE1 => n0 + n1 >? 8
  | MPE2 => n0 >? 4
  | MPE3 => (n0 >=? 10) && (n1 >=? 10) || (n0 >=? 18) && (n1 <=? 9)
  end.
Definition drops_ones (T : mpe_type) (n0 n1 : Z) : bool :=
  match T with
  | MPE1 => n0 + n1 >? 8
  | MPE2 => n1 >? 4
  | MPE3 => (n0 >=? 10) && (n1 >=? 10) || (n1 >=? 18) && (n0 <=? 9)
  end.

(** Bytes stored for a block: 8 for each kind of pair left out, and what remains. *)
Definition stored_bytes (T : mpe_type) (t : list Z) (b : Z) : Z :=
  if big_uniform t b then 0 else
  let n0 := pairs_of 0 t b in
  let n1 := pairs_of 255 t b in
  128 + (if drops_zeros T n0 n1 then 8 - 2 * n0 else 0) + (if drops_ones T n0 n1 then 8 - 2 * n1 else 0).
(** Bytes stored before block [b]. *)
Definition stored_before (T : mpe_type) (t : list Z) (b : Z) : Z := sumf (stored_bytes T t) 0 b.
