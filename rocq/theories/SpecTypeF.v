(** Specification: from which size on TypeF of include/hft holds a node whose address is not
    a multiple of its size. *)
From Verif Require Import Base SpecHft.

(** Bounds of at most 8 bits: the first node of 9 bits, at an odd address.  Bounds of 9 to
    16 bits: the first node of 17 bits.  Wider bounds: never. *)
Definition first_misaligned (B n : Z) : bool :=
  if width B <=? 8 then 2 ^ (9 - width B) <=? n
  else if width B <=? 16 then 2 ^ (17 - width B) <=? n else false.

(** Calls inside the sequence; increments and searches are arbitrary. *)
Definition fop_inside (n : Z) (p : fop) : Prop :=
  match p with FPrefix i => 0 <= i <= n | FAdd i _ => 1 <= i | FFind _ | FCompFind _ | FSize => True end.
