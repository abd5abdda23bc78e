(** Specification: where the select structures of include/mranisz store a group, and when
    a query reads 64-bit words there at an address that is not a multiple of 8. *)
From Verif Require Import Base Spec SpecText MrMpe SpecSmpe.

(** Bytes a complete group takes: 64-bit positions of all its ones but the last, nothing,
    or its bits up to the one before the last one. *)
Definition full_bytes (L T : Z) (B : list bool) (g : Z) : Z :=
  let d := group_span L B g in if d >? T then 8 * (L - 1) else if d =? L then 0 else (d + 6) / 8.
(** The offset of group [g]. *)
Definition group_offset (L T : Z) (B : list bool) (g : Z) : Z := sumf (full_bytes L T B) 0 g.
(** The query [k] reads words: it asks for a one inside its group (not its last), the
    group is stored as positions, or as bits of more than 64. *)
Definition reads_words (L T : Z) (B : list bool) (k : Z) : bool :=
  let d := group_span L B (k / L) in negb (k mod L =? 0) && negb (d =? L) && ((d >? T) || (d >? 64)).
Definition misaligned (L T : Z) (B : list bool) (k : Z) : bool :=
  reads_words L T B k && negb (group_offset L T B (k / L) mod 8 =? 0).

(** SelectMPE64: some groups are compressed, and read byte by byte then. *)
Definition group_compressed (M : mpe_type) (L T : Z) (B : list bool) (g : Z) : bool :=
  let d := group_span L B g in
  let tl := table_bytes L B g in
  let n0 := byte_pairs 0 L B g in
  let n1 := byte_pairs 255 L B g in
  (g + 1 <? groups L B) && (d <=? T) && negb (d =? L) &&
  match M with
  | MPE1 => n0 + n1 >? tl
  | MPE2 => (2 * n0 >? tl) || (2 * n1 >? tl)
  | MPE3 => (n0 >? 9) && (n1 >? 9) || (n0 >=? 18) && (n1 <=? 9) || (n0 <=? 9) && (n1 >=? 18)
  end.
Definition misaligned_mpe (M : mpe_type) (L T : Z) (B : list bool) (k : Z) : bool :=
  reads_words L T B k && negb (group_compressed M L T B (k / L)) &&
  negb ((group_offset L T B (k / L) - sumf (group_saved M L T B) 0 (k / L)) mod 8 =? 0).
