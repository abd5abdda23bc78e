(** Specification: where the select structures with 32-bit counters of include/mranisz store
    a group, and when a query reads at an address that is not a multiple of the size read. *)
From Verif Require Import Base Spec SpecText MrMpe SpecSmpe SpecAlign.

(** Bytes a complete group takes: 32-bit positions of all its ones but the last, nothing,
    or its bits up to the one before the last one. *)
Definition full_bytes32 (L T : Z) (B : list bool) (g : Z) : Z :=
  let d := group_span L B g in if d >? T then 4 * (L - 1) else if d =? L then 0 else (d + 6) / 8.
(** The offset of group [g]. *)
Definition group_offset32 (L T : Z) (B : list bool) (g : Z) : Z := sumf (full_bytes32 L T B) 0 g.
(** The query [k] asks for a one inside its group (not its last) that is not all ones; the
    group is stored as positions (4 bytes each), or as more than 64 bits (words of 8 bytes). *)
Definition misaligned32 (L T : Z) (B : list bool) (k : Z) : bool :=
  let d := group_span L B (k / L) in
  let o := group_offset32 L T B (k / L) in
  negb (k mod L =? 0) && negb (d =? L) && (if d >? T then negb (o mod 4 =? 0) else (d >? 64) && negb (o mod 8 =? 0)).

(** SelectMPE32: some groups are compressed, and read byte by byte then. *)
Definition misaligned_mpe32 (M : mpe_type) (L T : Z) (B : list bool) (k : Z) : bool :=
  let d := group_span L B (k / L) in
  let o := group_offset32 L T B (k / L) - sumf (group_saved M L T B) 0 (k / L) in
  negb (k mod L =? 0) && negb (d =? L) &&
  (if d >? T then negb (o mod 4 =? 0) else (d >? 64) && negb (group_compressed M L T B (k / L)) && negb (o mod 8 =? 0)).
