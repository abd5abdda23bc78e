(** What SelectMPE32 of include/mranisz does, in terms of the bits of the text: as
    SelectMPE64 (SpecSmpe), with the positions and the groups of SelectBasic32 (SpecSel32). *)
From Verif Require Import Base Trees Spec SpecText SpecSel32 MrMpe SpecSmpe.

(** The largest number of bytes of a group for which every offset inside a superblock of 16
    groups fits its field. *)
Definition field_limit32 (M : mpe_type) : Z := match M with MPE1 => 2184 | _ => 1092 end.
(** No group of [L] ones takes more bytes: 32-bit positions, or at most [T] bits, which MPE3
    may store with tables larger than what they save. *)
Definition fits_fields32 (M : mpe_type) (L T : Z) : bool :=
  (4 * (L - 1) <=? field_limit32 M) && ((T + 6) / 8 + match M with MPE3 => 2 * ((T - 1) / 128 + 1) | _ => 0 end <=? field_limit32 M).

(** The last group is complete, and a query inside it reads its flag: it has more than one
    one, and is stored as bits, or as positions with the flag in the same field. *)
Definition reads_last_flag32 (L T : Z) (B : list bool) : bool :=
  let g := groups L B - 1 in
  let d := group_span L B g in
  (1 <? L) && (count_true B mod L =? 0) && (if d >? T then 3 <=? g mod 16 else negb (d =? L)).

Definition smpe_payload32 (M : mpe_type) (L T : Z) (B : list bool) : Z := sel_payload32 L T B - sumf (group_saved M L T B) 0 (groups L B).
(** The constructor adds 128 to the number of bytes in an unsigned int. *)
Definition smpe_too_large32 (M : mpe_type) (L T : Z) (B : list bool) : bool := 2 ^ 32 <=? smpe_payload32 M L T B + 128.
