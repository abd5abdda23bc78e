(** Specification of SelectMPE64: a text cut into groups of L ones (SpecText), whose
    bits are stored without some pairs of equal bytes. *)
From Verif Require Import Base Spec SpecText MrMpe.

(** The largest number of bytes of a group for which every offset inside a superblock
    of 16 groups fits its field. *)
Definition field_limit (M : mpe_type) : Z := match M with MPE1 => 2184 | _ => 1023 end.
(** No group of [L] ones takes more bytes: 64-bit positions, or at most [T] bits, which
    MPE3 may store with tables larger than what they save. *)
Definition fits_fields (M : mpe_type) (L T : Z) : bool :=
  (8 * (L - 1) <=? field_limit M) && ((T + 6) / 8 + match M with MPE3 => 2 * ((T - 1) / 128 + 1) | _ => 0 end <=? field_limit M).

(** The last group is complete, and a query inside it reads its flag: it has more than
    one one, and is stored as bits, or as positions with the flag in the same field. *)
Definition reads_last_flag (L T : Z) (B : list bool) : bool :=
  let g := groups L B - 1 in
  let d := group_span L B g in
  (1 <? L) && (count_true B mod L =? 0) && (if d >? T then 5 <=? g mod 16 else negb (d =? L)).
(** A byte that means "not compressed" as a flag. *)
Definition flag_clear (M : mpe_type) (x : Z) : bool := match M with MPE1 => x mod 256 =? 0 | _ => x mod 4 =? 0 end.

(** Byte [j] of group [g]: its bits up to the one before its last one. *)
Definition group_byte (L : Z) (B : list bool) (g j : Z) : Z :=
  sumf (fun b => if (8 * j + b <? group_span L B g - 1) && bit B (group_start L B g + 8 * j + b) then 2 ^ (7 - b) else 0) 0 8.
(** Pairs of bytes [v] in group [g], and bytes of a table of its pairs. *)
Definition byte_pairs (v L : Z) (B : list bool) (g : Z) : Z :=
  zlen (filter (fun j => (group_byte L B g (2 * j) =? v) && (group_byte L B g (2 * j + 1) =? v)) (zrange 0 (Z.to_nat ((group_span L B g + 6) / 8 / 2)))).
Definition table_bytes (L : Z) (B : list bool) (g : Z) : Z := (group_span L B g - 1) / 128 + 1.
(** Bytes saved in group [g]; never in the last one. *)
Definition group_saved (M : mpe_type) (L T : Z) (B : list bool) (g : Z) : Z :=
  let d := group_span L B g in
  let tl := table_bytes L B g in
  let n0 := byte_pairs 0 L B g in
  let n1 := byte_pairs 255 L B g in
  if (g + 1 <? groups L B) && (d <=? T) && negb (d =? L) then
    match M with
    | MPE1 => if n0 + n1 >? tl then 2 * (n0 + n1) - 2 * tl else 0
    | MPE2 => (if 2 * n0 >? tl then 2 * n0 - tl else 0) + (if 2 * n1 >? tl then 2 * n1 - tl else 0)
    | MPE3 => if (n0 >? 9) && (n1 >? 9) then 2 * (n0 + n1) - 2 * tl else
              if (n0 >=? 18) && (n1 <=? 9) then 2 * n0 - tl else
              if (n0 <=? 9) && (n1 >=? 18) then 2 * n1 - tl else 0
    end
  else 0.
Definition smpe_payload (M : mpe_type) (L T : Z) (B : list bool) : Z := sel_payload L T B - sumf (group_saved M L T B) 0 (groups L B).
