(** Specification of what include/mranisz is given: a text, an array of bytes
    read as bits, most significant bit of each byte first. *)
From Verif Require Import Base Spec.

Definition byte_bits (b : Z) : list bool := map (fun j => Z.testbit b (7 - j)) (zrange 0 8).
Definition text_bits (t : list Z) : list bool := flat_map byte_bits t.
Definition text_ok (t : list Z) : Prop := Forall (fun b => 0 <= b < 256) t.

(** The bytes of an array of 64-bit words in memory (little endian). *)
Definition text_of_words (ws : list Z) : list Z :=
  flat_map (fun w => map (fun j => (w / 2 ^ (8 * j)) mod 256) (zrange 0 8)) ws.

(** Blocks of 512 bits, the last one perhaps incomplete. *)
Definition text_blocks (t : list Z) : Z := (zlen t + 63) / 64.
(** The 512 bits of block [b] exist and are all equal. *)
Definition uniform_block (t : list Z) (b : Z) : Prop :=
  512 * (b + 1) <= zlen (text_bits t) /\
  exists v, forall p, 512 * b <= p < 512 * (b + 1) -> bit (text_bits t) p = v.

(** The same as a test, and the number of blocks for which it fails. *)
Definition block_bits (t : list Z) (b : Z) : list bool := firstn 512 (skipn (Z.to_nat (512 * b)) (text_bits t)).
Definition uniform (t : list Z) (b : Z) : bool :=
  (zlen (block_bits t b) =? 512) && (forallb negb (block_bits t b) || forallb (fun x => x) (block_bits t b)).
Definition kept_blocks (t : list Z) : Z := zlen (filter (fun b => negb (uniform t b)) (zrange 0 (Z.to_nat (text_blocks t)))).

(** Positions of the ones, and the position of the [k]-th, k from 1. *)
Definition one_positions (B : list bool) : list Z := filter (bit B) (zrange 0 (length B)).
Definition nth_one (B : list bool) (k : Z) : Z := zn 0 (one_positions B) (k - 1).

(** The position after the last one of group number [g]-1, groups of [L] ones. *)
Definition group_start (L : Z) (B : list bool) (g : Z) : Z := if g =? 0 then 0 else nth_one B (g * L) + 1.
(** The last group is incomplete and ends [L] positions after its start. *)
Definition misread (L : Z) (B : list bool) : bool :=
  let n := count_true B in
  (n mod L >? 0) && (nth_one B n + 1 - group_start L B (n / L) =? L).
(** Fewer than [L] ones, the last one at position [T], and their positions as
    64-bit numbers do not fit into the bytes of [T] bits and [room] bytes more. *)
Definition overflows (L T room : Z) (B : list bool) : bool :=
  let n := count_true B in
  (1 <=? n) && (n <? L) && (nth_one B n =? T) && (8 * n >? (T + 7) / 8 + room).
(** Number of groups of [L] ones, the last one perhaps incomplete. *)
Definition groups (L : Z) (B : list bool) : Z := (count_true B + L - 1) / L.
(** The [k]-th one, except in a group that is [misread]: there the positions from
    its start on are counted. *)
Definition sel_answer (L : Z) (B : list bool) (k : Z) : Z :=
  let n := count_true B in
  if misread L B && (n / L * L <? k) then group_start L B (n / L) + (k - n / L * L) - 1 else nth_one B k.

(** Bytes counted for group [g]: 64-bit positions if it is longer than [T], nothing
    if all its bits are ones, otherwise its bits. *)
Definition group_span (L : Z) (B : list bool) (g : Z) : Z := nth_one B (Z.min ((g + 1) * L) (count_true B)) + 1 - group_start L B g.
Definition group_bytes (L T : Z) (B : list bool) (g : Z) : Z :=
  let n := count_true B in
  let d := group_span L B g in
  if (g + 1) * L <=? n
  then if d >? T then 8 * (L - 1) else if d =? L then 0 else if g =? 0 then (d + 7) / 8 else (d + 6) / 8
  else let d := if g =? 0 then d - 1 else d in if d >? T then 8 * (n mod L) else (d + 7) / 8.
Definition sel_payload (L T : Z) (B : list bool) : Z := sumf (group_bytes L T B) 0 (groups L B).
