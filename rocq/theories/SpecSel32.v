(** What SelectBasic32 of include/mranisz does, in terms of the bits of the text: as
    SelectBasic64 (SpecText), but positions are stored as 32-bit numbers. *)
From Verif Require Import Base Trees Spec SpecText.

(** Fewer than [L] ones, the last one at position [T], and their positions as
    32-bit numbers do not fit into the bytes of [T] bits and [room] bytes more. *)
Definition overflows32 (L T room : Z) (B : list bool) : bool :=
  let n := count_true B in
  (1 <=? n) && (n <? L) && (nth_one B n =? T) && (4 * n >? (T + 7) / 8 + room).

(** Bytes counted for group [g]: 32-bit positions if it is longer than [T], nothing
    if all its bits are ones, otherwise its bits. *)
Definition group_bytes32 (L T : Z) (B : list bool) (g : Z) : Z :=
  let n := count_true B in
  let d := group_span L B g in
  if (g + 1) * L <=? n
  then if d >? T then 4 * (L - 1) else if d =? L then 0 else if g =? 0 then (d + 7) / 8 else (d + 6) / 8
  else let d := if g =? 0 then d - 1 else d in if d >? T then 4 * (n mod L) else (d + 7) / 8.
Definition sel_payload32 (L T : Z) (B : list bool) : Z := sumf (group_bytes32 L T B) 0 (groups L B).
(** The constructor adds 128 to the number of bytes in an unsigned int. *)
Definition payload_too_large32 (L T : Z) (B : list bool) : bool := 2 ^ 32 <=? sel_payload32 L T B + 128.
