(** SelectBasic32 and SelectMPE32 of include/mranisz/shared/select.hpp with the language's
    rule that the address of a read through a cast pointer is a multiple of the size read:
    4 for a position, 8 for a word of bits.  alignedBits is a multiple of 128 (lines 102-104),
    so the offset decides.  Everything else is as in MrSelect32 and MrSmpe32. *)
From Verif Require Import Base Words Mem MrRank MrSelect MrMpe MrRank32 MrMpe32 MrSelect32 MrSmpe MrSmpe32.

(** A read of [n] bytes through a cast pointer: lines 406-408, 412-413 (462, 466-467,
    2241, 2349, 2408, 2654-2655). *)
Definition load_al (n : nat) (bits : list Z) (p : Z) : res Z :=
  if p mod Z.of_nat n =? 0 then load n bits p else Ub UB_align.

(** The loop of lines 411-418 (465-472, 2653-2660). *)
Fixpoint word_loop_al32 (bits : list Z) (fuel : nat) (j diff p i select : Z) : res (Z * Z * Z) :=
  match fuel with
  | O => Ub UB_loop
  | S f =>
      if j <? diff then
        let* w := load_al 8 bits p in
        if popcount w >=? i then Ok (p, i, select)
        else word_loop_al32 bits f (u32 (j + 64)) diff (p + 8) (i - popcount w) (u32 (select + 64))
      else Ok (p, i, select)
  end.

(** Lines 405-432 (461-486). *)
Definition in_block_al32 (th : Z) (bits : list Z) (off diff i select : Z) : res Z :=
  if diff >? th then load_al 4 bits (off + u32 (4 * (i - 1))) else
  let* '(p, i, select) := word_loop_al32 bits (S (length bits)) 64 diff off i select in
  let* '(p, i, select) := byte_loop32 bits (S (length bits)) p i select in
  let* b := geti bits p in
  bit_loop32 b (zrange 0 8) i select.

(** getSelect_std, lines 398-433. *)
Definition select_std_al32 (el th : Z) (t : select_basic) (i : Z) : res Z :=
  let start := i / el in
  let* select := geti (sb_selects t) (u32 (2 * start)) in
  let i := i mod el in
  if i =? 0 then Ok (u32 (select - 1)) else
  let* next := geti (sb_selects t) (u32 (2 * start + 2)) in
  let diff := u32 (next - select) in
  if diff =? el then Ok (u32 (u32 (select - 1) + i)) else
  let* off := geti (sb_selects t) (u32 (2 * start + 1)) in
  in_block_al32 th (sb_bits t) off diff i select.

(** getSelect_bch, lines 435-487. *)
Definition select_bch_al32 (el th : Z) (t : select_basic) (i : Z) : res Z :=
  let start := i / el in
  let p2 := u32 (25 * (start / 16)) in
  let from := start mod 16 in
  let* select := geti (sb_selects t) (p2 + from) in
  let i := i mod el in
  if i =? 0 then Ok (u32 (select - 1)) else
  let* next := geti (sb_selects t) (if from =? 15 then p2 + 25 else p2 + (from + 1)) in
  let diff := u32 (next - select) in
  if diff =? el then Ok (u32 (u32 (select - 1) + i)) else
  let* o := geti (sb_selects t) (p2 + 16) in
  let* off := if from >? 0 then
      let* w := geti (sb_selects t) (p2 + (16 + (from + 1) / 2)) in
      Ok (u32 (o + (if from mod 2 =? 1 then Z.land w 0xFFFF else Z.shiftr w 16)))
    else Ok o in
  in_block_al32 th (sb_bits t) off diff i select.

(** getSelect_v1 and getSelect_v2 of SelectMPE32: the buffer of decoded bytes is aligned,
    tables and pairs are read byte by byte. *)
Definition in_dense_al32 (T : mpe_type) (f th : Z) (bits buf : list Z) (p diff i select : Z) : res Z :=
  match T with
  | MPE1 => if f =? 0 then in_block_al32 th bits p diff i select else in_compressed32 Both bits buf p diff i select
  | _ => if f =? 1 then in_compressed32 (Only 0) bits buf p diff i select else
         if f =? 2 then in_compressed32 (Only 255) bits buf p diff i select else
         if f =? 3 then in_compressed32 Both bits buf p diff i select else
         in_block_al32 th bits p diff i select
  end.

(** select of SelectMPE32, lines 2760-2769. *)
Definition select_smpe_al32 (T : mpe_type) (el th : Z) (t : select_basic) (buf : list Z) (i : Z) : res Z :=
  let start := i / el in
  let p2 := u32 (25 * (start / 16)) in
  let from := start mod 16 in
  let* select := geti (sb_selects t) (p2 + from) in
  let i := i mod el in
  if i =? 0 then Ok (u32 (select - 1)) else
  let* next := geti (sb_selects t) (if from =? 15 then p2 + 25 else p2 + from + 1) in
  let diff := u32 (next - select) in
  if diff =? el then Ok (u32 (u32 (select - 1) + i)) else
  let* o := geti (sb_selects t) (p2 + 16) in
  if diff >? th then
    let* off := if from >? 0
      then let* w := geti (sb_selects t) (p2 + 16 + (from + 1) / 2) in Ok (u32 (o + sparse_offset32 T w from))
      else Ok o in
    load_al 4 (sb_bits t) (off + u32 (4 * (i - 1)))
  else
    let* '(p, f) := if from >? 0
      then let* w := geti (sb_selects t) (p2 + 16 + (from + 1) / 2) in
           let '(d, f) := dense_offset32 T w from in Ok (u32 (o + d), f)
      else let* w := geti (sb_selects t) (p2 + 17) in Ok (o, first_flag32 T w) in
    in_dense_al32 T f th (sb_bits t) buf p diff i select.
