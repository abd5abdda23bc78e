(** The select structures of include/mranisz/shared/select.hpp with the language's rule
    that the address of a 64-bit read through a cast pointer is a multiple of 8.
    alignedBits is a multiple of 128, so the offset decides.  Everything else is as in
    MrSelect and MrSmpe. *)
From Verif Require Import Base Words Mem MrRank MrSelect MrMpe MrSmpe.

(** The loop of lines 1099-1106 (1170-1177, 3935-3942, 4291-4298). *)
Fixpoint word_loop_al (bits : list Z) (fuel : nat) (j diff p i select : Z) : res (Z * Z * Z) :=
  match fuel with
  | O => Ub UB_loop
  | S f =>
      if j <? diff then
        let* w := load_word true bits p in
        if popcount w >=? i then Ok (p, i, select)
        else word_loop_al bits f (j + 64) diff (p + 8) (i - popcount w) (u64 (select + 64))
      else Ok (p, i, select)
  end.

(** Lines 1093-1120 (1165-1191). *)
Definition in_block_al (th : Z) (bits : list Z) (off diff i select : Z) : res Z :=
  if diff >? th then load_word true bits (off + 8 * (i - 1)) else
  let* '(p, i, select) := word_loop_al bits (S (length bits)) 64 diff off i select in
  let* '(p, i, select) := byte_loop bits (S (length bits)) p i select in
  let* b := geti bits p in
  bit_loop b (zrange 0 8) i select.

(** getSelect_std, lines 1085-1121. *)
Definition select_std_al (el th : Z) (t : select_basic) (i : Z) : res Z :=
  let start := i / el in
  let* select := geti (sb_selects t) (2 * start) in
  let i := i mod el in
  if i =? 0 then Ok (u64 (select - 1)) else
  let* next := geti (sb_selects t) (2 * start + 2) in
  let diff := u64 (next - select) in
  if diff =? el then Ok (u64 (u64 (select - 1) + i)) else
  let* off := geti (sb_selects t) (2 * start + 1) in
  in_block_al th (sb_bits t) off diff i select.

(** getSelect_bch, lines 1123-1192. *)
Definition select_bch_al (el th : Z) (t : select_basic) (i : Z) : res Z :=
  let start := i / el in
  let p2 := 21 * (start / 16) in
  let from := start mod 16 in
  let* select := geti (sb_selects t) (p2 + from) in
  let i := i mod el in
  if i =? 0 then Ok (u64 (select - 1)) else
  let* next := geti (sb_selects t) (if from =? 15 then p2 + 21 else p2 + from + 1) in
  let diff := u64 (next - select) in
  if diff =? el then Ok (u64 (u64 (select - 1) + i)) else
  let* o := geti (sb_selects t) (p2 + 16) in
  let* off := if from >? 0 then
      let* w := geti (sb_selects t) (p2 + 16 + (from + 3) / 4) in
      Ok (u64 (o + (match from mod 4 with
                    | 3 => Z.land (Z.shiftr w 32) 0xFFFF
                    | 2 => Z.land (Z.shiftr w 16) 0xFFFF
                    | 1 => Z.land w 0xFFFF
                    | _ => Z.shiftr w 48
                    end)))
    else Ok o in
  in_block_al th (sb_bits t) off diff i select.

(** SelectMPE64: lines 3860-3956 and 4077-4312.  The buffer of decoded bytes is aligned;
    the tables and pairs of a compressed block are read byte by byte. *)
Definition in_dense_al (T : mpe_type) (f th : Z) (bits buf : list Z) (p diff i select : Z) : res Z :=
  match T with
  | MPE1 => if f =? 0 then in_block_al th bits p diff i select else in_compressed Both bits buf p diff i select
  | _ => if f =? 1 then in_compressed (Only 0) bits buf p diff i select else
         if f =? 2 then in_compressed (Only 255) bits buf p diff i select else
         if f =? 3 then in_compressed Both bits buf p diff i select else
         in_block_al th bits p diff i select
  end.

(** getSelect_v1 and getSelect_v2, lines 3759-4312. *)
Definition select_smpe_al (T : mpe_type) (el th : Z) (t : select_basic) (buf : list Z) (i : Z) : res Z :=
  let start := i / el in
  let p2 := 21 * (start / 16) in
  let from := start mod 16 in
  let* select := geti (sb_selects t) (p2 + from) in
  let i := i mod el in
  if i =? 0 then Ok (u64 (select - 1)) else
  let* next := geti (sb_selects t) (if from =? 15 then p2 + 21 else p2 + from + 1) in
  let diff := u64 (next - select) in
  if diff =? el then Ok (u64 (u64 (select - 1) + i)) else
  let* o := geti (sb_selects t) (p2 + 16) in
  if diff >? th then
    let* off := if from >? 0
      then let* w := geti (sb_selects t) (p2 + 16 + (from + 3) / 4) in Ok (u64 (o + sparse_offset T w from))
      else Ok o in
    load_word true (sb_bits t) (off + 8 * (i - 1))
  else
    let* '(p, f) := if from >? 0
      then let* w := geti (sb_selects t) (p2 + 16 + (from + 3) / 4) in
           let '(d, f) := dense_offset T w from in Ok (u64 (o + d), f)
      else let* w := geti (sb_selects t) (p2 + 17) in Ok (o, first_flag T w) in
    in_dense_al T f th (sb_bits t) buf p diff i select.
