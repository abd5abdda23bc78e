(** include/mranisz/shared/select.hpp: SelectBasic32 (lines 18-665), the select structure
    with 32-bit counters, for all template arguments L = [el] and THRESHOLD = [th] and both
    header types.  textLen and the argument of select() are unsigned int.  The shape of the
    code is that of SelectBasic64 (MrSelect): same members, positions of 4 bytes instead of
    8, superblocks of 25 ints.  8 * i + j is an unsigned int: [u32 q] for bit [q] of the
    text.  Counters that index an array (also bitsCounter) are not wrapped: each use is
    checked against the array. *)
From Verif Require Import Base Mem Words Trees MrRank MrSelect MrFile MrMpe MrRank32 MrMpe32.

(** numberOfOnes: lines 39-41 (203-205). *)
Definition number_of_ones32 (text : list Z) : Z := fold_left (fun n b => u32 (n + popcount b)) text 0.

(** selectsLen, lines 43-44 (selectLenTemp, lines 207-208). *)
Definition selects_len32 (el ones : Z) : Z := u32 (u32 (2 * (ones / el) + 2) + (if ones mod el >? 0 then 2 else 0)).

(** One bit of the first pass: lines 60-85 (225-248).  State: selects, selectCounter,
    select, lastSelectPos, bitsLen. *)
Definition first_step32 (el th : Z) (text : list Z) (st : list Z * Z * Z * Z * Z) (q : Z) : res (list Z * Z * Z * Z * Z) :=
  let '(arr, sc, sel, last, blen) := st in
  let* b := text_bit text q in
  if b then
    let sel := u32 (sel + 1) in
    let p := u32 q in
    if sel mod el =? 0 then
      let* arr := seti arr sc p in
      let* arr := seti arr (sc + 1) 0 in
      let sc := sc + 2 in
      let* x := geti arr (sc - 2) in
      let* y := geti arr (sc - 4) in
      let d := u32 (x - y) in
      let d := if sc =? 4 then u32 (d + 1) else d in
      let blen :=
        if d >? th then u32 (blen + 4 * (el - 1))
        else if d >? el then u32 (blen + (if sc =? 4 then up8 d else up8 (u32 (d - 1))))
        else blen in
      Ok (arr, sc, sel, p, blen)
    else Ok (arr, sc, sel, p, blen)
  else Ok (arr, sc, sel, last, blen).

(** The first pass: lines 50-100 (215-263).  Result: selects, selectCounter and bitsLen. *)
Definition first_pass32 (el th : Z) (text : list Z) (ones : Z) (arr : list Z) : res (list Z * Z * Z) :=
  let* arr := seti arr 0 0 in
  let* arr := seti arr 1 0 in
  let* '(arr, sc, sel, last, blen) := foldM (first_step32 el th text) (zrange 0 (Z.to_nat (8 * zlen text))) (arr, 2, 0, 0, 0) in
  if ones mod el >? 0 then
    let* arr := seti arr sc last in
    let* arr := seti arr (sc + 1) 0 in
    let sc := sc + 2 in
    let* x := geti arr (sc - 2) in
    let* y := geti arr (sc - 4) in
    let d := u32 (x - y) in
    Ok (arr, sc, if d >? th then u32 (blen + 4 * (sel mod el)) else u32 (blen + up8 d))
  else Ok (arr, sc, blen).

(** The end of the last block: lines 121-147. *)
Definition last_one32 (el : Z) (text : list Z) (ones : Z) (st : scan2) (q : Z) : res scan2 :=
  let* '(bits, bc) :=
    if ones mod el >? 0 then
      let* b := text_bit text q in
      if s_sparse st && b then let* bits := store 4 (s_bits st) (s_bc st) (u32 q) in Ok (bits, s_bc st + 4)
      else if negb (s_sparse st) && negb (s_mono st)
      then let* bits := seti (s_bits st) (s_bc st) (if b then u8 (s_byte st + 2 ^ s_pos st) else s_byte st) in Ok (bits, s_bc st + 1)
      else Ok (s_bits st, s_bc st)
    else flush st in
  Ok {| s_arr := s_arr st; s_bits := bits; s_sc := s_sc st + 2; s_bc := bc; s_byte := s_byte st; s_pos := s_pos st;
        s_upto := s_upto st; s_sparse := s_sparse st; s_mono := s_mono st; s_done := true |}.

(** The end of another block: lines 149-165; [flush] and [enter] of MrSelect are lines
    149-151 and 111-117, 153-163. *)
Definition next_block32 (el th : Z) (st : scan2) : res scan2 :=
  let sc := s_sc st + 2 in
  let* '(bits, bc) := flush st in
  let* arr := seti (s_arr st) (sc + 1) bc in
  let* up := geti arr (sc + 2) in
  let* lo := geti arr sc in
  Ok (enter el th arr bits sc bc up (u32 (up - lo))).

(** A bit inside a block: lines 167-191. *)
Definition inner_bit32 (text : list Z) (st : scan2) (q : Z) : res scan2 :=
  if s_mono st then Ok st else
  let* b := text_bit text q in
  if s_sparse st then
    if b then let* bits := store 4 (s_bits st) (s_bc st) (u32 q) in
              Ok {| s_arr := s_arr st; s_bits := bits; s_sc := s_sc st; s_bc := s_bc st + 4; s_byte := s_byte st;
                    s_pos := s_pos st; s_upto := s_upto st; s_sparse := true; s_mono := false; s_done := false |}
    else Ok st
  else
    let byte := if b then u8 (s_byte st + 2 ^ s_pos st) else s_byte st in
    if s_pos st =? 0
    then let* bits := seti (s_bits st) (s_bc st) byte in
         Ok {| s_arr := s_arr st; s_bits := bits; s_sc := s_sc st; s_bc := s_bc st + 1; s_byte := 0; s_pos := 7;
               s_upto := s_upto st; s_sparse := false; s_mono := false; s_done := false |}
    else Ok {| s_arr := s_arr st; s_bits := s_bits st; s_sc := s_sc st; s_bc := s_bc st; s_byte := byte; s_pos := s_pos st - 1;
               s_upto := s_upto st; s_sparse := false; s_mono := false; s_done := false |}.

(** One bit of the second pass: lines 120-192; [last] is selectsLen - 2. *)
Definition second_step32 (el th : Z) (text : list Z) (ones last : Z) (st : scan2) (q : Z) : res scan2 :=
  if s_done st then Ok st else
  if u32 q =? s_upto st
  then if s_sc st + 2 =? last then last_one32 el text ones st q else next_block32 el th st
  else inner_bit32 text st q.

(** The second pass and the increments after it: lines 106-196 (272-362); [len] is the bound
    of the last loop. *)
Definition second_pass32 (el th : Z) (text : list Z) (ones last len : Z) (arr bits : list Z) : res (list Z * list Z) :=
  let* up := geti arr 2 in
  let* lo := geti arr 0 in
  let* st := foldM (second_step32 el th text ones last) (zrange 0 (Z.to_nat (8 * zlen text)))
                   (enter el th arr bits 0 0 up (u32 (u32 (up - lo) + 1))) in
  let* arr := foldM (fun arr i => let* x := geti arr (2 * i) in seti arr (2 * i) (u32 (x + 1)))
                    (zrange 1 (Z.to_nat ((len + 1) / 2 - 1))) (s_arr st) in
  Ok (arr, s_bits st).

(** build_std, lines 35-197. *)
Definition build_sel32 (el th : Z) (m : memory) (text : list Z) : res select_basic :=
  let ones := number_of_ones32 text in
  let len := selects_len32 el ones in
  let* '(arr, _, blen) := first_pass32 el th text ones (fresh_aligned32 (m_junk_r m) (m_addr_r m) len) in
  let* '(arr, bits) := second_pass32 el th text ones (u32 (len - 2)) len arr (fresh_aligned_b32 (m_junk_b m) (m_addr_b m) blen) in
  Ok {| sb_selects := arr; sb_selects_len := len; sb_bits := bits; sb_bits_len := blen; sb_text_len := zlen text |}.

(** One superblock, lines 380-388: the 25 ints. *)
Definition super_of32 (temp : list Z) (s : Z) : res (list Z) :=
  let i := 16 * s in
  let* bucket := foldM (fun bucket j => let* x := geti temp (2 * (i + j)) in seti bucket j x) (zrange 0 16) (repeat 0 25) in
  let* o := geti temp (2 * i + 1) in
  let* bucket := seti bucket 16 o in
  foldM (fun bucket j =>
      let* t := geti temp (2 * (i + j + 1) + 1) in
      let* x := geti bucket (17 + j / 2) in
      seti bucket (17 + j / 2) (u32 (x + u32 (Z.shiftl (u32 (t - o)) (16 * (j mod 2))))))
    (zrange 0 15) bucket.

(** Rounding of lines 210-212. *)
Definition sel_temp_len32 (l : Z) : Z := if l mod 32 >? 0 then u32 (l + (32 - l mod 32)) else l.

(** build_bch, lines 199-396. *)
Definition build_sel_bch32 (el th : Z) (m : memory) (text : list Z) : res select_basic :=
  let ones := number_of_ones32 text in
  let len := selects_len32 el ones in
  let tl := sel_temp_len32 len in
  let* '(temp, sc, blen) := first_pass32 el th text ones (fresh32 (m_junk_t m) tl) in
  let* temp := foldM (fun temp k => seti temp k 0) (zrange sc (Z.to_nat (tl - sc))) temp in
  let* '(temp, bits) := second_pass32 el th text ones (u32 (len - 2)) len temp (fresh_aligned_b32 (m_junk_b m) (m_addr_b m) blen) in
  let slen := u32 (tl / 2 / 16 * 25) in
  let* arr := foldM (fun arr s => let* v := super_of32 temp s in put_words arr (25 * s) v)
                    (zrange 0 (Z.to_nat (tl / 2 / 16))) (fresh_aligned32 (m_junk_r m) (m_addr_r m) slen) in
  Ok {| sb_selects := arr; sb_selects_len := slen; sb_bits := bits; sb_bits_len := blen; sb_text_len := zlen text |}.

(** The loop of lines 411-418 (465-472), j = 64, 128, ... below selectDiff.  State: the
    pointer as an index, i, select. *)
Fixpoint word_loop32 (bits : list Z) (fuel : nat) (j diff p i select : Z) : res (Z * Z * Z) :=
  match fuel with
  | O => Ub UB_loop
  | S f =>
      if j <? diff then
        let* w := load 8 bits p in
        if popcount w >=? i then Ok (p, i, select)
        else word_loop32 bits f (u32 (j + 64)) diff (p + 8) (i - popcount w) (u32 (select + 64))
      else Ok (p, i, select)
  end.

(** The loop of lines 419-425 (473-479); popcntLUT (lines 507-518) is the table of MrSelect. *)
Fixpoint byte_loop32 (bits : list Z) (fuel : nat) (p i select : Z) : res (Z * Z * Z) :=
  match fuel with
  | O => Ub UB_loop
  | S f =>
      let* b := geti bits p in
      let* c := geti popcnt_lut b in
      if c >=? i then Ok (p, i, select) else byte_loop32 bits f (p + 1) (i - c) (u32 (select + 8))
  end.

(** The loop of lines 426-432 (480-486); masks (lines 519-520) is the table of MrSelect. *)
Fixpoint bit_loop32 (b : Z) (js : list Z) (i select : Z) : res Z :=
  match js with
  | [] => Ok 0
  | j :: r =>
      let* m := geti bit_masks j in
      if Z.land b m =? 0 then bit_loop32 b r i select
      else if i =? 1 then Ok (u32 (select + j)) else bit_loop32 b r (i - 1) select
  end.

(** The end of getSelect_std and getSelect_bch: lines 405-432 (461-486). *)
Definition in_block32 (th : Z) (bits : list Z) (off diff i select : Z) : res Z :=
  if diff >? th then load 4 bits (off + u32 (4 * (i - 1))) else
  let* '(p, i, select) := word_loop32 bits (S (length bits)) 64 diff off i select in
  let* '(p, i, select) := byte_loop32 bits (S (length bits)) p i select in
  let* b := geti bits p in
  bit_loop32 b (zrange 0 8) i select.

(** getSelect_std, lines 398-433. *)
Definition select_std32 (el th : Z) (t : select_basic) (i : Z) : res Z :=
  let start := i / el in
  let* select := geti (sb_selects t) (u32 (2 * start)) in
  let i := i mod el in
  if i =? 0 then Ok (u32 (select - 1)) else
  let* next := geti (sb_selects t) (u32 (2 * start + 2)) in
  let diff := u32 (next - select) in
  if diff =? el then Ok (u32 (u32 (select - 1) + i)) else
  let* off := geti (sb_selects t) (u32 (2 * start + 1)) in
  in_block32 th (sb_bits t) off diff i select.

(** getSelect_bch, lines 435-487. *)
Definition select_bch32 (el th : Z) (t : select_basic) (i : Z) : res Z :=
  let start := i / el in
  let p2 := u32 (25 * (start / 16)) in
  let from := start mod 16 in
  let* select := geti (sb_selects t) (p2 + from) in
  let i := i mod el in
  if i =? 0 then Ok (u32 (select - 1)) else
  let* next := geti (sb_selects t) (if from =? 15 then p2 + 25 else p2 + (from + 1)) in
  let diff := u32 (next - select) in
  if diff =? el then Ok (u32 (u32 (select - 1) + i)) else
  let* o := geti (sb_selects t) (p2 + 16) in
  let* off := if from >? 0 then
      let* w := geti (sb_selects t) (p2 + (16 + (from + 1) / 2)) in
      Ok (u32 (o + (if from mod 2 =? 1 then Z.land w 0xFFFF else Z.shiftr w 16)))
    else Ok o in
  in_block32 th (sb_bits t) off diff i select.

(** The conditions of the constructor, lines 522-538; [bch]: compressed headers.
    sizeof(unsigned int) is 4. *)
Definition arguments_ok32 (bch : bool) (el th : Z) : bool :=
  negb (el >=? th) && negb (bch && (((el - 1) * 4 >? 65535 / 15) || (th - 1 >? 8 * (65535 / 15)))).

(** getSize and getTextSize, lines 631-645: three ints, two pointers and the arrays. *)
Definition sel_size32 (t : select_basic) : Z :=
  u64 (28 + (if sb_selects_len t >? 0 then u32 (sb_selects_len t + 32) * 4 else 0)
          + (if sb_bits_len t >? 0 then u32 (sb_bits_len t + 128) else 0)).
Definition sel_text_size32 (t : select_basic) : Z := u32 (sb_text_len t).
