(** include/mranisz/shared/select.hpp: SelectBasic64 (lines 667-1372), the select
    structure of src/perf_compressed_bitmap.cpp, for all template arguments
    L = [el] and THRESHOLD = [th] and both header types.  [text] is the byte array
    passed to build().  Memory from new[] holds unspecified values ([memory] of
    MrRank).  The loops over the bytes and the bits of a byte are one loop over the
    bits.  Loads of 64 bits from a byte pointer need no alignment (x86).  Counters
    that index an array are not wrapped: each use is checked against the array. *)
From Verif Require Import Base Mem Words Trees MrRank.

(** ((text[i] >> (7 - j)) & 1) == 1 with 8 * i + j = [q]. *)
Definition text_bit (text : list Z) (q : Z) : res bool :=
  let* b := geti text (q / 8) in Ok (Z.land (Z.shiftr b (7 - q mod 8)) 1 =? 1).

(** numberOfOnes: lines 691-693 (872-874). *)
Definition number_of_ones (text : list Z) : Z := fold_left (fun n b => u64 (n + popcount b)) text 0.

(** selectsLen, lines 695-696 (selectLenTemp, lines 876-877). *)
Definition selects_len (el ones : Z) : Z := 2 * (ones / el) + 2 + (if ones mod el >? 0 then 2 else 0).

(** x / 8, one more if there is a remainder. *)
Definition up8 (x : Z) : Z := x / 8 + (if x mod 8 >? 0 then 1 else 0).

(** One bit of the first pass: lines 711-741 (892-922).  State: selects,
    selectCounter, select, lastSelectPos, bitsLen. *)
Definition first_step (el th : Z) (text : list Z) (st : list Z * Z * Z * Z * Z) (q : Z) : res (list Z * Z * Z * Z * Z) :=
  let '(arr, sc, sel, last, blen) := st in
  let* b := text_bit text q in
  if b then
    let sel := u64 (sel + 1) in
    if sel mod el =? 0 then
      let* arr := seti arr sc q in
      let* arr := seti arr (sc + 1) 0 in
      let sc := sc + 2 in
      let* x := geti arr (sc - 2) in
      let* y := geti arr (sc - 4) in
      let d := u64 (x - y) in
      let d := if sc =? 4 then u64 (d + 1) else d in
      let blen :=
        if d >? th then u64 (blen + 8 * (el - 1))
        else if d >? el then u64 (blen + (if sc =? 4 then up8 d else up8 (u64 (d - 1))))
        else blen in
      Ok (arr, sc, sel, q, blen)
    else Ok (arr, sc, sel, q, blen)
  else Ok (arr, sc, sel, last, blen).

(** The first pass: lines 702-753 (884-934).  Result: selects, selectCounter and
    bitsLen. *)
Definition first_pass (el th : Z) (text : list Z) (ones : Z) (arr : list Z) : res (list Z * Z * Z) :=
  let* arr := seti arr 0 0 in
  let* arr := seti arr 1 0 in
  let* '(arr, sc, sel, last, blen) := foldM (first_step el th text) (zrange 0 (Z.to_nat (8 * zlen text))) (arr, 2, 0, 0, 0) in
  if ones mod el >? 0 then
    let* arr := seti arr sc last in
    let* arr := seti arr (sc + 1) 0 in
    let sc := sc + 2 in
    let* x := geti arr (sc - 2) in
    let* y := geti arr (sc - 4) in
    let d := u64 (x - y) in
    Ok (arr, sc, if d >? th then u64 (blen + 8 * (sel mod el)) else u64 (blen + up8 d))
  else Ok (arr, sc, blen).

(** State of the second pass: selects, the bytes from alignedBits on,
    selectCounter, bitsCounter, bitsToWrite, bitsToWritePos, upToBitPos,
    sparseBlock, monoBlock; [s_done] after the break. *)
Record scan2 := { s_arr : list Z; s_bits : list Z; s_sc : Z; s_bc : Z; s_byte : Z; s_pos : Z; s_upto : Z;
                  s_sparse : bool; s_mono : bool; s_done : bool }.

(** The start of a block: lines 766-770, 817-825 (950-954, 1001-1009). *)
Definition enter (el th : Z) (arr bits : list Z) (sc bc upto d : Z) : scan2 :=
  {| s_arr := arr; s_bits := bits; s_sc := sc; s_bc := bc; s_byte := 0; s_pos := 7; s_upto := upto;
     s_sparse := d >? th; s_mono := negb (d >? th) && (d =? el); s_done := false |}.

(** The last byte of a dense block: lines 803-806, 810-812 (987-990, 994-996). *)
Definition flush (st : scan2) : res (list Z * Z) :=
  if negb (s_mono st) && negb (s_sparse st) && negb (s_pos st =? 7)
  then let* bits := seti (s_bits st) (s_bc st) (s_byte st) in Ok (bits, s_bc st + 1)
  else Ok (s_bits st, s_bc st).

(** The end of the last block: lines 775-809 (959-993). *)
Definition last_one (el : Z) (text : list Z) (ones : Z) (st : scan2) (q : Z) : res scan2 :=
  let* '(bits, bc) :=
    if ones mod el >? 0 then
      let* b := text_bit text q in
      if s_sparse st && b then let* bits := store 8 (s_bits st) (s_bc st) q in Ok (bits, s_bc st + 8)
      else if negb (s_sparse st) && negb (s_mono st)
      then let* bits := seti (s_bits st) (s_bc st) (if b then u8 (s_byte st + 2 ^ s_pos st) else s_byte st) in Ok (bits, s_bc st + 1)
      else Ok (s_bits st, s_bc st)
    else flush st in
  Ok {| s_arr := s_arr st; s_bits := bits; s_sc := s_sc st + 2; s_bc := bc; s_byte := s_byte st; s_pos := s_pos st;
        s_upto := s_upto st; s_sparse := s_sparse st; s_mono := s_mono st; s_done := true |}.

(** The end of another block: lines 810-826 (994-1010). *)
Definition next_block (el th : Z) (st : scan2) : res scan2 :=
  let sc := s_sc st + 2 in
  let* '(bits, bc) := flush st in
  let* arr := seti (s_arr st) (sc + 1) bc in
  let* up := geti arr (sc + 2) in
  let* lo := geti arr sc in
  Ok (enter el th arr bits sc bc up (u64 (up - lo))).

(** A bit inside a block: lines 828-860 (1012-1044). *)
Definition inner_bit (text : list Z) (st : scan2) (q : Z) : res scan2 :=
  if s_mono st then Ok st else
  let* b := text_bit text q in
  if s_sparse st then
    if b then let* bits := store 8 (s_bits st) (s_bc st) q in
              Ok {| s_arr := s_arr st; s_bits := bits; s_sc := s_sc st; s_bc := s_bc st + 8; s_byte := s_byte st;
                    s_pos := s_pos st; s_upto := s_upto st; s_sparse := true; s_mono := false; s_done := false |}
    else Ok st
  else
    let byte := if b then u8 (s_byte st + 2 ^ s_pos st) else s_byte st in
    if s_pos st =? 0
    then let* bits := seti (s_bits st) (s_bc st) byte in
         Ok {| s_arr := s_arr st; s_bits := bits; s_sc := s_sc st; s_bc := s_bc st + 1; s_byte := 0; s_pos := 7;
               s_upto := s_upto st; s_sparse := false; s_mono := false; s_done := false |}
    else Ok {| s_arr := s_arr st; s_bits := s_bits st; s_sc := s_sc st; s_bc := s_bc st; s_byte := byte; s_pos := s_pos st - 1;
               s_upto := s_upto st; s_sparse := false; s_mono := false; s_done := false |}.

(** One bit of the second pass: lines 771-862 (955-1046); [last] is selectsLen - 2. *)
Definition second_step (el th : Z) (text : list Z) (ones last : Z) (st : scan2) (q : Z) : res scan2 :=
  if s_done st then Ok st else
  if q =? s_upto st
  then if s_sc st + 2 =? last then last_one el text ones st q else next_block el th st
  else inner_bit text st q.

(** The second pass and the increments after it: lines 759-865 (943-1049);
    [len] is the bound of the last loop. *)
Definition second_pass (el th : Z) (text : list Z) (ones last len : Z) (arr bits : list Z) : res (list Z * list Z) :=
  let* up := geti arr 2 in
  let* lo := geti arr 0 in
  let* st := foldM (second_step el th text ones last) (zrange 0 (Z.to_nat (8 * zlen text)))
                   (enter el th arr bits 0 0 up (u64 (u64 (up - lo) + 1))) in
  let* arr := foldM (fun arr i => let* x := geti arr (2 * i) in seti arr (2 * i) (u64 (x + 1)))
                    (zrange 1 (Z.to_nat ((len + 1) / 2 - 1))) (s_arr st) in
  Ok (arr, s_bits st).

(** new unsigned char[len + 128] at address [addr], from the next multiple of 128
    on: lines 755-757 (939-941). *)
Definition fresh_bytes (junk : Z -> Z) (addr len : Z) : list Z := fresh junk (len + 128 - (- addr) mod 128).

(** The members, lines 1195-1203; the arrays from alignedSelects and alignedBits on. *)
Record select_basic := { sb_selects : list Z; sb_selects_len : Z; sb_bits : list Z; sb_bits_len : Z; sb_text_len : Z }.

(** build_std, lines 687-866. *)
Definition build_sel (el th : Z) (m : memory) (text : list Z) : res select_basic :=
  let ones := number_of_ones text in
  let len := selects_len el ones in
  let* '(arr, _, blen) := first_pass el th text ones (fresh_aligned (m_junk_r m) (m_addr_r m) len) in
  let* '(arr, bits) := second_pass el th text ones (len - 2) len arr (fresh_bytes (m_junk_b m) (m_addr_b m) blen) in
  Ok {| sb_selects := arr; sb_selects_len := len; sb_bits := bits; sb_bits_len := blen; sb_text_len := zlen text |}.

(** One superblock, lines 1067-1076: the 21 words. *)
Definition super_of (temp : list Z) (s : Z) : res (list Z) :=
  let i := 16 * s in
  let* bucket := foldM (fun bucket j => let* x := geti temp (2 * (i + j)) in seti bucket j x) (zrange 0 16) (repeat 0 21) in
  let* o := geti temp (2 * i + 1) in
  let* bucket := seti bucket 16 o in
  foldM (fun bucket j =>
      let* t := geti temp (2 * (i + j + 1) + 1) in
      let* x := geti bucket (17 + j / 4) in
      seti bucket (17 + j / 4) (u64 (x + u64 (Z.shiftl (u64 (t - o)) (16 * (j mod 4))))))
    (zrange 0 15) bucket.

(** Rounding of lines 879-881. *)
Definition sel_temp_len (l : Z) : Z := if l mod 32 >? 0 then l + (32 - l mod 32) else l.

(** build_bch, lines 868-1083.  selectLenTempNotExtended (line 878) has 32 bits. *)
Definition build_sel_bch (el th : Z) (m : memory) (text : list Z) : res select_basic :=
  let ones := number_of_ones text in
  let len := selects_len el ones in
  let tl := sel_temp_len len in
  let* '(temp, sc, blen) := first_pass el th text ones (fresh (m_junk_t m) tl) in
  let* temp := foldM (fun temp k => seti temp k 0) (zrange sc (Z.to_nat (tl - sc))) temp in
  let* '(temp, bits) := second_pass el th text ones (u32 (u32 len - 2)) (u32 len) temp (fresh_bytes (m_junk_b m) (m_addr_b m) blen) in
  let slen := tl / 2 / 16 * 21 in
  let* arr := foldM (fun arr s => let* v := super_of temp s in put_words arr (21 * s) v)
                    (zrange 0 (Z.to_nat (tl / 2 / 16))) (fresh_aligned (m_junk_r m) (m_addr_r m) slen) in
  Ok {| sb_selects := arr; sb_selects_len := slen; sb_bits := bits; sb_bits_len := blen; sb_text_len := zlen text |}.

(** popcntLUT, lines 1212-1223. *)
Definition popcnt_lut : list Z := [
  0; 1; 1; 2; 1; 2; 2; 3; 1; 2; 2; 3; 2; 3; 3; 4; 1; 2; 2; 3; 2; 3; 3; 4;
  2; 3; 3; 4; 3; 4; 4; 5; 1; 2; 2; 3; 2; 3; 3; 4; 2; 3; 3; 4; 3; 4; 4; 5;
  2; 3; 3; 4; 3; 4; 4; 5; 3; 4; 4; 5; 4; 5; 5; 6; 1; 2; 2; 3; 2; 3; 3; 4;
  2; 3; 3; 4; 3; 4; 4; 5; 2; 3; 3; 4; 3; 4; 4; 5; 3; 4; 4; 5; 4; 5; 5; 6;
  2; 3; 3; 4; 3; 4; 4; 5; 3; 4; 4; 5; 4; 5; 5; 6; 3; 4; 4; 5; 4; 5; 5; 6;
  4; 5; 5; 6; 5; 6; 6; 7; 1; 2; 2; 3; 2; 3; 3; 4; 2; 3; 3; 4; 3; 4; 4; 5;
  2; 3; 3; 4; 3; 4; 4; 5; 3; 4; 4; 5; 4; 5; 5; 6; 2; 3; 3; 4; 3; 4; 4; 5;
  3; 4; 4; 5; 4; 5; 5; 6; 3; 4; 4; 5; 4; 5; 5; 6; 4; 5; 5; 6; 5; 6; 6; 7;
  2; 3; 3; 4; 3; 4; 4; 5; 3; 4; 4; 5; 4; 5; 5; 6; 3; 4; 4; 5; 4; 5; 5; 6;
  4; 5; 5; 6; 5; 6; 6; 7; 3; 4; 4; 5; 4; 5; 5; 6; 4; 5; 5; 6; 5; 6; 6; 7;
  4; 5; 5; 6; 5; 6; 6; 7; 5; 6; 6; 7; 6; 7; 7; 8].

(** The masks of lines 1224-1225. *)
Definition bit_masks : list Z := [0x80; 0x40; 0x20; 0x10; 0x08; 0x04; 0x02; 0x01].

(** The loop of lines 1099-1106 (1170-1177), j = 64, 128, ... below selectDiff.
    State: the pointer as an index, i, select. *)
Fixpoint word_loop (bits : list Z) (fuel : nat) (j diff p i select : Z) : res (Z * Z * Z) :=
  match fuel with
  | O => Ub UB_loop
  | S f =>
      if j <? diff then
        let* w := load 8 bits p in
        if popcount w >=? i then Ok (p, i, select)
        else word_loop bits f (j + 64) diff (p + 8) (i - popcount w) (u64 (select + 64))
      else Ok (p, i, select)
  end.

(** The loop of lines 1107-1113 (1178-1184). *)
Fixpoint byte_loop (bits : list Z) (fuel : nat) (p i select : Z) : res (Z * Z * Z) :=
  match fuel with
  | O => Ub UB_loop
  | S f =>
      let* b := geti bits p in
      let* c := geti popcnt_lut b in
      if c >=? i then Ok (p, i, select) else byte_loop bits f (p + 1) (i - c) (u64 (select + 8))
  end.

(** The loop of lines 1114-1120 (1185-1191). *)
Fixpoint bit_loop (b : Z) (js : list Z) (i select : Z) : res Z :=
  match js with
  | [] => Ok 0
  | j :: r =>
      let* m := geti bit_masks j in
      if Z.land b m =? 0 then bit_loop b r i select
      else if i =? 1 then Ok (u64 (select + j)) else bit_loop b r (i - 1) select
  end.

(** The end of getSelect_std and getSelect_bch: lines 1093-1120 (1165-1191). *)
Definition in_block (th : Z) (bits : list Z) (off diff i select : Z) : res Z :=
  if diff >? th then load 8 bits (off + 8 * (i - 1)) else
  let* '(p, i, select) := word_loop bits (S (length bits)) 64 diff off i select in
  let* '(p, i, select) := byte_loop bits (S (length bits)) p i select in
  let* b := geti bits p in
  bit_loop b (zrange 0 8) i select.

(** getSelect_std, lines 1085-1121. *)
Definition select_std (el th : Z) (t : select_basic) (i : Z) : res Z :=
  let start := i / el in
  let* select := geti (sb_selects t) (2 * start) in
  let i := i mod el in
  if i =? 0 then Ok (u64 (select - 1)) else
  let* next := geti (sb_selects t) (2 * start + 2) in
  let diff := u64 (next - select) in
  if diff =? el then Ok (u64 (u64 (select - 1) + i)) else
  let* off := geti (sb_selects t) (2 * start + 1) in
  in_block th (sb_bits t) off diff i select.

(** getSelect_bch, lines 1123-1192. *)
Definition select_bch (el th : Z) (t : select_basic) (i : Z) : res Z :=
  let start := i / el in
  let p2 := 21 * (start / 16) in
  let from := start mod 16 in
  let* select := geti (sb_selects t) (p2 + from) in
  let i := i mod el in
  if i =? 0 then Ok (u64 (select - 1)) else
  let* next := geti (sb_selects t) (if from =? 15 then p2 + 21 else p2 + from + 1) in
  let diff := u64 (next - select) in
  if diff =? el then Ok (u64 (u64 (select - 1) + i)) else
  let* o := geti (sb_selects t) (p2 + 16) in
  let* off := if from >? 0 then
      let* w := geti (sb_selects t) (p2 + 16 + (from + 3) / 4) in
      Ok (u64 (o + (match from mod 4 with
                    | 3 => Z.land (Z.shiftr w 32) 0xFFFF
                    | 2 => Z.land (Z.shiftr w 16) 0xFFFF
                    | 1 => Z.land w 0xFFFF
                    | _ => Z.shiftr w 48
                    end)))
    else Ok o in
  in_block th (sb_bits t) off diff i select.

(** The conditions of the constructor, lines 1227-1243; [bch]: compressed headers. *)
Definition arguments_ok (bch : bool) (el th : Z) : bool :=
  negb (el >=? th) && negb (bch && (((el - 1) * 8 >? 65535 / 15) || (th - 1 >? 8 * (65535 / 15)))).

(** getSize and getTextSize, lines 1339-1353. *)
Definition sel_size (t : select_basic) : Z :=
  u64 (40 + (if sb_selects_len t >? 0 then (sb_selects_len t + 16) * 8 else 0)
          + (if sb_bits_len t >? 0 then sb_bits_len t + 128 else 0)).
Definition sel_text_size (t : select_basic) : Z := sb_text_len t.
