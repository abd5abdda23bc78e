(** include/mranisz/shared/select.hpp lines 1375-2872: SelectMPE32, for all template
    arguments L = [el] and THRESHOLD = [th] and the three variants.  It is SelectMPE64
    (MrSmpe) with unsigned int counters, positions of 4 bytes and the superblocks of
    SelectBasic32: 16 groups in 25 ints, two 16-bit fields to an int.  textLen and the
    argument of select() are unsigned int.  8 * i + j is an unsigned int: [u32 q] for bit
    [q] of the text.  Shared with MrSmpe where the lines are the same: the state of a pass
    and the start, the inside and the last byte of a block ([enter3]: lines 1480-1488,
    1530-1540, 1574-1583, 1673-1685, 1835-1844, 1929-1939, 1974-1983, 2121-2133; [flush3]:
    1506-1508, 1615-1616, 1625-1627, 1862-1864, 2015-2016, 2025-2027; [last3]: 1493-1505,
    1589-1624, 1849-1861, 1989-2024; [inner3]: 1543-1555, 1688-1710, 1942-1954, 2136-2158),
    the counting of pairs ([pairs_any]: 1511-1519; [pairs_both]: 1867-1877), the tables and
    the bytes stored ([zero_table]: 1566-1567, 1632-1635, 1965-1967, 2032-2035, 2068-2069,
    2092-2093; [both_step]: 1637-1660, 2037-2060; [one_step]: 2071-2086, 2095-2110;
    [put_odd]: 1638-1642; [put_table]: 1661-1662; [store_plain3]: 1608-1612, 1617-1620,
    1666-1669, 2008-2012, 2017-2020, 2114-2117).  Counters that index an array are not
    wrapped: each use is checked against the array.  build_v1 (lines 1402-1754) and build_v2
    (1756-2202) are the same up to the choice of the blocks to compress and the forms of
    compression; so are getSelect_v1 (2204-2369) and getSelect_v2 (2371-2675). *)
From Verif Require Import Base Mem Words Trees MrRank MrSelect MrMpe MrRank32 MrMpe32 MrSelect32 MrSmpe.

(** ** Construction *)

(** The end of a block that is not the last: lines 1506-1541, 1625-1686 (1862-1940, 2025-2134). *)
Definition next3_32 {S} (p : pass S) (el th : Z) (st : scan3 S) : res (scan3 S) :=
  let sc := z_sc st + 2 in
  let* '(cont, n) := flush3 st in
  let* out := p_end p (z_out st) sc cont n (z_len st) (is_dense st) in
  let* up := geti (p_sel p out) (sc + 2) in
  let* lo := geti (p_sel p out) sc in
  Ok (enter3 el th out cont sc up (u32 (up - lo))).

(** One bit: lines 1489-1557, 1585-1712 (1845-1956, 1985-2160); [last] is
    selectLenTempNotExtended - 2. *)
Definition step3_32 {S} (p : pass S) (el th : Z) (text : list Z) (ones last : Z) (st : scan3 S) (q : Z) : res (scan3 S) :=
  if z_done st then Ok st else
  if u32 q =? z_upto st
  then if z_sc st + 2 =? last then last3 p el text ones st q else next3_32 p el th st
  else inner3 p text st q.

(** A whole pass; [cont] is bitsContainer, THRESHOLD / 8 + 1 numbers (lines 1472, 1826). *)
Definition scan_all32 {S} (p : pass S) (el th : Z) (text : list Z) (ones last : Z) (cont : list Z) (out : S) : res (scan3 S) :=
  let* up := geti (p_sel p out) 2 in
  let* lo := geti (p_sel p out) 0 in
  foldM (step3_32 p el th text ones last) (zrange 0 (Z.to_nat (8 * zlen text)))
        (enter3 el th out cont 0 up (u32 (u32 (up - lo) + 1))).

(** bitTableLen, lines 1521, 1631, 1878, 2031. *)
Definition table_len32 (d : Z) : Z := u32 (d - 1) / 128 + 1.

(** The choice for a dense block, lines 1520-1526 and 1878-1925: the entry of
    blockToCompress, what is added to pairsToRemove and to addedBitTablesInBytes. *)
Definition choose3_32 (T : mpe_type) (cont : list Z) (n d : Z) : res (Z * Z * Z) :=
  let tl := table_len32 d in
  match T with
  | MPE1 => let* c := pairs_any cont n in Ok (if c >? tl then (1, c, 2 * tl) else (0, 0, 0))
  | MPE2 => let* '(n0, n1) := pairs_both cont n in
            Ok (if (2 * n0 >? tl) && (2 * n1 >? tl) then (3, n0 + n1, 2 * tl) else
                if (2 * n0 >? tl) && (2 * n1 <=? tl) then (1, n0, tl) else
                if (2 * n0 <=? tl) && (2 * n1 >? tl) then (2, n1, tl) else (0, 0, 0))
  | MPE3 => let* '(n0, n1) := pairs_both cont n in
            Ok (if (n0 >? 9) && (n1 >? 9) then (3, n0 + n1, 2 * tl) else
                if (n0 >=? 9 * 2) && (n1 <=? 9) then (1, n0, tl) else
                if (n0 <=? 9) && (n1 >=? 9 * 2) then (2, n1, tl) else (0, 0, 0))
  end.

(** The second pass, lines 1474-1557 and 1828-1956, with the state of [choose_pass] of MrSmpe. *)
Definition choose_end32 (T : mpe_type) (st : list Z * list Z * Z * Z) (sc : Z) (cont : list Z) (n d : Z) (dense : bool) : res (list Z * list Z * Z * Z) :=
  let '(temp, btc, removed, added) := st in
  let b := sc / 2 - 1 in
  let* btc := seti btc b 0 in
  if dense
  then let* '(f, r, a) := choose3_32 T cont n d in
       let* btc := seti btc b f in
       Ok (temp, btc, u32 (removed + r), u32 (added + a))
  else Ok (temp, btc, removed, added).
Definition choose_pass32 (T : mpe_type) (el ones last : Z) : pass (list Z * list Z * Z * Z) :=
  {| p_sel := fun '(temp, _, _, _) => temp; p_one := fun st _ => Ok st; p_end := choose_end32 T; p_last := choose_last el ones last |}.

(** Two tables: lines 1630-1664 and 2030-2064. *)
Definition store_both_32 (th : Z) (cont : list Z) (n d : Z) (bits : list Z) (bc : Z) : res (list Z * Z) :=
  let tl := table_len32 d in
  let* zero := zero_table th tl in
  let* '(bits, bc', tab1, tab2) := foldM (both_step cont) (zrange 0 (Z.to_nat (n / 2))) (bits, bc + 2 * tl, zero, zero) in
  let* '(bits, bc') := put_odd cont bits bc' n in
  let* bits := put_table bits bc tl tab1 in
  let* bits := put_table bits (bc + tl) tl tab2 in
  Ok (bits, bc').

(** One table: lines 2066-2088 and 2090-2112. *)
Definition store_one_32 (v th : Z) (cont : list Z) (n d : Z) (bits : list Z) (bc : Z) : res (list Z * Z) :=
  let tl := table_len32 d in
  let* zero := zero_table th tl in
  let* '(bits, bc', tab) := foldM (one_step v cont) (zrange 0 (Z.to_nat (n / 2))) (bits, bc + tl, zero) in
  let* '(bits, bc') := put_odd cont bits bc' n in
  let* bits := put_table bits bc tl tab in
  Ok (bits, bc').

(** Lines 1629-1670 and 2029-2118; [f] is compressedBlock. *)
Definition store3_32 (T : mpe_type) (th f : Z) (cont : list Z) (n d : Z) (bits : list Z) (bc : Z) : res (list Z * Z) :=
  match T with
  | MPE1 => if f =? 0 then store_plain3 cont n bits bc else store_both_32 th cont n d bits bc
  | _ => if f =? 3 then store_both_32 th cont n d bits bc else
         if f =? 1 then store_one_32 0 th cont n d bits bc else
         if f =? 2 then store_one_32 255 th cont n d bits bc else
         store_plain3 cont n bits bc
  end.

(** The third pass, lines 1566-1712 and 1965-2160, with the state of [store_pass] of MrSmpe. *)
Definition store_pos32 (st : list Z * list Z * Z * Z) (q : Z) : res (list Z * list Z * Z * Z) :=
  let '(temp, bits, bc, f) := st in
  let* bits := store 4 bits bc (u32 q) in Ok (temp, bits, bc + 4, f).
Definition store_end32 (T : mpe_type) (th : Z) (btc : list Z) (st : list Z * list Z * Z * Z) (sc : Z) (cont : list Z) (n d : Z) (dense : bool) : res (list Z * list Z * Z * Z) :=
  let '(temp, bits, bc, f) := st in
  let* '(bits, bc) := if dense then store3_32 T th f cont n d bits bc else Ok (bits, bc) in
  let* temp := seti temp (sc + 1) bc in
  let* f := geti btc (sc / 2) in
  Ok (temp, bits, bc, f).
Definition store_pass32 (T : mpe_type) (th : Z) (btc : list Z) : pass (list Z * list Z * Z * Z) :=
  {| p_sel := fun '(temp, _, _, _) => temp; p_one := store_pos32; p_end := store_end32 T th btc; p_last := store_last |}.

(** One superblock, lines 1734-1745 and 2182-2193: the 25 ints.  [flag_of_first32] as in
    MrMpe32. *)
Definition super3_32 (T : mpe_type) (strict : bool) (jf : Z -> Z) (temp btc : list Z) (s : Z) : res (list Z) :=
  let i := 16 * s in
  let* bucket := foldM (fun bucket j => let* x := geti temp (2 * (i + j)) in seti bucket j x) (zrange 0 16) (repeat 0 25) in
  let* o := geti temp (2 * i + 1) in
  let* bucket := seti bucket 16 o in
  let* bucket := foldM (fun bucket j =>
      let* t := geti temp (2 * (i + j + 1) + 1) in
      let* f := read_btc strict jf btc (i + j + 1) in
      let* x := geti bucket (17 + j / 2) in
      seti bucket (17 + j / 2) (u32 (x + u32 (Z.shiftl (u32 (u32 (t - o) + flag_in_offset T f)) (16 * (j mod 2))))))
    (zrange 0 15) bucket in
  let* f := read_btc strict jf btc i in
  let* x := geti bucket 17 in
  seti bucket 17 (u32 (x + flag_of_first32 T f)).

(** build, lines 2749-2758: build_v1 or build_v2.  The members, lines 2678-2690, are those
    of SelectMPE64. *)
Definition build_smpe32 (T : mpe_type) (el th : Z) (strict : bool) (jf : Z -> Z) (m : memory) (text : list Z) : res select_basic :=
  let ones := number_of_ones32 text in
  let len := selects_len32 el ones in
  let tl := sel_temp_len32 len in
  let* '(temp, sc, blen) := first_pass32 el th text ones (fresh32 (m_junk_t m) tl) in
  let* temp := foldM (fun temp k => seti temp k 0) (zrange sc (Z.to_nat (tl - sc))) temp in
  let cont := fresh32 (m_junk_t m) (th / 8 + 1) in
  let* st := scan_all32 (choose_pass32 T el ones (u32 (len - 2))) el th text ones (u32 (len - 2)) cont (temp, fresh_b jf (sc / 2 - 1), 0, 0) in
  let '(temp, btc, removed, added) := z_out st in
  let blen := u32 (u32 (blen + added) - 2 * removed) in
  let* f := geti btc 0 in
  let* st := scan_all32 (store_pass32 T th btc) el th text ones (u32 (len - 2)) (z_cont st) (temp, fresh_aligned_b32 (m_junk_b m) (m_addr_b m) blen, 0, f) in
  let '(temp, bits, _, _) := z_out st in
  (* Lines 1713-1714 and 2161-2162. *)
  let sc := z_sc st in
  let* temp := foldM (fun temp k => let* x := geti temp (u32 (sc - 1)) in seti temp (sc + 1 + 2 * k) x)
                     (zrange 0 (Z.to_nat ((tl - sc) / 2))) temp in
  (* Lines 1716-1717 and 2164-2165. *)
  let* temp := foldM (fun temp i => let* x := geti temp (2 * i) in seti temp (2 * i) (u32 (x + 1)))
                     (zrange 1 (Z.to_nat ((len + 1) / 2 - 1))) temp in
  let slen := u32 (tl / 2 / 16 * 25) in
  let* arr := foldM (fun arr s => let* v := super3_32 T strict jf temp btc s in put_words arr (25 * s) v)
                    (zrange 0 (Z.to_nat (tl / 2 / 16))) (fresh_aligned32 (m_junk_r m) (m_addr_r m) slen) in
  Ok {| sb_selects := arr; sb_selects_len := slen; sb_bits := bits; sb_bits_len := blen; sb_text_len := zlen text |}.

(** The conditions of the constructor, lines 2721-2743; sizeof(unsigned int) is 4. *)
Definition smpe_arguments32 (T : mpe_type) (el th : Z) : bool :=
  let field := match T with MPE1 => 32767 | _ => 16383 end in
  negb (el >=? th) && negb (((el - 1) * 4 >? field / 15) || (th - 1 >? 8 * (field / 15))).

(** ** Queries *)

(** The offset of a sparse block inside its superblock: lines 2221-2240 and 2388-2407; [w]
    is the int that holds it, [from] = selectFromStart > 0. *)
Definition sparse_offset32 (T : mpe_type) (w from : Z) : Z :=
  if from <=? 2
  then let mask := match T with MPE1 => 0x3FFF | _ => 0x0FFF end in
       if from =? 1 then Z.land w mask else Z.land (Z.shiftr w 16) mask
  else if from mod 2 =? 1 then Z.land w 0xFFFF else Z.shiftr w 16.

(** The offset of another block and compressedBlock: lines 2244-2269 and 2411-2436. *)
Definition dense_offset32 (T : mpe_type) (w from : Z) : Z * Z :=
  match T with
  | MPE1 => let mask := if from <=? 2 then 0x3FFF else 0x7FFF in
            if from mod 2 =? 1 then (Z.land w mask, Z.land (Z.shiftr w 15) 1)
            else (Z.land (Z.shiftr w 16) mask, Z.shiftr w 31)
  | _ => let mask := if from <=? 2 then 0x0FFF else 0x3FFF in
         if from mod 2 =? 1 then (Z.land w mask, Z.land (Z.shiftr w 14) 3)
         else (Z.land (Z.shiftr w 16) mask, Z.shiftr w 30)
  end.

(** The loops of lines 2328-2340 and the like over the buffer; the byte they stop at has [i]
    ones or more, so that the loop over its bits returns. *)
Definition in_buffer32 (buf : list Z) (i select : Z) : res Z :=
  let* '(p, i, select) := byte_loop32 buf (S (length buf)) 0 i select in
  let* b := geti buf p in
  bit_loop32 b (zrange 0 8) i select.

(** The loops over the tables, lines 2279-2327 (2445-2491, 2519-2565, 2593-2644), and the
    search in the buffer after them, as [decode] of MrSmpe; [pair_value] is lines 2281-2287. *)
Fixpoint decode32 (kind : left_out) (bits : list Z) (p tl : Z) (js : list Z) (buf : list Z) (bc take i select dp : Z) : res Z :=
  match js with
  | [] => in_buffer32 buf i select
  | j :: r =>
      let* w := geti bits (p + j / 8) in
      let* mask := geti bit_masks (j mod 8) in
      let* '(buf, bc, dp, over) :=
        if Z.land w mask =? 0
        then let* x := geti bits dp in
             let* buf := seti buf bc x in
             if take <=? 8 then Ok (buf, bc + 1, dp, true) else
             let* y := geti bits (dp + 1) in
             let* buf := seti buf (bc + 1) y in
             Ok (buf, bc + 2, dp + 2, take <=? 16)
        else let* v := pair_value kind bits p tl j mask in
             let* buf := seti buf bc v in
             let* buf := seti buf (bc + 1) v in
             Ok (buf, bc + 2, dp, take <=? 16) in
      if over then in_buffer32 buf i select else
      if bc mod 8 =? 0
      then let* full := load 8 buf 0 in
           if popcount full >=? i then in_buffer32 buf i select
           else decode32 kind bits p tl r buf 0 (take - 16) (i - popcount full) (u32 (select + 64)) dp
      else decode32 kind bits p tl r buf bc (take - 16) i select dp
  end.

(** A compressed block: lines 2273-2340, 2440-2507, 2514-2581, 2587-2660. *)
Definition in_compressed32 (kind : left_out) (bits buf : list Z) (p diff i select : Z) : res Z :=
  let tl := table_len32 diff in
  let dp := match kind with Both => p + tl + tl | Only _ => p + tl end in
  decode32 kind bits p tl (zrange 0 (Z.to_nat (8 * tl))) buf 0 diff i select dp.

(** Lines 2272-2368 and 2439-2674: after the offset; [f] is compressedBlock.  A block that is
    not compressed is searched as in SelectBasic32 ([in_block32]; here diff is at most
    THRESHOLD). *)
Definition in_dense32 (T : mpe_type) (f th : Z) (bits buf : list Z) (p diff i select : Z) : res Z :=
  match T with
  | MPE1 => if f =? 0 then in_block32 th bits p diff i select else in_compressed32 Both bits buf p diff i select
  | _ => if f =? 1 then in_compressed32 (Only 0) bits buf p diff i select else
         if f =? 2 then in_compressed32 (Only 255) bits buf p diff i select else
         if f =? 3 then in_compressed32 Both bits buf p diff i select else
         in_block32 th bits p diff i select
  end.

(** select, lines 2760-2769: getSelect_v1 or getSelect_v2; [buf] is what alignedBuffer holds
    before (from new[] or from earlier queries). *)
Definition select_smpe32 (T : mpe_type) (el th : Z) (t : select_basic) (buf : list Z) (i : Z) : res Z :=
  let start := i / el in
  let p2 := u32 (25 * (start / 16)) in
  let from := start mod 16 in
  let* select := geti (sb_selects t) (p2 + from) in
  let i := i mod el in
  if i =? 0 then Ok (u32 (select - 1)) else
  let* next := geti (sb_selects t) (if from =? 15 then p2 + 25 else p2 + from + 1) in
  let diff := u32 (next - select) in
  if diff =? el then Ok (u32 (u32 (select - 1) + i)) else
  let* o := geti (sb_selects t) (p2 + 16) in
  if diff >? th then
    let* off := if from >? 0
      then let* w := geti (sb_selects t) (p2 + 16 + (from + 1) / 2) in Ok (u32 (o + sparse_offset32 T w from))
      else Ok o in
    load 4 (sb_bits t) (off + u32 (4 * (i - 1)))
  else
    let* '(p, f) := if from >? 0
      then let* w := geti (sb_selects t) (p2 + 16 + (from + 1) / 2) in
           let '(d, f) := dense_offset32 T w from in Ok (u32 (o + d), f)
      else let* w := geti (sb_selects t) (p2 + 17) in Ok (o, first_flag32 T w) in
    in_dense32 T f th (sb_bits t) buf p diff i select.

(** getSize and getTextSize, lines 2838-2854: three ints, four pointers, the buffer and the
    arrays. *)
Definition smpe_size32 (t : select_basic) : Z :=
  u64 (44 + 136 + (if sb_selects_len t >? 0 then u32 (sb_selects_len t + 32) * 4 else 0)
                + (if sb_bits_len t >? 0 then u32 (sb_bits_len t + 128) else 0)).
Definition smpe_text_size32 (t : select_basic) : Z := u32 (sb_text_len t).
