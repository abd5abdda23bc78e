(** include/mranisz/shared/select.hpp lines 2873-4515: SelectMPE64, for all template
    arguments L = [el] and THRESHOLD = [th] and the three variants, which
    src/perf_compressed_bitmap.cpp measures with 128 and 4096.  The structure is
    SelectBasic64 with compressed headers (MrSelect), but pairs of bytes 00 or FF are
    left out of the bits of a dense block, unless it is the last one.  [text] is the
    byte array passed to build().  Memory from new[] holds unspecified values
    ([memory] of MrRank, [jf] for blockToCompress).  Allocation never fails.  The
    loops over the bytes and the bits of a byte are one loop over the bits.  Counters
    that index an array are not wrapped: each use is checked against the array.
    build_v1 (lines 2902-3272) and build_v2 (3274-3740) are the same up to the choice
    of the blocks to compress and the forms of compression; so are getSelect_v1
    (3742-3957) and getSelect_v2 (3959-4313).  bitsToWrite has 64 bits in build_v1 and
    8 in build_v2; here 8. *)
From Verif Require Import Base Mem Words Trees MrRank MrSelect MrMpe.

(** ** Construction *)

(** build_v1 and build_v2 read the text three times.  The first pass (lines 2903-2969,
    3275-3342) is the one of SelectBasic64.  The second chooses the blocks to compress
    (2974-3057, 3347-3475), the third stores them (3066-3228, 3484-3695).  Both collect
    the bits of a block that is neither sparse nor mono in bitsContainer, and differ in
    what they do with a one of a sparse block ([p_one]), at the end of a block
    ([p_end]: the new selectCounter, bitsContainer, bytesCounter, blockLenInBits,
    whether the block is dense) and at the end of the last ([p_last]).  [p_sel] is
    selectsTemp. *)
Record pass (S : Type) := {
  p_sel : S -> list Z;
  p_one : S -> Z -> res S;
  p_end : S -> Z -> list Z -> Z -> Z -> bool -> res S;
  p_last : S -> list Z -> Z -> bool -> res S }.
Arguments p_sel {S}. Arguments p_one {S}. Arguments p_end {S}. Arguments p_last {S}.

(** State of a pass: its own, bitsContainer, bytesCounter, selectCounter, bitsToWrite,
    bitsToWritePos, upToBitPos, blockLenInBits, sparseBlock, monoBlock; [z_done] after
    the break. *)
Record scan3 (S : Type) := { z_out : S; z_cont : list Z; z_n : Z; z_sc : Z; z_byte : Z; z_pos : Z; z_upto : Z; z_len : Z;
                             z_sparse : bool; z_mono : bool; z_done : bool }.
Arguments z_out {S}. Arguments z_cont {S}. Arguments z_n {S}. Arguments z_sc {S}. Arguments z_byte {S}. Arguments z_pos {S}.
Arguments z_upto {S}. Arguments z_len {S}. Arguments z_sparse {S}. Arguments z_mono {S}. Arguments z_done {S}.

(** The start of a block: lines 2980-2988, 3030-3040, 3074-3083, 3181-3193 (3354-3363,
    3448-3458, 3493-3502, 3648-3660). *)
Definition enter3 {S} (el th : Z) (out : S) (cont : list Z) (sc upto d : Z) : scan3 S :=
  {| z_out := out; z_cont := cont; z_n := 0; z_sc := sc; z_byte := 0; z_pos := 7; z_upto := upto; z_len := d;
     z_sparse := d >? th; z_mono := negb (d >? th) && (d =? el); z_done := false |}.

Definition is_dense {S} (st : scan3 S) : bool := negb (z_sparse st) && negb (z_mono st).

(** The last byte of a dense block: lines 3006-3008, 3123-3124, 3133-3135 (3381-3383,
    3542-3543, 3552-3554). *)
Definition flush3 {S} (st : scan3 S) : res (list Z * Z) :=
  if is_dense st && negb (z_pos st =? 7)
  then let* cont := seti (z_cont st) (z_n st) (z_byte st) in Ok (cont, z_n st + 1)
  else Ok (z_cont st, z_n st).

(** The end of the last block: lines 2993-3005, 3089-3132 (3368-3380, 3508-3551).  The
    second pass does not write the last byte of a complete block, which it never reads. *)
Definition last3 {S} (p : pass S) (el : Z) (text : list Z) (ones : Z) (st : scan3 S) (q : Z) : res (scan3 S) :=
  let* '(out, cont, n) :=
    if ones mod el >? 0 then
      let* b := text_bit text q in
      let* out := if z_sparse st && b then p_one p (z_out st) q else Ok (z_out st) in
      if is_dense st
      then let* cont := seti (z_cont st) (z_n st) (if b then u8 (z_byte st + 2 ^ z_pos st) else z_byte st) in Ok (out, cont, z_n st + 1)
      else Ok (out, z_cont st, z_n st)
    else let* '(cont, n) := flush3 st in Ok (z_out st, cont, n) in
  let* out := p_last p out cont n (is_dense st) in
  Ok {| z_out := out; z_cont := cont; z_n := n; z_sc := z_sc st + 2; z_byte := z_byte st; z_pos := z_pos st; z_upto := z_upto st;
        z_len := z_len st; z_sparse := z_sparse st; z_mono := z_mono st; z_done := true |}.

(** The end of another block: lines 3006-3041, 3133-3194 (3381-3459, 3552-3661). *)
Definition next3 {S} (p : pass S) (el th : Z) (st : scan3 S) : res (scan3 S) :=
  let sc := z_sc st + 2 in
  let* '(cont, n) := flush3 st in
  let* out := p_end p (z_out st) sc cont n (z_len st) (is_dense st) in
  let* up := geti (p_sel p out) (sc + 2) in
  let* lo := geti (p_sel p out) sc in
  Ok (enter3 el th out cont sc up (u64 (up - lo))).

(** A bit inside a block: lines 3043-3055, 3196-3226 (3461-3473, 3663-3693). *)
Definition inner3 {S} (p : pass S) (text : list Z) (st : scan3 S) (q : Z) : res (scan3 S) :=
  if z_mono st then Ok st else
  let* b := text_bit text q in
  if z_sparse st then
    if b then let* out := p_one p (z_out st) q in
              Ok {| z_out := out; z_cont := z_cont st; z_n := z_n st; z_sc := z_sc st; z_byte := z_byte st; z_pos := z_pos st;
                    z_upto := z_upto st; z_len := z_len st; z_sparse := true; z_mono := false; z_done := false |}
    else Ok st
  else
    let byte := if b then u8 (z_byte st + 2 ^ z_pos st) else z_byte st in
    if z_pos st =? 0
    then let* cont := seti (z_cont st) (z_n st) byte in
         Ok {| z_out := z_out st; z_cont := cont; z_n := z_n st + 1; z_sc := z_sc st; z_byte := 0; z_pos := 7;
               z_upto := z_upto st; z_len := z_len st; z_sparse := false; z_mono := false; z_done := false |}
    else Ok {| z_out := z_out st; z_cont := z_cont st; z_n := z_n st; z_sc := z_sc st; z_byte := byte; z_pos := z_pos st - 1;
               z_upto := z_upto st; z_len := z_len st; z_sparse := false; z_mono := false; z_done := false |}.

(** One bit: lines 2989-3057, 3085-3228 (3364-3475, 3504-3695); [last] is
    selectLenTempNotExtended - 2. *)
Definition step3 {S} (p : pass S) (el th : Z) (text : list Z) (ones last : Z) (st : scan3 S) (q : Z) : res (scan3 S) :=
  if z_done st then Ok st else
  if q =? z_upto st
  then if z_sc st + 2 =? last then last3 p el text ones st q else next3 p el th st
  else inner3 p text st q.

(** A whole pass; [cont] is bitsContainer, THRESHOLD / 8 + 1 numbers (lines 2972, 3345). *)
Definition scan_all {S} (p : pass S) (el th : Z) (text : list Z) (ones last : Z) (cont : list Z) (out : S) : res (scan3 S) :=
  let* up := geti (p_sel p out) 2 in
  let* lo := geti (p_sel p out) 0 in
  foldM (step3 p el th text ones last) (zrange 0 (Z.to_nat (8 * zlen text)))
        (enter3 el th out cont 0 up (u64 (u64 (up - lo) + 1))).

(** bitTableLen, lines 3021, 3139, 3397, 3558. *)
Definition table_len (d : Z) : Z := u64 (d - 1) / 128 + 1.

(** pairsToRemoveInBlock (lines 3011-3019), pairs0ToRemoveInBlock and
    pairs255ToRemoveInBlock (3386-3396): the pairs of the first [n] bytes. *)
Definition pairs_any (cont : list Z) (n : Z) : res Z :=
  foldM (fun c j =>
      let* z := pair_eq 0 cont (2 * j) in
      let* f := if z then Ok true else pair_eq 255 cont (2 * j) in
      Ok (if f then c + 1 else c))
    (zrange 0 (Z.to_nat (n / 2))) 0.
Definition pairs_both (cont : list Z) (n : Z) : res (Z * Z) :=
  foldM (fun '(n0, n1) j =>
      let* z := pair_eq 0 cont (2 * j) in
      let* f := pair_eq 255 cont (2 * j) in
      Ok (if z then n0 + 1 else n0, if f then n1 + 1 else n1))
    (zrange 0 (Z.to_nat (n / 2))) (0, 0).

(** The choice for a dense block, lines 3020-3026 and 3397-3444: the entry of
    blockToCompress, what is added to pairsToRemove and to addedBitTablesInBytes. *)
Definition choose3 (T : mpe_type) (cont : list Z) (n d : Z) : res (Z * Z * Z) :=
  let tl := table_len d in
  match T with
  | MPE1 => let* c := pairs_any cont n in Ok (if c >? tl then (1, c, 2 * tl) else (0, 0, 0))
  | MPE2 => let* '(n0, n1) := pairs_both cont n in
            Ok (if (2 * n0 >? tl) && (2 * n1 >? tl) then (3, n0 + n1, 2 * tl) else
                if (2 * n0 >? tl) && (2 * n1 <=? tl) then (1, n0, tl) else
                if (2 * n0 <=? tl) && (2 * n1 >? tl) then (2, n1, tl) else (0, 0, 0))
  | MPE3 => let* '(n0, n1) := pairs_both cont n in
            Ok (if (n0 >? 9) && (n1 >? 9) then (3, n0 + n1, 2 * tl) else
                if (n0 >=? 9 * 2) && (n1 <=? 9) then (1, n0, tl) else
                if (n0 <=? 9) && (n1 >=? 9 * 2) then (2, n1, tl) else (0, 0, 0))
  end.

(** The second pass.  State: selectsTemp, blockToCompress, pairsToRemove,
    addedBitTablesInBytes; blockCounter is selectCounter / 2 - 1 at the end of a block
    and its last index at the end of the last. *)
Definition choose_end (T : mpe_type) (st : list Z * list Z * Z * Z) (sc : Z) (cont : list Z) (n d : Z) (dense : bool) : res (list Z * list Z * Z * Z) :=
  let '(temp, btc, removed, added) := st in
  let b := sc / 2 - 1 in
  let* btc := seti btc b 0 in
  if dense
  then let* '(f, r, a) := choose3 T cont n d in
       let* btc := seti btc b f in
       Ok (temp, btc, u64 (removed + r), u64 (added + a))
  else Ok (temp, btc, removed, added).
Definition choose_last (el ones last : Z) (st : list Z * list Z * Z * Z) (cont : list Z) (n : Z) (dense : bool) : res (list Z * list Z * Z * Z) :=
  let '(temp, btc, removed, added) := st in
  if ones mod el >? 0 then let* btc := seti btc (last / 2 - 1) 0 in Ok (temp, btc, removed, added) else Ok st.
Definition choose_pass (T : mpe_type) (el ones last : Z) : pass (list Z * list Z * Z * Z) :=
  {| p_sel := fun '(temp, _, _, _) => temp; p_one := fun st _ => Ok st; p_end := choose_end T; p_last := choose_last el ones last |}.

(** bits1, bits2 and bits have THRESHOLD / 8 / 2 / 8 + 1 bytes, of which bitTableLen
    are set to 0: lines 3066-3067, 3140-3143 (3484-3486, 3559-3562, 3595-3596, 3619-3620). *)
Definition zero_table (th tl : Z) : res (list Z) :=
  let size := th / 8 / 2 / 8 + 1 in if tl <=? size then Ok (repeat 0 (Z.to_nat size)) else Ub UB_bounds.

(** bits1[k / 16] += (1 << (7 - ((k % 16) / 2))) with k = 2 [j]. *)
Definition mark (tab : list Z) (j : Z) : res (list Z) :=
  let* x := geti tab (j / 8) in seti tab (j / 8) (u8 (x + Z.shiftl 1 (7 - j mod 8))).

(** Two bytes stored: lines 3163-3166 and the like; bitsContainer holds 32-bit numbers. *)
Definition put_pair (cont bits : list Z) (bc j : Z) : res (list Z * Z) :=
  let* x := geti cont (2 * j) in
  let* bits := seti bits bc (u8 x) in
  let* y := geti cont (2 * j + 1) in
  let* bits := seti bits (bc + 1) (u8 y) in
  Ok (bits, bc + 2).

(** One pair of the loops of lines 3145-3168 and 3564-3587. *)
Definition both_step (cont : list Z) (st : list Z * Z * list Z * list Z) (j : Z) : res (list Z * Z * list Z * list Z) :=
  let '(bits, bc, tab1, tab2) := st in
  let* f := pair_eq 255 cont (2 * j) in
  let* tab2 := if f then mark tab2 j else Ok tab2 in
  let* z := pair_eq 0 cont (2 * j) in
  let* r := if z then Ok true else pair_eq 255 cont (2 * j) in
  if r then let* tab1 := mark tab1 j in Ok (bits, bc, tab1, tab2)
  else let* '(bits, bc) := put_pair cont bits bc j in Ok (bits, bc, tab1, tab2).

(** One pair of the loops of lines 3598-3613 ([v] = 0) and 3622-3637 ([v] = 255). *)
Definition one_step (v : Z) (cont : list Z) (st : list Z * Z * list Z) (j : Z) : res (list Z * Z * list Z) :=
  let '(bits, bc, tab) := st in
  let* r := pair_eq v cont (2 * j) in
  if r then let* tab := mark tab j in Ok (bits, bc, tab)
  else let* '(bits, bc) := put_pair cont bits bc j in Ok (bits, bc, tab).

(** A last single byte: lines 3146-3150 and the like. *)
Definition put_odd (cont bits : list Z) (bc n : Z) : res (list Z * Z) :=
  if n mod 2 =? 1 then let* x := geti cont (n - 1) in let* bits := seti bits bc (u8 x) in Ok (bits, bc + 1) else Ok (bits, bc).

(** A table copied to alignedBits: lines 3169-3170 and the like. *)
Definition put_table (bits : list Z) (off tl : Z) (tab : list Z) : res (list Z) :=
  foldM (fun bits k => let* x := geti tab k in seti bits (off + k) x) (zrange 0 (Z.to_nat tl)) bits.

(** Lines 3138-3172 and 3557-3591. *)
Definition store_both3 (th : Z) (cont : list Z) (n d : Z) (bits : list Z) (bc : Z) : res (list Z * Z) :=
  let tl := table_len d in
  let* zero := zero_table th tl in
  let* '(bits, bc', tab1, tab2) := foldM (both_step cont) (zrange 0 (Z.to_nat (n / 2))) (bits, bc + 2 * tl, zero, zero) in
  let* '(bits, bc') := put_odd cont bits bc' n in
  let* bits := put_table bits bc tl tab1 in
  let* bits := put_table bits (bc + tl) tl tab2 in
  Ok (bits, bc').

(** Lines 3593-3615 and 3617-3639. *)
Definition store_one3 (v th : Z) (cont : list Z) (n d : Z) (bits : list Z) (bc : Z) : res (list Z * Z) :=
  let tl := table_len d in
  let* zero := zero_table th tl in
  let* '(bits, bc', tab) := foldM (one_step v cont) (zrange 0 (Z.to_nat (n / 2))) (bits, bc + tl, zero) in
  let* '(bits, bc') := put_odd cont bits bc' n in
  let* bits := put_table bits bc tl tab in
  Ok (bits, bc').

(** Lines 3116-3120, 3125-3128, 3174-3177 (3535-3539, 3544-3547, 3641-3644). *)
Definition store_plain3 (cont : list Z) (n : Z) (bits : list Z) (bc : Z) : res (list Z * Z) :=
  let* bits := foldM (fun bits k => let* x := geti cont k in seti bits (bc + k) (u8 x)) (zrange 0 (Z.to_nat n)) bits in
  Ok (bits, bc + n).

(** Lines 3137-3178 and 3556-3645; [f] is compressedBlock. *)
Definition store3 (T : mpe_type) (th f : Z) (cont : list Z) (n d : Z) (bits : list Z) (bc : Z) : res (list Z * Z) :=
  match T with
  | MPE1 => if f =? 0 then store_plain3 cont n bits bc else store_both3 th cont n d bits bc
  | _ => if f =? 3 then store_both3 th cont n d bits bc else
         if f =? 1 then store_one3 0 th cont n d bits bc else
         if f =? 2 then store_one3 255 th cont n d bits bc else
         store_plain3 cont n bits bc
  end.

(** The third pass.  State: selectsTemp, alignedBits, bitsCounter, compressedBlock;
    blockCounter is selectCounter / 2 at the end of a block. *)
Definition store_pos (st : list Z * list Z * Z * Z) (q : Z) : res (list Z * list Z * Z * Z) :=
  let '(temp, bits, bc, f) := st in
  let* bits := store 8 bits bc q in Ok (temp, bits, bc + 8, f).
Definition store_end (T : mpe_type) (th : Z) (btc : list Z) (st : list Z * list Z * Z * Z) (sc : Z) (cont : list Z) (n d : Z) (dense : bool) : res (list Z * list Z * Z * Z) :=
  let '(temp, bits, bc, f) := st in
  let* '(bits, bc) := if dense then store3 T th f cont n d bits bc else Ok (bits, bc) in
  let* temp := seti temp (sc + 1) bc in
  let* f := geti btc (sc / 2) in
  Ok (temp, bits, bc, f).
Definition store_last (st : list Z * list Z * Z * Z) (cont : list Z) (n : Z) (dense : bool) : res (list Z * list Z * Z * Z) :=
  let '(temp, bits, bc, f) := st in
  let* '(bits, bc) := if dense then store_plain3 cont n bits bc else Ok (bits, bc) in
  Ok (temp, bits, bc, f).
Definition store_pass (T : mpe_type) (th : Z) (btc : list Z) : pass (list Z * list Z * Z * Z) :=
  {| p_sel := fun '(temp, _, _, _) => temp; p_one := store_pos; p_end := store_end T th btc; p_last := store_last |}.

(** One superblock, lines 3252-3263 and 3719-3731: the 21 words.  [read_btc],
    [flag_in_offset] and [flag_of_first] as in MrMpe. *)
Definition super3 (T : mpe_type) (strict : bool) (jf : Z -> Z) (temp btc : list Z) (s : Z) : res (list Z) :=
  let i := 16 * s in
  let* bucket := foldM (fun bucket j => let* x := geti temp (2 * (i + j)) in seti bucket j x) (zrange 0 16) (repeat 0 21) in
  let* o := geti temp (2 * i + 1) in
  let* bucket := seti bucket 16 o in
  let* bucket := foldM (fun bucket j =>
      let* t := geti temp (2 * (i + j + 1) + 1) in
      let* f := read_btc strict jf btc (i + j + 1) in
      let* x := geti bucket (17 + j / 4) in
      seti bucket (17 + j / 4) (u64 (x + Z.shiftl (u64 (u64 (t - o) + flag_in_offset T f)) (16 * (j mod 4)))))
    (zrange 0 15) bucket in
  let* f := read_btc strict jf btc i in
  let* x := geti bucket 17 in
  seti bucket 17 (u64 (x + flag_of_first T f)).

(** build, lines 4392-4401: build_v1 or build_v2.  The members, lines 4316-4327, are
    those of SelectBasic64 and the buffer of the queries. *)
Definition build_smpe (T : mpe_type) (el th : Z) (strict : bool) (jf : Z -> Z) (m : memory) (text : list Z) : res select_basic :=
  let ones := number_of_ones text in
  let len := selects_len el ones in
  let tl := sel_temp_len len in
  let* '(temp, sc, blen) := first_pass el th text ones (fresh (m_junk_t m) tl) in
  let* temp := foldM (fun temp k => seti temp k 0) (zrange sc (Z.to_nat (tl - sc))) temp in
  let cont := fresh (m_junk_t m) (th / 8 + 1) in
  let* st := scan_all (choose_pass T el ones (len - 2)) el th text ones (len - 2) cont (temp, fresh_b jf (sc / 2 - 1), 0, 0) in
  let '(temp, btc, removed, added) := z_out st in
  let blen := u64 (u64 (blen + added) - 2 * removed) in
  let* f := geti btc 0 in
  let* st := scan_all (store_pass T th btc) el th text ones (len - 2) (z_cont st) (temp, fresh_aligned_b (m_junk_b m) (m_addr_b m) blen, 0, f) in
  let '(temp, bits, _, _) := z_out st in
  (* Lines 3229-3231 and 3696-3698. *)
  let sc := z_sc st in
  let* temp := foldM (fun temp k => let* x := geti temp (u64 (sc - 1)) in seti temp (sc + 1 + 2 * k) x)
                     (zrange 0 (Z.to_nat ((tl - sc) / 2))) temp in
  (* Lines 3233-3234 and 3700-3701. *)
  let* temp := foldM (fun temp i => let* x := geti temp (2 * i) in seti temp (2 * i) (u64 (x + 1)))
                     (zrange 1 (Z.to_nat ((len + 1) / 2 - 1))) temp in
  let slen := tl / 2 / 16 * 21 in
  let* arr := foldM (fun arr s => let* v := super3 T strict jf temp btc s in put_words arr (21 * s) v)
                    (zrange 0 (Z.to_nat (tl / 2 / 16))) (fresh_aligned (m_junk_r m) (m_addr_r m) slen) in
  Ok {| sb_selects := arr; sb_selects_len := slen; sb_bits := bits; sb_bits_len := blen; sb_text_len := zlen text |}.

(** The conditions of the constructor, lines 4364-4386. *)
Definition smpe_arguments (T : mpe_type) (el th : Z) : bool :=
  let field := match T with MPE1 => 32767 | _ => 16383 end in
  negb (el >=? th) && negb (((el - 1) * 8 >? field / 15) || (th - 1 >? 8 * (field / 15))).

(** ** Queries *)

(** The offset of a sparse block inside its superblock: lines 3759-3805 and 3976-4022;
    [w] is the word that holds it, [from] = selectFromStart > 0. *)
Definition sparse_offset (T : mpe_type) (w from : Z) : Z :=
  let mask := if from <=? 4 then match T with MPE1 => 0x3FFF | _ => 0x0FFF end else 0xFFFF in
  match from mod 4 with
  | 3 => Z.land (Z.shiftr w 32) mask
  | 2 => Z.land (Z.shiftr w 16) mask
  | 1 => Z.land w mask
  | _ => if from <=? 4 then Z.land (Z.shiftr w 48) mask else Z.shiftr w 48
  end.

(** The offset of another block and compressedBlock: lines 3811-3857 and 4028-4074. *)
Definition dense_offset (T : mpe_type) (w from : Z) : Z * Z :=
  let mask := match T with MPE1 => if from <=? 4 then 0x3FFF else 0x7FFF | _ => if from <=? 4 then 0x0FFF else 0x3FFF end in
  match T with
  | MPE1 => match from mod 4 with
            | 3 => (Z.land (Z.shiftr w 32) mask, Z.land (Z.shiftr w 47) 1)
            | 2 => (Z.land (Z.shiftr w 16) mask, Z.land (Z.shiftr w 31) 1)
            | 1 => (Z.land w mask, Z.land (Z.shiftr w 15) 1)
            | _ => (Z.land (Z.shiftr w 48) mask, Z.shiftr w 63)
            end
  | _ => match from mod 4 with
         | 3 => (Z.land (Z.shiftr w 32) mask, Z.land (Z.shiftr w 46) 3)
         | 2 => (Z.land (Z.shiftr w 16) mask, Z.land (Z.shiftr w 30) 3)
         | 1 => (Z.land w mask, Z.land (Z.shiftr w 14) 3)
         | _ => (Z.land (Z.shiftr w 48) mask, Z.shiftr w 62)
         end
  end.

(** How the pairs left out are found: two tables, or one and the byte. *)
Inductive left_out := Both | Only (v : Z).

(** The bytes of a pair that was left out: lines 3869-3875 and the like; [p] is the
    index the pointer stands at, [tl] = bitTableLen. *)
Definition pair_value (kind : left_out) (bits : list Z) (p tl j mask : Z) : res Z :=
  match kind with
  | Both => let* y := geti bits (p + tl + j / 8) in Ok (if Z.land y mask =? 0 then 0 else 255)
  | Only v => Ok v
  end.

(** The loops of lines 3916-3928 and the like over the buffer; the byte they stop at
    has [i] ones or more, so that the loop over its bits returns. *)
Definition in_buffer (buf : list Z) (i select : Z) : res Z :=
  let* '(p, i, select) := byte_loop buf (S (length buf)) 0 i select in
  let* b := geti buf p in
  bit_loop b (zrange 0 8) i select.

(** The loops over the tables, lines 3867-3915 (4083-4129, 4157-4203, 4231-4282), and
    the search in the buffer after them; [js] are the values of 8 m + k to come, [dp]
    is pointerData, [bc] byteCounter, [take] bitsToTake. *)
Fixpoint decode (kind : left_out) (bits : list Z) (p tl : Z) (js : list Z) (buf : list Z) (bc take i select dp : Z) : res Z :=
  match js with
  | [] => in_buffer buf i select
  | j :: r =>
      let* w := geti bits (p + j / 8) in
      let* mask := geti bit_masks (j mod 8) in
      let* '(buf, bc, dp, over) :=
        if Z.land w mask =? 0
        then let* x := geti bits dp in
             let* buf := seti buf bc x in
             if take <=? 8 then Ok (buf, bc + 1, dp, true) else
             let* y := geti bits (dp + 1) in
             let* buf := seti buf (bc + 1) y in
             Ok (buf, bc + 2, dp + 2, take <=? 16)
        else let* v := pair_value kind bits p tl j mask in
             let* buf := seti buf bc v in
             let* buf := seti buf (bc + 1) v in
             Ok (buf, bc + 2, dp, take <=? 16) in
      if over then in_buffer buf i select else
      if bc mod 8 =? 0
      then let* full := load 8 buf 0 in
           if popcount full >=? i then in_buffer buf i select
           else decode kind bits p tl r buf 0 (take - 16) (i - popcount full) (u64 (select + 64)) dp
      else decode kind bits p tl r buf bc (take - 16) i select dp
  end.

(** A compressed block: lines 3861-3928, 4078-4145, 4152-4219, 4225-4298. *)
Definition in_compressed (kind : left_out) (bits buf : list Z) (p diff i select : Z) : res Z :=
  let tl := table_len diff in
  let dp := match kind with Both => p + tl + tl | Only _ => p + tl end in
  decode kind bits p tl (zrange 0 (Z.to_nat (8 * tl))) buf 0 diff i select dp.

(** Lines 3860-3956 and 4077-4312: after the offset; [f] is compressedBlock.  A block
    that is not compressed is searched as in SelectBasic64 ([in_block]; here diff is at
    most THRESHOLD). *)
Definition in_dense (T : mpe_type) (f th : Z) (bits buf : list Z) (p diff i select : Z) : res Z :=
  match T with
  | MPE1 => if f =? 0 then in_block th bits p diff i select else in_compressed Both bits buf p diff i select
  | _ => if f =? 1 then in_compressed (Only 0) bits buf p diff i select else
         if f =? 2 then in_compressed (Only 255) bits buf p diff i select else
         if f =? 3 then in_compressed Both bits buf p diff i select else
         in_block th bits p diff i select
  end.

(** select, lines 4403-4412: getSelect_v1 or getSelect_v2; [buf] is what alignedBuffer
    holds before (from new[] or from earlier queries). *)
Definition select_smpe (T : mpe_type) (el th : Z) (t : select_basic) (buf : list Z) (i : Z) : res Z :=
  let start := i / el in
  let p2 := 21 * (start / 16) in
  let from := start mod 16 in
  let* select := geti (sb_selects t) (p2 + from) in
  let i := i mod el in
  if i =? 0 then Ok (u64 (select - 1)) else
  let* next := geti (sb_selects t) (if from =? 15 then p2 + 21 else p2 + from + 1) in
  let diff := u64 (next - select) in
  if diff =? el then Ok (u64 (u64 (select - 1) + i)) else
  let* o := geti (sb_selects t) (p2 + 16) in
  if diff >? th then
    let* off := if from >? 0
      then let* w := geti (sb_selects t) (p2 + 16 + (from + 3) / 4) in Ok (u64 (o + sparse_offset T w from))
      else Ok o in
    load 8 (sb_bits t) (off + 8 * (i - 1))
  else
    let* '(p, f) := if from >? 0
      then let* w := geti (sb_selects t) (p2 + 16 + (from + 3) / 4) in
           let '(d, f) := dense_offset T w from in Ok (u64 (o + d), f)
      else let* w := geti (sb_selects t) (p2 + 17) in Ok (o, first_flag T w) in
    in_dense T f th (sb_bits t) buf p diff i select.

(** getSize and getTextSize, lines 4477-4493. *)
Definition smpe_size (t : select_basic) : Z :=
  u64 (56 + 136 + (if sb_selects_len t >? 0 then (sb_selects_len t + 16) * 8 else 0)
                + (if sb_bits_len t >? 0 then sb_bits_len t + 128 else 0)).
Definition smpe_text_size (t : select_basic) : Z := sb_text_len t.
