(** include/mranisz/shared/rank.hpp lines 1806-3366: RankMPE32.  It is RankMPE64 (MrMpe)
    with unsigned int counters and other superblocks: 16 blocks in 18 ints, two 16-bit fields
    to an int.  textLen and the argument of rank() are unsigned int, so texts have fewer than
    2^32 bytes and 0 <= i < 2^32.  Shared with MrMpe where the lines are the same: the members
    (here lines 3136-3144), the choice of blocks to compress (lines 1896-1914, 2109-2165),
    their forms of storage (lines 1925-1989, 2178-2298), the masks (lines 3158-3235, compared
    entry by entry).  ranksTempLen is at most 2^26 + 32, so it is not wrapped.  build_v1
    (lines 1826-2033) and build_v2 (2035-2341) are the same up to the choice and the forms; so
    are getRank_v1 (2343-2724) and getRank_v2 (2726-3132). *)
From Verif Require Import Base Words Mem Trees MrRank MrMpe MrFile MrRank32.

(** ** Construction *)

(** extendedTextLen: lines 1828-1830, 2038-2040; it is 0 when the text has more than
    2^32 - 128 bytes. *)
Definition mp_extended32 (n : Z) : Z := if n mod 128 >? 0 then u32 (n + (128 - n mod 128)) else n.
Definition mp_blocks32 (n : Z) : Z := mp_extended32 n / 128.

(** emptyBlock, lines 1832-1853 and 2042-2063. *)
Definition mp_empty32 (text : list Z) : res (list Z) :=
  mapM (fun b => let* h := mp_homoblock text (128 * b) in Ok (b2z h)) (zrange 0 (Z.to_nat (mp_blocks32 (zlen text)))).

(** One byte of bitsTemp, lines 1876-1883 and 2086-2093.  State: bitsTemp, bitsCounter, rank. *)
Definition mp_fill_byte32 (text : list Z) (i : Z) (st : list Z * Z * Z) (j : Z) : res (list Z * Z * Z) :=
  let '(temp, bc, rank) := st in
  if i + j <? zlen text
  then let* b := geti text (i + j) in
       let* temp := seti temp bc b in
       Ok (temp, bc + 1, u32 (rank + popcount b))
  else let* temp := seti temp bc 0 in Ok (temp, bc + 1, rank).

(** One block, lines 1870-1884 and 2080-2094.  State: ranksTemp, bitsTemp, bitsCounter, rank;
    rankCounter is 2b. *)
Definition mp_scan_block32 (text eb : list Z) (st : list Z * list Z * Z * Z) (b : Z) : res (list Z * list Z * Z * Z) :=
  let '(ranks, temp, bc, rank) := st in
  let* ranks := seti ranks (2 * b) rank in
  let* ranks := seti ranks (2 * b + 1) bc in
  let* e := geti eb b in
  if e =? 0
  then let* '(temp, bc, rank) := foldM (mp_fill_byte32 text (128 * b)) (zrange 0 128) (temp, bc, rank) in
       Ok (ranks, temp, bc, rank)
  else let* x := geti text (128 * b) in
       Ok (ranks, temp, bc, if x =? 255 then u32 (rank + 1024) else rank).

(** The loop over the blocks, the last header and the zeros after it, lines 1868-1890 and
    2078-2100; ranksTempLen (lines 1862-1865, 2072-2075) is [mp_temp_len]. *)
Definition mp_scan32 (text eb ranks temp : list Z) : res (list Z * list Z) :=
  let nb := mp_blocks32 (zlen text) in
  let* '(ranks, temp, _, rank) := foldM (mp_scan_block32 text eb) (zrange 0 (Z.to_nat nb)) (ranks, temp, 0, 0) in
  let* ranks := seti ranks (2 * nb) rank in
  let* ranks := seti ranks (2 * nb + 1) 0 in
  let* ranks := foldM (fun ranks k => seti ranks k 0)
                      (zrange (2 * nb + 2) (Z.to_nat (mp_temp_len nb - (2 * nb + 2)))) ranks in
  Ok (ranks, temp).

(** What blockToCompress[i] adds to bucket[OFFSETSTARTINSUPERBLOCK + 1], lines 2022-2023 and
    2331; a flag is at most 3, a byte past the end of the array may be any (then the shift
    is that of two's complement).  [flag_in_offset] for lines 2018 and 2327. *)
Definition flag_of_first32 (T : mpe_type) (f : Z) : Z :=
  match T with MPE1 => if f =? 0 then 0 else Z.shiftl 1 30 | _ => u32 (Z.shiftl f 28) end.

(** One superblock of 16 blocks, lines 2009-2023 and 2318-2331: the 18 ints. *)
Definition mp_bucket32 (T : mpe_type) (strict : bool) (jf : Z -> Z) (temp btc : list Z) (s : Z) : res (list Z) :=
  let i := 16 * s in
  let* b0 := geti temp (2 * i) in
  let* bucket := seti (repeat 0 18) 0 b0 in
  let* bucket := foldM (fun bucket j =>
      let* t := geti temp (2 * (i + j + 1)) in
      let* x := geti bucket (j / 2 + 1) in
      seti bucket (j / 2 + 1) (u32 (x + Z.shiftl (u32 (t - b0)) (16 * (j mod 2)))))
    (zrange 0 15) bucket in
  let* o := geti temp (2 * i + 1) in
  let* bucket := seti bucket 9 o in
  let* bucket := foldM (fun bucket j =>
      let* t := geti temp (2 * (i + j + 1) + 1) in
      let* f := read_btc strict jf btc (i + j + 1) in
      let* x := geti bucket (9 + 1 + j / 2) in
      seti bucket (9 + 1 + j / 2) (u32 (x + Z.shiftl (u32 (u32 (t - o) + flag_in_offset T f)) (16 * (j mod 2)))))
    (zrange 0 15) bucket in
  let* f := read_btc strict jf btc i in
  let* x := geti bucket 10 in
  seti bucket 10 (u32 (x + flag_of_first32 T f)).

(** new unsigned char[len + 128] from a multiple of 128 on (lines 1920-1923, 2173-2176):
    len + 128 is an unsigned int. *)
Definition fresh_aligned_b32 (junk : Z -> Z) (addr len : Z) : list Z := fresh_b junk (u32 (len + 128) - (- addr) mod 128).

(** build, lines 3245-3254: build_v1 or build_v2.  blockToCompress has as many entries as
    there are blocks (lines 1896, 2109-2110). *)
Definition build_mpe32 (T : mpe_type) (strict : bool) (jf : Z -> Z) (m : memory) (text : list Z) : res rank_mpe :=
  let* eb := mp_empty32 text in
  let nb := mp_blocks32 (zlen text) in
  let temp_bits := u32 (not_empty eb * 128) in
  let tl := mp_temp_len nb in
  let* '(ranks, temp) := mp_scan32 text eb (fresh32 (m_junk_t m) tl) (fresh_b (m_junk_t m) temp_bits) in
  let* '(btc, removed, heads, _) := foldM (choose_block T eb temp) (zrange 0 (Z.to_nat nb)) (fresh_b jf nb, 0, 0, 0) in
  let bits_len := u32 (heads + (temp_bits - 2 * removed) + 8) in
  let* '(ranks, bits, _, _) := foldM (store_block T eb btc temp) (zrange 0 (Z.to_nat nb))
                                     (ranks, fresh_aligned_b32 (m_junk_b m) (m_addr_b m) bits_len, 0, 0) in
  (* Lines 1990-1991 and 2299-2300: rankCounter is 2 nb + 1. *)
  let* ranks := foldM (fun ranks k => let* x := geti ranks (u32 (2 * nb + 1 - 2)) in seti ranks (2 * nb + 1 + 2 * k) x)
                      (zrange 0 (Z.to_nat ((tl - (2 * nb + 1) + 1) / 2))) ranks in
  let ranks_len := tl / 32 * 18 in
  let* ints := foldM (fun ints s =>
      let* v := mp_bucket32 T strict jf ranks btc s in put_words ints (18 * s) v)
    (zrange 0 (Z.to_nat (tl / 2 / 16))) (fresh_aligned32 (m_junk_r m) (m_addr_r m) ranks_len) in
  Ok {| mp_ranks := ints; mp_ranks_len := ranks_len; mp_bits := bits; mp_bits_len := bits_len; mp_text_len := zlen text |}.

(** ** Queries *)

(** The switch of lines 2404-2724 and 2812-3132. *)
Definition count_bytes32 (strict : bool) (bits : list Z) (p i rank : Z) : res Z :=
  let k := if i / 64 <=? 15 then i / 64 else 0 in
  let* rank := foldM (fun r j => let* w := load_word strict bits (p + 8 * j) in Ok (u32 (r + popcount w))) (zrange 0 (Z.to_nat k)) rank in
  let* w := load_word strict bits (p + 8 * k) in
  let* m := geti masks_le (i - 64 * k) in
  Ok (u32 (rank + popcount (Z.land w m))).

(** compressedBlock and the offset inside the superblock: lines 2370-2383 and 2753-2766.
    [w] is the int, [num] is rankNumInCL > 0. *)
Definition offset_field32 (T : mpe_type) (w num : Z) : Z * Z :=
  match T with
  | MPE1 => if num mod 2 =? 1 then (Z.land w 0x3FFF, Z.land (Z.shiftr w 15) 1)
            else (Z.land (Z.shiftr w 16) 0x3FFF, Z.shiftr w 31)
  | _ => if num mod 2 =? 1 then (Z.land w 0x0FFF, Z.land (Z.shiftr w 14) 3)
         else (Z.land (Z.shiftr w 16) 0x0FFF, Z.shiftr w 30)
  end.

(** Lines 2384-2389 and 2767-2772: the first block of a superblock. *)
Definition first_flag32 (T : mpe_type) (w : Z) : Z :=
  match T with MPE1 => Z.land (Z.shiftr w 30) 1 | _ => Z.land (Z.shiftr w 28) 3 end.

(** Lines 2391-2402 (compressedBlock) and 2796-2810 (case 3): both kinds of pairs left out.
    Result: the pointer, i, rank. *)
Definition skip_both32 (strict : bool) (bits : list Z) (p i rank : Z) : res (Z * Z * Z) :=
  let temp1 := i mod 16 in
  let temp2 := i / 16 in
  let* bits1 := load_word strict bits p in
  let* bits2 := load_word strict bits (p + 8) in
  let* m2 := geti MrMpe.masks2 temp2 in
  let* m3 := geti masks3 temp2 in
  let rank := if (Z.land bits1 m2 >? 0) && (Z.land bits2 m2 >? 0) then u32 (rank + temp1) else rank in
  let i := if Z.land bits1 m2 >? 0 then u32 (i - temp1) else i in
  let i := u32 (i - 16 * popcount (Z.land bits1 m3)) in
  let rank := u32 (rank + 16 * popcount (Z.land bits2 m3)) in
  Ok (p + 16, i, rank).

(** Lines 2775-2782 (case 1, [ones] = false) and 2783-2795 (case 2). *)
Definition skip_one32 (ones strict : bool) (bits : list Z) (p i rank : Z) : res (Z * Z * Z) :=
  let temp1 := i mod 16 in
  let temp2 := i / 16 in
  let* w := load_word strict bits p in
  let* m2 := geti MrMpe.masks2 temp2 in
  let* m3 := geti masks3 temp2 in
  let rank := if ones && (Z.land w m2 >? 0) then u32 (rank + temp1) else rank in
  let i := if Z.land w m2 >? 0 then u32 (i - temp1) else i in
  let temp_bits := 16 * popcount (Z.land w m3) in
  Ok (p + 8, u32 (i - temp_bits), if ones then u32 (rank + temp_bits) else rank).

(** Lines 2390-2403 and 2774-2811. *)
Definition skip_pairs32 (T : mpe_type) (f : Z) (strict : bool) (bits : list Z) (p i rank : Z) : res (Z * Z * Z) :=
  match T with
  | MPE1 => if f =? 0 then Ok (p, i, rank) else skip_both32 strict bits p i rank
  | _ => if f =? 1 then skip_one32 false strict bits p i rank else
         if f =? 2 then skip_one32 true strict bits p i rank else
         if f =? 3 then skip_both32 strict bits p i rank else Ok (p, i, rank)
  end.

(** rank, lines 3256-3265: getRank_v1 or getRank_v2.  [num] is rankNumInCL.  alignedBits plus
    the two offsets is pointer arithmetic: it does not wrap. *)
Definition rank_of_mpe32 (T : mpe_type) (strict : bool) (t : rank_mpe) (i : Z) : res Z :=
  let start := i / 1024 in
  let p2 := 18 * (start / 16) in
  let* first := geti (mp_ranks t) p2 in
  let num := start mod 16 in
  let* rank := if num >? 0 then
      let* w := geti (mp_ranks t) (p2 + (num + 1) / 2) in
      Ok (u32 (first + (if num mod 2 =? 1 then Z.land w 0xFFFF else Z.shiftr w 16)))
    else Ok first in
  let i := i mod 1024 in
  let* rank2 := if num =? 15 then geti (mp_ranks t) (p2 + 18) else
      let* w := geti (mp_ranks t) (p2 + (num + 2) / 2) in
      Ok (u32 (first + (if num mod 2 =? 0 then Z.land w 0xFFFF else Z.shiftr w 16))) in
  let diff := u32 (rank2 - rank) in
  if Z.land diff 1023 =? 0 then Ok (u32 (rank + u32 (i * Z.shiftr diff 10))) else
  let* o := geti (mp_ranks t) (p2 + 9) in
  let* '(p, f) := if num >? 0
    then let* w := geti (mp_ranks t) (p2 + 9 + (num + 1) / 2) in
         let '(d, f) := offset_field32 T w num in Ok (o + d, f)
    else let* w := geti (mp_ranks t) (p2 + 10) in Ok (o, first_flag32 T w) in
  let* '(p, i, rank) := skip_pairs32 T f strict (mp_bits t) p i rank in
  count_bytes32 strict (mp_bits t) p i rank.

(** getSize, lines 3334-3344: ranksLen + 32 and bitsLen + 128 are unsigned int, the products
    size_t.  getTextSize, lines 3346-3348. *)
Definition mpe_size32 (t : rank_mpe) : Z :=
  u64 (28 + (if mp_ranks_len t >? 0 then u32 (mp_ranks_len t + 32) * 4 else 0)
          + (if mp_bits_len t >? 0 then u32 (mp_bits_len t + 128) else 0)).
Definition mpe_text_size32 (t : rank_mpe) : Z := u32 (mp_text_len t).

(** ** Files; testRank() (lines 3350-3364) is [test_rank32] of MrRank32 *)

(** new unsigned char[len + 128], alignment and fread of [len] bytes, lines 3316-3327. *)
Definition get_bytes32 (junk : Z -> Z) (addr len : Z) (f : list Z) : res (loaded (list Z)) :=
  if len >? 0 then
    let mem := fresh_aligned_b32 junk addr len in
    if Z.min len (zlen f) >? Z.max 0 (u32 (len + 128) - (- addr) mod 128) then Ub UB_bounds
    else if zlen f <? len then Ok Exits
    else Ok (Loaded (firstn (Z.to_nat len) f ++ skipn (Z.to_nat len) mem) (skipn (Z.to_nat len) f))
  else Ok (Loaded [] f).

(** save, lines 3267-3280. *)
Definition save_mpe32 (t : rank_mpe) : res (list Z) :=
  let* a := if mp_ranks_len t >? 0 then out_ints (mp_ranks t) (mp_ranks_len t) else Ok [] in
  let* b := if mp_bits_len t >? 0 then out_bytes (mp_bits t) (mp_bits_len t) else Ok [] in
  Ok (put32 (mp_text_len t) ++ put32 (mp_ranks_len t) ++ a ++ put32 (mp_bits_len t) ++ b).

(** load, lines 3282-3328. *)
Definition load_mpe32 (m : memory) (f : list Z) : res (loaded rank_mpe) :=
  andthen (get32 f) (fun text_len f =>
  andthen (get32 f) (fun ranks_len f =>
  let* x := get_ints (m_junk_r m) (m_addr_r m) ranks_len f in
  andthen x (fun ranks f =>
  andthen (get32 f) (fun bits_len f =>
  let* y := get_bytes32 (m_junk_b m) (m_addr_b m) bits_len f in
  andthen y (fun bits f =>
  Ok (Loaded {| mp_ranks := ranks; mp_ranks_len := ranks_len; mp_bits := bits; mp_bits_len := bits_len; mp_text_len := text_len |} f)))))).
