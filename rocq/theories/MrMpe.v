(** include/mranisz/shared/rank.hpp lines 3367-5014: RankMPE64, whose three variants
    src/perf_compressed_bitmap.cpp measures.  Pairs of equal bytes 00 or FF are left
    out of a stored block.  [text] is the byte array passed to build(), textLen its
    length.  Memory from new[] holds unspecified values ([m_junk_*], [jf]).
    Allocation never fails.  Counters that index an array are not wrapped: each use
    is checked against the array.  build_v1 (lines 3387-3598) and build_v2 (lines
    3600-3911) are the same up to the choice of the blocks to compress and the
    forms of compression; so are getRank_v1 (3913-4333) and getRank_v2 (4335-4781). *)
From Verif Require Import Base Words Mem Trees MrRank.

(** enum RankMPEType, line 1803. *)
Inductive mpe_type := MPE1 | MPE2 | MPE3.

(** masks, lines 4813-4835. *)
Definition masks_le : list Z := [
  0x0000000000000000; 0x0000000000000080; 0x00000000000000C0;
  0x00000000000000E0; 0x00000000000000F0; 0x00000000000000F8;
  0x00000000000000FC; 0x00000000000000FE; 0x00000000000000FF;
  0x00000000000080FF; 0x000000000000C0FF; 0x000000000000E0FF;
  0x000000000000F0FF; 0x000000000000F8FF; 0x000000000000FCFF;
  0x000000000000FEFF; 0x000000000000FFFF; 0x000000000080FFFF;
  0x0000000000C0FFFF; 0x0000000000E0FFFF; 0x0000000000F0FFFF;
  0x0000000000F8FFFF; 0x0000000000FCFFFF; 0x0000000000FEFFFF;
  0x0000000000FFFFFF; 0x0000000080FFFFFF; 0x00000000C0FFFFFF;
  0x00000000E0FFFFFF; 0x00000000F0FFFFFF; 0x00000000F8FFFFFF;
  0x00000000FCFFFFFF; 0x00000000FEFFFFFF; 0x00000000FFFFFFFF;
  0x00000080FFFFFFFF; 0x000000C0FFFFFFFF; 0x000000E0FFFFFFFF;
  0x000000F0FFFFFFFF; 0x000000F8FFFFFFFF; 0x000000FCFFFFFFFF;
  0x000000FEFFFFFFFF; 0x000000FFFFFFFFFF; 0x000080FFFFFFFFFF;
  0x0000C0FFFFFFFFFF; 0x0000E0FFFFFFFFFF; 0x0000F0FFFFFFFFFF;
  0x0000F8FFFFFFFFFF; 0x0000FCFFFFFFFFFF; 0x0000FEFFFFFFFFFF;
  0x0000FFFFFFFFFFFF; 0x0080FFFFFFFFFFFF; 0x00C0FFFFFFFFFFFF;
  0x00E0FFFFFFFFFFFF; 0x00F0FFFFFFFFFFFF; 0x00F8FFFFFFFFFFFF;
  0x00FCFFFFFFFFFFFF; 0x00FEFFFFFFFFFFFF; 0x00FFFFFFFFFFFFFF;
  0x80FFFFFFFFFFFFFF; 0xC0FFFFFFFFFFFFFF; 0xE0FFFFFFFFFFFFFF;
  0xF0FFFFFFFFFFFFFF; 0xF8FFFFFFFFFFFFFF; 0xFCFFFFFFFFFFFFFF;
  0xFEFFFFFFFFFFFFFF].

(** masks2, lines 4837-4859: one bit, from the top. *)
Definition masks2 : list Z := [
  0x8000000000000000; 0x4000000000000000; 0x2000000000000000;
  0x1000000000000000; 0x0800000000000000; 0x0400000000000000;
  0x0200000000000000; 0x0100000000000000; 0x0080000000000000;
  0x0040000000000000; 0x0020000000000000; 0x0010000000000000;
  0x0008000000000000; 0x0004000000000000; 0x0002000000000000;
  0x0001000000000000; 0x0000800000000000; 0x0000400000000000;
  0x0000200000000000; 0x0000100000000000; 0x0000080000000000;
  0x0000040000000000; 0x0000020000000000; 0x0000010000000000;
  0x0000008000000000; 0x0000004000000000; 0x0000002000000000;
  0x0000001000000000; 0x0000000800000000; 0x0000000400000000;
  0x0000000200000000; 0x0000000100000000; 0x0000000080000000;
  0x0000000040000000; 0x0000000020000000; 0x0000000010000000;
  0x0000000008000000; 0x0000000004000000; 0x0000000002000000;
  0x0000000001000000; 0x0000000000800000; 0x0000000000400000;
  0x0000000000200000; 0x0000000000100000; 0x0000000000080000;
  0x0000000000040000; 0x0000000000020000; 0x0000000000010000;
  0x0000000000008000; 0x0000000000004000; 0x0000000000002000;
  0x0000000000001000; 0x0000000000000800; 0x0000000000000400;
  0x0000000000000200; 0x0000000000000100; 0x0000000000000080;
  0x0000000000000040; 0x0000000000000020; 0x0000000000000010;
  0x0000000000000008; 0x0000000000000004; 0x0000000000000002;
  0x0000000000000001].

(** masks3, lines 4861-4883, is [masks] of MrRank (compared entry by entry). *)
Definition masks3 : list Z := masks.

(** ** Construction *)

(** Blocks have 128 bytes (line 4794).  extendedTextLen: lines 3390-3392, 3603-3605. *)
Definition mp_extended (n : Z) : Z := if n mod 128 >? 0 then u64 (n + (128 - n mod 128)) else n.
Definition mp_blocks (n : Z) : Z := mp_extended n / 128.

(** emptyBlock, lines 3394-3415 and 3607-3628; 1 for true. *)
Definition mp_homoblock (text : list Z) (i : Z) : res bool :=
  let* h := all_bytes (fun b => negb (b >? 0)) text i 128 0 in
  if h then Ok true else all_bytes (fun b => negb (b <? 255)) text i 128 0.
Definition mp_empty (text : list Z) : res (list Z) :=
  mapM (fun b => let* h := mp_homoblock text (128 * b) in Ok (b2z h)) (zrange 0 (Z.to_nat (mp_blocks (zlen text)))).

(** One byte of bitsTemp, lines 3439-3444 and 3652-3657.  State: bitsTemp,
    bitsCounter, rank. *)
Definition mp_fill_byte (text : list Z) (i : Z) (st : list Z * Z * Z) (j : Z) : res (list Z * Z * Z) :=
  let '(temp, bc, rank) := st in
  if i + j <? zlen text
  then let* b := geti text (i + j) in
       let* temp := seti temp bc b in
       Ok (temp, bc + 1, u64 (rank + popcount b))
  else let* temp := seti temp bc 0 in Ok (temp, bc + 1, rank).

(** One block, lines 3432-3445 and 3645-3658.  State: ranksTemp, bitsTemp,
    bitsCounter, rank; rankCounter is 2b. *)
Definition mp_scan_block (text eb : list Z) (st : list Z * list Z * Z * Z) (b : Z) : res (list Z * list Z * Z * Z) :=
  let '(ranks, temp, bc, rank) := st in
  let* ranks := seti ranks (2 * b) rank in
  let* ranks := seti ranks (2 * b + 1) bc in
  let* e := geti eb b in
  if e =? 0
  then let* '(temp, bc, rank) := foldM (mp_fill_byte text (128 * b)) (zrange 0 128) (temp, bc, rank) in
       Ok (ranks, temp, bc, rank)
  else let* x := geti text (128 * b) in
       Ok (ranks, temp, bc, if x =? 255 then u64 (rank + 1024) else rank).

(** ranksTempLen, lines 3424-3427 and 3637-3640. *)
Definition mp_temp_len (nb : Z) : Z :=
  let l := 2 * nb + 2 in if l mod 32 >? 0 then l + (32 - l mod 32) else l.

(** The loop over the blocks, the last header and the zeros after it, lines
    3430-3452 and 3643-3665. *)
Definition mp_scan (text eb ranks temp : list Z) : res (list Z * list Z) :=
  let nb := mp_blocks (zlen text) in
  let* '(ranks, temp, _, rank) := foldM (mp_scan_block text eb) (zrange 0 (Z.to_nat nb)) (ranks, temp, 0, 0) in
  let* ranks := seti ranks (2 * nb) rank in
  let* ranks := seti ranks (2 * nb + 1) 0 in
  let* ranks := foldM (fun ranks k => seti ranks k 0)
                      (zrange (2 * nb + 2) (Z.to_nat (mp_temp_len nb - (2 * nb + 2)))) ranks in
  Ok (ranks, temp).

(** bitsTemp[k] == v && bitsTemp[k + 1] == v. *)
Definition pair_eq (v : Z) (temp : list Z) (k : Z) : res bool :=
  let* a := geti temp k in
  if a =? v then let* b := geti temp (k + 1) in Ok (b =? v) else Ok false.

(** pairsToRemoveInBlock, lines 3463-3470. *)
Definition count_pairs (temp : list Z) (offset : Z) : res Z :=
  foldM (fun n j =>
      let* z := pair_eq 0 temp (offset + 2 * j) in
      let* f := if z then Ok true else pair_eq 255 temp (offset + 2 * j) in
      Ok (if f then n + 1 else n))
    (zrange 0 64) 0.

(** pairs0ToRemoveInBlock and pairs255ToRemoveInBlock, lines 3681-3690. *)
Definition count_pairs2 (temp : list Z) (offset : Z) : res (Z * Z) :=
  foldM (fun '(n0, n1) j =>
      let* z := pair_eq 0 temp (offset + 2 * j) in
      let* f := pair_eq 255 temp (offset + 2 * j) in
      Ok (if z then n0 + 1 else n0, if f then n1 + 1 else n1))
    (zrange 0 64) (0, 0).

(** The choice for one kept block: lines 3471-3475 (flag 1: both kinds of pairs are
    left out) and 3691-3730 (3: both, 1: zeros, 2: ones).  Result: the entry of
    blockToCompress and the number added to pairsToRemove. *)
Definition choose (T : mpe_type) (temp : list Z) (offset : Z) : res (Z * Z) :=
  match T with
  | MPE1 => let* n := count_pairs temp offset in Ok (if n >? 8 then (1, n) else (0, 0))
  | MPE2 => let* '(n0, n1) := count_pairs2 temp offset in
            Ok (if (n0 >? 4) && (n1 >? 4) then (3, n0 + n1) else
                if (n0 >? 4) && (n1 <=? 4) then (1, n0) else
                if (n0 <=? 4) && (n1 >? 4) then (2, n1) else (0, 0))
  | MPE3 => let* '(n0, n1) := count_pairs2 temp offset in
            Ok (if (n0 >? 9) && (n1 >? 9) then (3, n0 + n1) else
                if (n0 >=? 9 * 2) && (n1 <=? 9) then (1, n0) else
                if (n0 <=? 9) && (n1 >=? 9 * 2) then (2, n1) else (0, 0))
  end.

(** Bytes in front of a block with flag [f]: (BLOCK_LEN / 2) * 2 / 8 or
    (BLOCK_LEN / 2) / 8, lines 3479 and 3734-3736. *)
Definition head_bytes (T : mpe_type) (f : Z) : Z :=
  match T with
  | MPE1 => if f =? 0 then 0 else 16
  | _ => if f =? 3 then 16 else if f =? 0 then 0 else 8
  end.

(** One block of the loop of lines 3460-3477 and 3678-3732.  State: blockToCompress,
    pairsToRemove, the bytes for the heads (the counters compressedBlocks,
    compressed0Blocks, compressed255Blocks times their sizes), offset. *)
Definition choose_block (T : mpe_type) (eb temp : list Z) (st : list Z * Z * Z * Z) (b : Z) : res (list Z * Z * Z * Z) :=
  let '(btc, removed, heads, offset) := st in
  let* btc := seti btc b 0 in
  let* e := geti eb b in
  if e =? 0
  then let* '(f, n) := choose T temp offset in
       let* btc := seti btc b f in
       Ok (btc, removed + n, heads + head_bytes T f, offset + 128)
  else Ok (btc, removed, heads, offset).

(** Eight stores of bytes, lines 3516-3530, 3531-3546 and the like. *)
Definition put_le (bits : list Z) (at_ w : Z) : res (list Z) :=
  foldM (fun bits k => seti bits (at_ + k) (Z.land (Z.shiftr w (8 * k)) 0xFF)) (zrange 0 8) bits.

(** The loop of lines 3500-3515 and 3757-3772.  State: alignedBits, bitsCounter,
    bits1, bits2. *)
Definition both_pair (temp : list Z) (offset : Z) (st : list Z * Z * Z * Z) (j : Z) : res (list Z * Z * Z * Z) :=
  let '(bits, bc, bits1, bits2) := st in
  let* f := pair_eq 255 temp (offset + 2 * j) in
  let bits2 := if f then u64 (bits2 + Z.shiftl 1 (63 - j)) else bits2 in
  let* z := pair_eq 0 temp (offset + 2 * j) in
  let* r := if z then Ok true else pair_eq 255 temp (offset + 2 * j) in
  if r then Ok (bits, bc, u64 (bits1 + Z.shiftl 1 (63 - j)), bits2)
  else let* x := geti temp (offset + 2 * j) in
       let* bits := seti bits bc x in
       let* y := geti temp (offset + 2 * j + 1) in
       let* bits := seti bits (bc + 1) y in
       Ok (bits, bc + 2, bits1, bits2).

(** Lines 3497-3546 and 3754-3803; [start] is ranksTemp[rankCounter - 2]. *)
Definition store_both (temp : list Z) (offset start : Z) (bits : list Z) (bc : Z) : res (list Z * Z) :=
  let* '(bits, bc, bits1, bits2) := foldM (both_pair temp offset) (zrange 0 64) (bits, bc + 16, 0, 0) in
  let* bits := put_le bits start bits1 in
  let* bits := put_le bits (start + 8) bits2 in
  Ok (bits, bc).

(** The loops of lines 3807-3816 ([v] = 0) and 3835-3844 ([v] = 255). *)
Definition one_pair (v : Z) (temp : list Z) (offset : Z) (st : list Z * Z * Z) (j : Z) : res (list Z * Z * Z) :=
  let '(bits, bc, w) := st in
  let* r := pair_eq v temp (offset + 2 * j) in
  if r then Ok (bits, bc, u64 (w + Z.shiftl 1 (63 - j)))
  else let* x := geti temp (offset + 2 * j) in
       let* bits := seti bits bc x in
       let* y := geti temp (offset + 2 * j + 1) in
       let* bits := seti bits (bc + 1) y in
       Ok (bits, bc + 2, w).

(** Lines 3805-3831 and 3833-3859. *)
Definition store_one (v : Z) (temp : list Z) (offset start : Z) (bits : list Z) (bc : Z) : res (list Z * Z) :=
  let* '(bits, bc, w) := foldM (one_pair v temp offset) (zrange 0 64) (bits, bc + 8, 0) in
  let* bits := put_le bits start w in
  Ok (bits, bc).

(** Lines 3548-3549 and 3861-3862. *)
Definition store_plain (temp : list Z) (offset : Z) (bits : list Z) (bc : Z) : res (list Z * Z) :=
  let* bits := foldM (fun bits j => let* x := geti temp (offset + j) in seti bits (bc + j) x) (zrange 0 128) bits in
  Ok (bits, bc + 128).

(** One block of the loop of lines 3492-3552 and 3749-3865.  State: ranksTemp,
    alignedBits, bitsCounter, offset; rankCounter is 2b + 1. *)
Definition store_block (T : mpe_type) (eb btc temp : list Z) (st : list Z * list Z * Z * Z) (b : Z) : res (list Z * list Z * Z * Z) :=
  let '(ranks, bits, bc, offset) := st in
  let* ranks := seti ranks (2 * b + 1) bc in
  let* e := geti eb b in
  if e =? 0
  then let* f := geti btc b in
       let* start := geti ranks (2 * b + 1) in
       let* '(bits, bc) := match T with
         | MPE1 => if f =? 0 then store_plain temp offset bits bc else store_both temp offset start bits bc
         | _ => if f =? 3 then store_both temp offset start bits bc else
                if f =? 1 then store_one 0 temp offset start bits bc else
                if f =? 2 then store_one 255 temp offset start bits bc else
                store_plain temp offset bits bc
         end in
       Ok (ranks, bits, bc, offset + 128)
  else Ok (ranks, bits, bc, offset).

(** What blockToCompress[i + j + 1] adds to offsetDiff (lines 3583 and 3896) and
    blockToCompress[i] to bucket[OFFSETSTARTINSUPERBLOCK + 1] (3587-3588, 3900-3901). *)
Definition flag_in_offset (T : mpe_type) (f : Z) : Z :=
  match T with MPE1 => if f =? 0 then 0 else Z.shiftl 1 15 | _ => Z.shiftl f 14 end.
Definition flag_of_first (T : mpe_type) (f : Z) : Z :=
  match T with MPE1 => if f =? 0 then 0 else Z.shiftl 1 62 | _ => u64 (Z.shiftl f 60) end.

(** blockToCompress[k]: [strict] makes a read past the end undefined, as the
    language has it; otherwise memory there holds a byte [jf k]. *)
Definition read_btc (strict : bool) (jf : Z -> Z) (btc : list Z) (k : Z) : res Z :=
  if strict || ((0 <=? k) && (k <? zlen btc)) then geti btc k else Ok (u8 (jf k)).

(** One superblock of 16 blocks, lines 3573-3588 and 3886-3901: the 10 words. *)
Definition mp_bucket (T : mpe_type) (strict : bool) (jf : Z -> Z) (temp btc : list Z) (s : Z) : res (list Z) :=
  let i := 16 * s in
  let* b0 := geti temp (2 * i) in
  let* bucket := seti (repeat 0 10) 0 b0 in
  let* bucket := foldM (fun bucket j =>
      let* t := geti temp (2 * (i + j + 1)) in
      let* x := geti bucket (j / 4 + 1) in
      seti bucket (j / 4 + 1) (u64 (x + Z.shiftl (u64 (t - b0)) (16 * (j mod 4)))))
    (zrange 0 15) bucket in
  let* o := geti temp (2 * i + 1) in
  let* bucket := seti bucket 5 o in
  let* bucket := foldM (fun bucket j =>
      let* t := geti temp (2 * (i + j + 1) + 1) in
      let* f := read_btc strict jf btc (i + j + 1) in
      let* x := geti bucket (5 + 1 + j / 4) in
      seti bucket (5 + 1 + j / 4) (u64 (x + Z.shiftl (u64 (u64 (t - o) + flag_in_offset T f)) (16 * (j mod 4)))))
    (zrange 0 15) bucket in
  let* f := read_btc strict jf btc i in
  let* x := geti bucket 6 in
  seti bucket 6 (u64 (x + flag_of_first T f)).

(** new unsigned char[n]; new unsigned char[len + 128] from a multiple of 128 on
    (lines 3483-3485, 3740-3742). *)
Definition fresh_b (junk : Z -> Z) (n : Z) : list Z := map (fun k => u8 (junk k)) (zrange 0 (Z.to_nat n)).
Definition fresh_aligned_b (junk : Z -> Z) (addr len : Z) : list Z := fresh_b junk (len + 128 - (- addr) mod 128).

(** The members, lines 4784-4792; the arrays from alignedRanks and alignedBits on. *)
Record rank_mpe := { mp_ranks : list Z; mp_ranks_len : Z; mp_bits : list Z; mp_bits_len : Z; mp_text_len : Z }.

(** build, lines 4893-4902: build_v1 or build_v2.  blockToCompress has one entry
    more than there are blocks, never written (lines 3458, 3676-3677). *)
Definition build_mpe (T : mpe_type) (strict : bool) (jf : Z -> Z) (m : memory) (text : list Z) : res rank_mpe :=
  let* eb := mp_empty text in
  let nb := mp_blocks (zlen text) in
  let temp_bits := not_empty eb * 128 in
  let tl := mp_temp_len nb in
  let* '(ranks, temp) := mp_scan text eb (fresh (m_junk_t m) tl) (fresh_b (m_junk_t m) temp_bits) in
  let* '(btc, removed, heads, _) := foldM (choose_block T eb temp) (zrange 0 (Z.to_nat nb)) (fresh_b jf (nb + 1), 0, 0, 0) in
  let bits_len := u64 (heads + (temp_bits - 2 * removed) + 8) in
  let* '(ranks, bits, _, _) := foldM (store_block T eb btc temp) (zrange 0 (Z.to_nat nb))
                                     (ranks, fresh_aligned_b (m_junk_b m) (m_addr_b m) bits_len, 0, 0) in
  (* Lines 3553-3554 and 3866-3867: rankCounter is 2 nb + 1. *)
  let* ranks := foldM (fun ranks k => let* x := geti ranks (u64 (2 * nb + 1 - 2)) in seti ranks (2 * nb + 1 + 2 * k) x)
                      (zrange 0 (Z.to_nat ((tl - (2 * nb + 1) + 1) / 2))) ranks in
  let ranks_len := tl / 32 * 10 in
  let* words := foldM (fun words s =>
      let* v := mp_bucket T strict jf ranks btc s in put_words words (10 * s) v)
    (zrange 0 (Z.to_nat (tl / 2 / 16))) (fresh_aligned (m_junk_r m) (m_addr_r m) ranks_len) in
  Ok {| mp_ranks := words; mp_ranks_len := ranks_len; mp_bits := bits; mp_bits_len := bits_len; mp_text_len := zlen text |}.

(** ** Queries *)

(** A load of 64 bits through a byte pointer; alignedBits is a multiple of 128.
    [strict]: undefined, as the language has it, unless the address is a multiple of 8. *)
Definition load_word (strict : bool) (bits : list Z) (p : Z) : res Z :=
  if strict && negb (p mod 8 =? 0) then Ub UB_align else load 8 bits p.

(** The switch of lines 4012-4332 and 4460-4780: [p] is the index the pointer stands
    at, [i] the bit. *)
Definition count_bytes (strict : bool) (bits : list Z) (p i rank : Z) : res Z :=
  let k := if i / 64 <=? 15 then i / 64 else 0 in
  let* rank := foldM (fun r j => let* w := load_word strict bits (p + 8 * j) in Ok (u64 (r + popcount w))) (zrange 0 (Z.to_nat k)) rank in
  let* w := load_word strict bits (p + 8 * k) in
  let* m := geti masks_le (i - 64 * k) in
  Ok (u64 (rank + popcount (Z.land w m))).

(** compressedBlock and the offset inside the superblock: lines 3963-3991 and
    4385-4413.  [w] is the word, [num] is rankNumInCL > 0. *)
Definition offset_field (T : mpe_type) (w num : Z) : Z * Z :=
  match T with
  | MPE1 => match num mod 4 with
            | 3 => (Z.land (Z.shiftr w 32) 0x3FFF, Z.land (Z.shiftr w 47) 1)
            | 2 => (Z.land (Z.shiftr w 16) 0x3FFF, Z.land (Z.shiftr w 31) 1)
            | 1 => (Z.land w 0x3FFF, Z.land (Z.shiftr w 15) 1)
            | _ => (Z.land (Z.shiftr w 48) 0x3FFF, Z.shiftr w 63)
            end
  | _ => match num mod 4 with
         | 3 => (Z.land (Z.shiftr w 32) 0x0FFF, Z.land (Z.shiftr w 46) 3)
         | 2 => (Z.land (Z.shiftr w 16) 0x0FFF, Z.land (Z.shiftr w 30) 3)
         | 1 => (Z.land w 0x0FFF, Z.land (Z.shiftr w 14) 3)
         | _ => (Z.land (Z.shiftr w 48) 0x0FFF, Z.shiftr w 62)
         end
  end.

(** Lines 3992-3997 and 4414-4419: the first block of a superblock. *)
Definition first_flag (T : mpe_type) (w : Z) : Z :=
  match T with MPE1 => Z.land (Z.shiftr w 62) 1 | _ => Z.land (Z.shiftr w 60) 3 end.

(** Lines 3999-4010 (compressedBlock) and 4445-4457 (case 3): both kinds of pairs
    left out.  Result: the pointer, i, rank. *)
Definition skip_both (strict : bool) (bits : list Z) (p i rank : Z) : res (Z * Z * Z) :=
  let temp1 := i mod 16 in
  let temp2 := i / 16 in
  let* bits1 := load_word strict bits p in
  let* bits2 := load_word strict bits (p + 8) in
  let* m2 := geti masks2 temp2 in
  let* m3 := geti masks3 temp2 in
  let rank := if (Z.land bits1 m2 >? 0) && (Z.land bits2 m2 >? 0) then u64 (rank + temp1) else rank in
  let i := if Z.land bits1 m2 >? 0 then u64 (i - temp1) else i in
  let i := u64 (i - 16 * popcount (Z.land bits1 m3)) in
  let rank := u64 (rank + 16 * popcount (Z.land bits2 m3)) in
  Ok (p + 16, i, rank).

(** Lines 4424-4430 (case 1, [ones] = false) and 4432-4443 (case 2). *)
Definition skip_one (ones strict : bool) (bits : list Z) (p i rank : Z) : res (Z * Z * Z) :=
  let temp1 := i mod 16 in
  let temp2 := i / 16 in
  let* w := load_word strict bits p in
  let* m2 := geti masks2 temp2 in
  let* m3 := geti masks3 temp2 in
  let rank := if ones && (Z.land w m2 >? 0) then u64 (rank + temp1) else rank in
  let i := if Z.land w m2 >? 0 then u64 (i - temp1) else i in
  let temp_bits := 16 * popcount (Z.land w m3) in
  Ok (p + 8, u64 (i - temp_bits), if ones then u64 (rank + temp_bits) else rank).

(** Lines 3998-4011 and 4422-4459. *)
Definition skip_pairs (T : mpe_type) (f : Z) (strict : bool) (bits : list Z) (p i rank : Z) : res (Z * Z * Z) :=
  match T with
  | MPE1 => if f =? 0 then Ok (p, i, rank) else skip_both strict bits p i rank
  | _ => if f =? 1 then skip_one false strict bits p i rank else
         if f =? 2 then skip_one true strict bits p i rank else
         if f =? 3 then skip_both strict bits p i rank else Ok (p, i, rank)
  end.

(** rank, lines 4904-4913: getRank_v1 or getRank_v2.  [num] is rankNumInCL. *)
Definition rank_of_mpe (T : mpe_type) (strict : bool) (t : rank_mpe) (i : Z) : res Z :=
  let start := i / 1024 in
  let p2 := 10 * (start / 16) in
  let* first := geti (mp_ranks t) p2 in
  let num := start mod 16 in
  let* rank := if num >? 0 then
      let* w := geti (mp_ranks t) (p2 + (num + 3) / 4) in
      Ok (u64 (first + (match num mod 4 with
                        | 3 => Z.land (Z.shiftr w 32) 0xFFFF
                        | 2 => Z.land (Z.shiftr w 16) 0xFFFF
                        | 1 => Z.land w 0xFFFF
                        | _ => Z.shiftr w 48
                        end)))
    else Ok first in
  let i := i mod 1024 in
  let* rank2 := if num =? 15 then geti (mp_ranks t) (p2 + 10) else
      let* w := geti (mp_ranks t) (p2 + (if num mod 4 =? 0 then num + 4 else num + 3) / 4) in
      Ok (u64 (first + (match num mod 4 with
                        | 3 => Z.shiftr w 48
                        | 2 => Z.land (Z.shiftr w 32) 0xFFFF
                        | 1 => Z.land (Z.shiftr w 16) 0xFFFF
                        | _ => Z.land w 0xFFFF
                        end))) in
  let diff := u64 (rank2 - rank) in
  if Z.land diff 1023 =? 0 then Ok (u64 (rank + u64 (i * Z.shiftr diff 10))) else
  let* o := geti (mp_ranks t) (p2 + 5) in
  let* '(p, f) := if num >? 0
    then let* w := geti (mp_ranks t) (p2 + 5 + (num + 3) / 4) in
         let '(d, f) := offset_field T w num in Ok (o + d, f)
    else let* w := geti (mp_ranks t) (p2 + 6) in Ok (o, first_flag T w) in
  let* '(p, i, rank) := skip_pairs T f strict (mp_bits t) p i rank in
  count_bytes strict (mp_bits t) p i rank.

(** getSize and getTextSize, lines 4983-4997. *)
Definition mpe_size (t : rank_mpe) : Z :=
  u64 (40 + (if mp_ranks_len t >? 0 then (mp_ranks_len t + 16) * 8 else 0)
          + (if mp_bits_len t >? 0 then mp_bits_len t + 128 else 0)).
Definition mpe_text_size (t : rank_mpe) : Z := mp_text_len t.
