(** include/mranisz/shared/rank.hpp: the rank structures with 32-bit counters, RankBasic32
    (lines 15-524) and RankCF32 (lines 1054-1445).  textLen and the argument of rank() are
    unsigned int, so texts have fewer than 2^32 bytes and 0 <= i < 2^32.  Memory, blocks and
    the records of the members are those of MrRank; words of unsigned int arrays hold values
    below 2^32.  i + j stays below extendedTextLen in every loop over a block, so it is not
    wrapped; rankCounter, LCounter, RCounter and offsetCounter are bounded by arrays that are
    checked. *)
From Verif Require Import Base Words Trees Mem MrRank MrSelect MrFile.

(** Lines 370-372 and 1121-1123. *)
Definition extended_len32 (n : Z) : Z := if n mod 64 >? 0 then u32 (n + (64 - n mod 64)) else n.
Definition block_count32 (n : Z) : Z := extended_len32 n / 64.

(** emptyBlock: lines 374-395 and 1125-1146; the loops over one block are those of [homoblock]. *)
Definition empty_blocks32 (text : list Z) : res (list Z) :=
  mapM (fun b => let* h := homoblock text (64 * b) in Ok (b2z h)) (zrange 0 (Z.to_nat (block_count32 (zlen text)))).

(** One byte of the copying loops into words of [w] bytes: lines 58-67 and 95-105 (w = 8),
    1167-1174 (w = 4).  State: the words, bitsCounter, rank. *)
Definition fill_byte32 (w : Z) (text : list Z) (i : Z) (st : list Z * Z * Z) (j : Z) : res (list Z * Z * Z) :=
  let '(bits, bc, rank) := st in
  let* bits := if j mod w =? 0 then seti bits bc 0 else Ok bits in
  let* bits := if i + j <? zlen text
               then let* b := geti text (i + j) in
                    let* x := geti bits bc in
                    seti bits bc (wrap (8 * w) (x + Z.shiftl b (8 * (w - j mod w - 1))))
               else Ok bits in
  if j mod w =? w - 1
  then let* x := geti bits bc in Ok (bits, u32 (bc + 1), u32 (rank + popcount x))
  else Ok (bits, bc, rank).

(** One block: lines 51-68, 88-106 and 1160-1175. *)
Definition scan_block32 (w : Z) (text eb : list Z) (st : list Z * list Z * Z * Z) (b : Z) : res (list Z * list Z * Z * Z) :=
  let '(ranks, bits, bc, rank) := st in
  let* ranks := seti ranks (2 * b) rank in
  let* ranks := seti ranks (2 * b + 1) bc in
  let* e := geti eb b in
  if e =? 0
  then let* '(bits, bc, rank) := foldM (fill_byte32 w text (64 * b)) (zrange 0 64) (bits, bc, rank) in
       Ok (ranks, bits, bc, rank)
  else let* x := geti text (64 * b) in
       Ok (ranks, bits, bc, if x =? 255 then u32 (rank + 512) else rank).

(** The loop over the blocks and the last header: lines 49-70, 86-108 and 1158-1177. *)
Definition scan32 (w : Z) (text eb ranks bits : list Z) : res (list Z * list Z) :=
  let nb := block_count32 (zlen text) in
  let* '(ranks, bits, _, rank) := foldM (scan_block32 w text eb) (zrange 0 (Z.to_nat nb)) (ranks, bits, 0, 0) in
  let* ranks := seti ranks (2 * nb) rank in
  Ok (ranks, bits).

(** new unsigned int[n]. *)
Definition fresh32 (junk : Z -> Z) (n : Z) : list Z := fresh (fun k => u32 (junk k)) n.

(** new unsigned int[len + 32] at address [addr], then the pointer is moved to a multiple of
    128: the ints from there (lines 44-47, 119-122, 1197-1199). *)
Definition fresh_aligned32 (junk : Z -> Z) (addr len : Z) : list Z := fresh32 junk (u32 (len + 32) - ((- addr) mod 128) / 4).

(** ** RankBasic32 *)

(** build_std, lines 35-71, with the lines of build() before it. *)
Definition build_std32 (m : memory) (text : list Z) : res rank_basic :=
  let* eb := empty_blocks32 text in
  let bits_len := u32 (not_empty eb * 8) in
  let ranks_len := u32 (2 * block_count32 (zlen text) + 1) in
  let* '(ranks, bits) := scan32 8 text eb (fresh_aligned32 (m_junk_r m) (m_addr_r m) ranks_len)
                                (fresh_aligned (m_junk_b m) (m_addr_b m) bits_len) in
  Ok {| rb_ranks := ranks; rb_ranks_len := ranks_len; rb_bits := bits; rb_bits_len := bits_len; rb_text_len := zlen text |}.

(** One superblock, lines 129-143: the 19 ints.  [strict] as in [read_flag]. *)
Definition bucket_of32 (strict : bool) (junk : Z -> Z) (temp eb : list Z) (s : Z) : res (list Z) :=
  let i := 32 * s in
  let* b0 := geti temp (2 * i) in
  let* bucket := seti (repeat 0 19) 0 b0 in
  let* bucket := foldM (fun bucket j =>
      let* t := geti temp (2 * (i + j + 1)) in
      let* x := geti bucket (j / 2 + 1) in
      seti bucket (j / 2 + 1) (u32 (x + u32 (Z.shiftl (u32 (t - b0)) (16 * (j mod 2))))))
    (zrange 0 31) bucket in
  let* o := geti temp (2 * i + 1) in
  let* bucket := seti bucket 17 o in
  foldM (fun bucket j =>
      let* e := read_flag strict junk eb (i + j) in
      if e =? 0 then let* x := geti bucket 18 in seti bucket 18 (u32 (x + Z.shiftl 1 (31 - j))) else Ok bucket)
    (zrange 0 31) bucket.

(** Rounding of lines 80-83. *)
Definition temp_len32 (nb : Z) : Z :=
  let l := u32 (2 * nb + 2) in if l mod 64 >? 0 then u32 (l + (64 - l mod 64)) else l.

(** build_bch, lines 73-146, with the lines of build() before it. *)
Definition build_bch32 (strict : bool) (jf : Z -> Z) (m : memory) (text : list Z) : res rank_basic :=
  let* eb := empty_blocks32 text in
  let nb := block_count32 (zlen text) in
  let bits_len := u32 (not_empty eb * 8) in
  let tl := temp_len32 nb in
  let* '(temp, bits) := scan32 8 text eb (fresh32 (m_junk_t m) tl) (fresh_aligned (m_junk_b m) (m_addr_b m) bits_len) in
  let* temp := foldM (fun temp k => seti temp k 0) (zrange (2 * nb + 1) (Z.to_nat (tl - (2 * nb + 1)))) temp in
  let ranks_len := u32 (tl / 2 / 32 * 19) in
  let* ranks := foldM (fun ranks s =>
      let* v := bucket_of32 strict jf temp eb s in put_words ranks (19 * s) v)
    (zrange 0 (Z.to_nat (tl / 2 / 32))) (fresh_aligned32 (m_junk_r m) (m_addr_r m) ranks_len) in
  Ok {| rb_ranks := ranks; rb_ranks_len := ranks_len; rb_bits := bits; rb_bits_len := bits_len; rb_text_len := zlen text |}.

(** The switch of lines 155-207 and 244-296. *)
Definition count_block32 (bits : list Z) (p i rank : Z) : res Z :=
  let* rank := foldM (fun r j => let* w := geti bits (p + j) in Ok (u32 (r + popcount w))) (zrange 0 (Z.to_nat (i / 64))) rank in
  let* w := geti bits (p + i / 64) in
  let* m := geti masks (i - 64 * (i / 64)) in
  Ok (u32 (rank + popcount (Z.land w m))).

(** getRank_std, lines 148-208. *)
Definition rank_std32 (t : rank_basic) (i : Z) : res Z :=
  let start := i / 512 in
  let* rank := geti (rb_ranks t) (2 * start) in
  let i := i mod 512 in
  let* next := geti (rb_ranks t) (2 * start + 2) in
  let diff := u32 (next - rank) in
  if Z.land diff 511 =? 0 then Ok (u32 (rank + u32 (i * Z.shiftr diff 9))) else
  let* p := geti (rb_ranks t) (2 * start + 1) in
  count_block32 (rb_bits t) p i rank.

(** Lines 351-357. *)
Definition masks2 : list Z := [
  0x00000000; 0x80000000; 0xC0000000; 0xE0000000; 0xF0000000; 0xF8000000;
  0xFC000000; 0xFE000000; 0xFF000000; 0xFF800000; 0xFFC00000; 0xFFE00000;
  0xFFF00000; 0xFFF80000; 0xFFFC0000; 0xFFFE0000; 0xFFFF0000; 0xFFFF8000;
  0xFFFFC000; 0xFFFFE000; 0xFFFFF000; 0xFFFFF800; 0xFFFFFC00; 0xFFFFFE00;
  0xFFFFFF00; 0xFFFFFF80; 0xFFFFFFC0; 0xFFFFFFE0; 0xFFFFFFF0; 0xFFFFFFF8;
  0xFFFFFFFC; 0xFFFFFFFE].

(** getRank_bch, lines 210-297.  [num] is rankNumInCL.  alignedBits plus the offset plus
    8 popcount is pointer arithmetic: it does not wrap. *)
Definition rank_bch32 (t : rank_basic) (i : Z) : res Z :=
  let start := i / 512 in
  let p2 := 19 * (start / 32) in
  let* first := geti (rb_ranks t) p2 in
  let num := start mod 32 in
  let* rank := if num >? 0 then
      let* w := geti (rb_ranks t) (p2 + (num + 1) / 2) in
      Ok (u32 (first + (if num mod 2 =? 1 then Z.land w 0xFFFF else Z.shiftr w 16)))
    else Ok first in
  let i := i mod 512 in
  let* rank2 := if num =? 31 then geti (rb_ranks t) (p2 + 19) else
      let* w := geti (rb_ranks t) (p2 + (num + 2) / 2) in
      Ok (u32 (first + (if num mod 2 =? 0 then Z.land w 0xFFFF else Z.shiftr w 16))) in
  let diff := u32 (rank2 - rank) in
  if Z.land diff 511 =? 0 then Ok (u32 (rank + u32 (i * Z.shiftr diff 9))) else
  let* o := geti (rb_ranks t) (p2 + 17) in
  let* p := if num >? 0 then
      let* f := geti (rb_ranks t) (p2 + 18) in
      let* m := geti masks2 num in
      Ok (o + 8 * popcount (Z.land f m))
    else Ok o in
  count_block32 (rb_bits t) p i rank.

(** getSize, lines 494-503: ranksLen + 32 and bitsLen + 16 are unsigned int, the products
    size_t.  getTextSize, lines 505-507. *)
Definition basic_size32 (t : rank_basic) : Z :=
  u64 (24 + (if rb_ranks_len t >? 0 then u32 (rb_ranks_len t + 32) * 4 else 0)
          + (if rb_bits_len t >? 0 then u32 (rb_bits_len t + 16) * 8 else 0)).
Definition basic_text_size32 (t : rank_basic) : Z := u32 (rb_text_len t).

(** ** RankCF32 *)

(** Lines 1086-1108: a word of 64 bits has the first int in its low half. *)
Definition masks_cf32 : list Z := [
  0x0000000000000000; 0x0000000080000000; 0x00000000C0000000;
  0x00000000E0000000; 0x00000000F0000000; 0x00000000F8000000;
  0x00000000FC000000; 0x00000000FE000000; 0x00000000FF000000;
  0x00000000FF800000; 0x00000000FFC00000; 0x00000000FFE00000;
  0x00000000FFF00000; 0x00000000FFF80000; 0x00000000FFFC0000;
  0x00000000FFFE0000; 0x00000000FFFF0000; 0x00000000FFFF8000;
  0x00000000FFFFC000; 0x00000000FFFFE000; 0x00000000FFFFF000;
  0x00000000FFFFF800; 0x00000000FFFFFC00; 0x00000000FFFFFE00;
  0x00000000FFFFFF00; 0x00000000FFFFFF80; 0x00000000FFFFFFC0;
  0x00000000FFFFFFE0; 0x00000000FFFFFFF0; 0x00000000FFFFFFF8;
  0x00000000FFFFFFFC; 0x00000000FFFFFFFE; 0x00000000FFFFFFFF;
  0x80000000FFFFFFFF; 0xC0000000FFFFFFFF; 0xE0000000FFFFFFFF;
  0xF0000000FFFFFFFF; 0xF8000000FFFFFFFF; 0xFC000000FFFFFFFF;
  0xFE000000FFFFFFFF; 0xFF000000FFFFFFFF; 0xFF800000FFFFFFFF;
  0xFFC00000FFFFFFFF; 0xFFE00000FFFFFFFF; 0xFFF00000FFFFFFFF;
  0xFFF80000FFFFFFFF; 0xFFFC0000FFFFFFFF; 0xFFFE0000FFFFFFFF;
  0xFFFF0000FFFFFFFF; 0xFFFF8000FFFFFFFF; 0xFFFFC000FFFFFFFF;
  0xFFFFE000FFFFFFFF; 0xFFFFF000FFFFFFFF; 0xFFFFF800FFFFFFFF;
  0xFFFFFC00FFFFFFFF; 0xFFFFFE00FFFFFFFF; 0xFFFFFF00FFFFFFFF;
  0xFFFFFF80FFFFFFFF; 0xFFFFFFC0FFFFFFFF; 0xFFFFFFE0FFFFFFFF;
  0xFFFFFFF0FFFFFFFF; 0xFFFFFFF8FFFFFFFF; 0xFFFFFFFCFFFFFFFF;
  0xFFFFFFFEFFFFFFFF].

(** The loop of lines 1182-1192: the border, or 0 when no block is reached. *)
Fixpoint find_border32 (eb : list Z) (b l r : Z) : Z :=
  match eb with
  | [] => 0
  | e :: rest =>
      let l := if e =? 0 then l else u32 (l + 1) in
      let r := if e =? 0 then u32 (r - 1) else r in
      if l >=? r then b + 1 else find_border32 rest (b + 1) l r
  end.

(** Copies of sixteen ints, lines 1217-1219 and 1223-1226. *)
Definition copy_block32 (dst : list Z) (lc : Z) (src : list Z) (off : Z) : res (list Z) :=
  foldM (fun dst j => let* w := geti src (off + j) in seti dst (lc + j) w) (zrange 0 16) dst.

(** One block left of the border, lines 1208-1228.  State: alignedBits, RCounter, ranks;
    LCounter is 17b, rankCounter 2b.  The loop of lines 1210-1214 is [find_right]. *)
Definition left_block32 (eb temp : list Z) (st : list Z * Z * list Z) (b : Z) : res (list Z * Z * list Z) :=
  let '(bits, rc, ranks) := st in
  let* r := geti ranks (2 * b) in
  let* bits := seti bits (17 * b) r in
  let* e := geti eb b in
  if e =? 0
  then let* off := geti ranks (2 * b + 1) in
       let* bits := copy_block32 bits (17 * b + 1) temp off in
       Ok (bits, rc, ranks)
  else let* rc := find_right (S (length eb)) eb rc in
       let* off := geti ranks (2 * rc + 1) in
       let* ranks := seti ranks (2 * rc + 1) (17 * b + 1) in
       let* bits := copy_block32 bits (17 * b + 1) temp off in
       Ok (bits, rc + 1, ranks).

(** build, lines 1118-1236. *)
Definition build_cf32 (m : memory) (text : list Z) : res rank_cf :=
  let* eb := empty_blocks32 text in
  let nb := block_count32 (zlen text) in
  let ranks_len := u32 (2 * nb + 1) in
  let* '(ranks, temp) := scan32 4 text eb (fresh32 (m_junk_r m) ranks_len) (fresh32 (m_junk_t m) (u32 (not_empty eb * 16))) in
  let border := find_border32 eb 0 0 (not_empty eb) in
  let bits_len := u32 ((border - 1) * 17 + (nb - (border - 1)) * 2 + 16) in
  let* '(bits, _, ranks) := foldM (left_block32 eb temp) (zrange 0 (Z.to_nat border))
                                  (fresh_aligned32 (m_junk_b m) (m_addr_b m) bits_len, border, ranks) in
  let* bits := foldM (fun bits i => let* r := geti ranks i in seti bits (17 * border + (i - 2 * border)) r)
                     (zrange (2 * border) (Z.to_nat (ranks_len - 2 * border))) bits in
  Ok {| cf_bits := bits; cf_bits_len := bits_len; cf_text_len := zlen text; cf_border := border; cf_block_border := u32 (border * 17) |}.

(** A 64-bit read through a pointer to int, little endian.  alignedBits is a multiple of 128,
    so with [al] (the language's rule) the index has to be even. *)
Definition pair_at (al : bool) (bits : list Z) (p : Z) : res Z :=
  if al && (p mod 2 =? 1) then Ub UB_align else
  let* lo := geti bits p in
  let* hi := geti bits (p + 1) in
  Ok (lo + 2 ^ 32 * hi).

(** The switch of lines 1259-1355. *)
Definition count_pairs (al : bool) (bits : list Z) (p i rank : Z) : res Z :=
  let* rank := foldM (fun r j => let* w := pair_at al bits (p + 2 * j) in Ok (u32 (r + popcount w))) (zrange 0 (Z.to_nat (i / 64))) rank in
  let* w := pair_at al bits (p + 2 * (i / 64)) in
  let* m := geti masks_cf32 (i - 64 * (i / 64)) in
  Ok (u32 (rank + popcount (Z.land w m))).

(** rank, lines 1238-1356. *)
Definition rank_of_cf32 (al : bool) (t : rank_cf) (i : Z) : res Z :=
  let start := i / 512 in
  if start <? cf_border t
  then let p := u32 (start * 16 + start) in
       let* rank := geti (cf_bits t) p in
       let i := i mod 512 in
       let* next := geti (cf_bits t) (p + 17) in
       let diff := u32 (next - rank) in
       if Z.land diff 511 =? 0 then Ok (u32 (rank + u32 (i * Z.shiftr diff 9))) else
       count_pairs al (cf_bits t) (p + 1) i rank
  else let r := u32 (cf_block_border t + 2 * (start - cf_border t)) in
       let* rank := geti (cf_bits t) r in
       let i := i mod 512 in
       let* next := geti (cf_bits t) (u32 (r + 2)) in
       let diff := u32 (next - rank) in
       if Z.land diff 511 =? 0 then Ok (u32 (rank + u32 (i * Z.shiftr diff 9))) else
       let* p := geti (cf_bits t) (u32 (r + 1)) in
       count_pairs al (cf_bits t) p i rank.

(** getSize, lines 1417-1424: an unsigned int.  getTextSize, lines 1426-1428. *)
Definition cf_size32 (t : rank_cf) : Z :=
  u32 (24 + (if cf_bits_len t >? 0 then u32 (cf_bits_len t + 32) * 4 else 0)).
Definition cf_text_size32 (t : rank_cf) : Z := u32 (cf_text_len t).

(** ** Files: lines 426-487 and 1358-1410 *)

(** fwrite of unsigned ints, fread of one. *)
Definition put32 (v : Z) : list Z := map (fun j => (v / 2 ^ (8 * j)) mod 256) (zrange 0 4).
Definition out_ints (a : list Z) (n : Z) : res (list Z) :=
  let* ws := mapM (geti a) (zrange 0 (Z.to_nat n)) in Ok (flat_map put32 ws).
Definition get32 (f : list Z) : loaded Z :=
  if 4 <=? zlen f then Loaded (rd 4 f 0) (skipn 4 f) else Exits.

(** new unsigned int[len + 32], alignment and fread of [len] ints, lines 455-467 and
    1396-1408; [get_words] for bits (lines 474-486), where len + 16 is an unsigned int. *)
Definition get_ints (junk : Z -> Z) (addr len : Z) (f : list Z) : res (loaded (list Z)) :=
  if len >? 0 then
    let mem := fresh_aligned32 junk addr len in
    if Z.min (4 * len) (zlen f) >? Z.max 0 (4 * (u32 (len + 32) - ((- addr) mod 128) / 4)) then Ub UB_bounds
    else if zlen f <? 4 * len then Ok Exits
    else Ok (Loaded (map (fun k => rd 4 f (4 * k)) (zrange 0 (Z.to_nat len)) ++ skipn (Z.to_nat len) mem) (skipn (Z.to_nat (4 * len)) f))
  else Ok (Loaded [] f).
Definition get_words32 (junk : Z -> Z) (addr len : Z) (f : list Z) : res (loaded (list Z)) :=
  if len >? 0 then
    let mem := fresh junk (u32 (len + 16) - ((- addr) mod 128) / 8) in
    if Z.min (8 * len) (zlen f) >? Z.max 0 (8 * (u32 (len + 16) - ((- addr) mod 128) / 8)) then Ub UB_bounds
    else if zlen f <? 8 * len then Ok Exits
    else Ok (Loaded (map (fun k => rd 8 f (8 * k)) (zrange 0 (Z.to_nat len)) ++ skipn (Z.to_nat len) mem) (skipn (Z.to_nat (8 * len)) f))
  else Ok (Loaded [] f).

(** RankBasic32: save, lines 426-439; load, lines 441-487. *)
Definition save_basic32 (t : rank_basic) : res (list Z) :=
  let* a := if rb_ranks_len t >? 0 then out_ints (rb_ranks t) (rb_ranks_len t) else Ok [] in
  let* b := if rb_bits_len t >? 0 then out_words (rb_bits t) (rb_bits_len t) else Ok [] in
  Ok (put32 (rb_text_len t) ++ put32 (rb_ranks_len t) ++ a ++ put32 (rb_bits_len t) ++ b).

Definition load_basic32 (m : memory) (f : list Z) : res (loaded rank_basic) :=
  andthen (get32 f) (fun text_len f =>
  andthen (get32 f) (fun ranks_len f =>
  let* x := get_ints (m_junk_r m) (m_addr_r m) ranks_len f in
  andthen x (fun ranks f =>
  andthen (get32 f) (fun bits_len f =>
  let* y := get_words32 (m_junk_b m) (m_addr_b m) bits_len f in
  andthen y (fun bits f =>
  Ok (Loaded {| rb_ranks := ranks; rb_ranks_len := ranks_len; rb_bits := bits; rb_bits_len := bits_len; rb_text_len := text_len |} f)))))).

(** RankCF32: save, lines 1358-1369; load, lines 1371-1410. *)
Definition save_cf32 (t : rank_cf) : res (list Z) :=
  let* b := if cf_bits_len t >? 0 then out_ints (cf_bits t) (cf_bits_len t) else Ok [] in
  Ok (put32 (cf_text_len t) ++ put32 (cf_border t) ++ put32 (cf_block_border t) ++ put32 (cf_bits_len t) ++ b).

Definition load_cf32 (m : memory) (f : list Z) : res (loaded rank_cf) :=
  andthen (get32 f) (fun text_len f =>
  andthen (get32 f) (fun border f =>
  andthen (get32 f) (fun block_border f =>
  andthen (get32 f) (fun bits_len f =>
  let* y := get_ints (m_junk_b m) (m_addr_b m) bits_len f in
  andthen y (fun bits f =>
  Ok (Loaded {| cf_bits := bits; cf_bits_len := bits_len; cf_text_len := text_len; cf_border := border; cf_block_border := block_border |} f)))))).

(** testRank, lines 509-523 and 1430-1444: 8 i + j + 1 is an unsigned int. *)
Definition test_rank32 (rank : Z -> res Z) (text : list Z) : res (list (Z * Z * Z)) :=
  let* '(_, out) := foldM (fun '(n, out) q =>
      let* b := text_bit text q in
      let n := if b then u32 (n + 1) else n in
      let* r := rank (u32 (q + 1)) in
      Ok (n, if n =? r then out else out ++ [(u32 (q + 1), n, r)]))
    (zrange 0 (Z.to_nat (8 * zlen text))) (0, []) in
  Ok out.
