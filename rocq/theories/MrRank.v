(** include/mranisz/shared/rank.hpp: the rank structures RankBasic64 (lines
    526-1052) and RankCF64 (lines 1447-1801), competitors of
    src/perf_compressed_bitmap.cpp.  [text] is the byte array passed to build(),
    textLen its length.  Memory from new[] holds unspecified values, [junk].
    Allocation never fails.  save() and load() are not modelled.  Counters that
    index an array are not wrapped: each use is checked against the array. *)
From Verif Require Import Base Words Trees.

(** rank.hpp lines 862-884 and 1481-1503. *)
Definition masks : list Z := [
  0x0000000000000000; 0x8000000000000000; 0xC000000000000000; 0xE000000000000000;
  0xF000000000000000; 0xF800000000000000; 0xFC00000000000000; 0xFE00000000000000;
  0xFF00000000000000; 0xFF80000000000000; 0xFFC0000000000000; 0xFFE0000000000000;
  0xFFF0000000000000; 0xFFF8000000000000; 0xFFFC000000000000; 0xFFFE000000000000;
  0xFFFF000000000000; 0xFFFF800000000000; 0xFFFFC00000000000; 0xFFFFE00000000000;
  0xFFFFF00000000000; 0xFFFFF80000000000; 0xFFFFFC0000000000; 0xFFFFFE0000000000;
  0xFFFFFF0000000000; 0xFFFFFF8000000000; 0xFFFFFFC000000000; 0xFFFFFFE000000000;
  0xFFFFFFF000000000; 0xFFFFFFF800000000; 0xFFFFFFFC00000000; 0xFFFFFFFE00000000;
  0xFFFFFFFF00000000; 0xFFFFFFFF80000000; 0xFFFFFFFFC0000000; 0xFFFFFFFFE0000000;
  0xFFFFFFFFF0000000; 0xFFFFFFFFF8000000; 0xFFFFFFFFFC000000; 0xFFFFFFFFFE000000;
  0xFFFFFFFFFF000000; 0xFFFFFFFFFF800000; 0xFFFFFFFFFFC00000; 0xFFFFFFFFFFE00000;
  0xFFFFFFFFFFF00000; 0xFFFFFFFFFFF80000; 0xFFFFFFFFFFFC0000; 0xFFFFFFFFFFFE0000;
  0xFFFFFFFFFFFF0000; 0xFFFFFFFFFFFF8000; 0xFFFFFFFFFFFFC000; 0xFFFFFFFFFFFFE000;
  0xFFFFFFFFFFFFF000; 0xFFFFFFFFFFFFF800; 0xFFFFFFFFFFFFFC00; 0xFFFFFFFFFFFFFE00;
  0xFFFFFFFFFFFFFF00; 0xFFFFFFFFFFFFFF80; 0xFFFFFFFFFFFFFFC0; 0xFFFFFFFFFFFFFFE0;
  0xFFFFFFFFFFFFFFF0; 0xFFFFFFFFFFFFFFF8; 0xFFFFFFFFFFFFFFFC; 0xFFFFFFFFFFFFFFFE].

(** Blocks have 64 bytes (lines 845-848, 1472-1479). *)

(** Lines 897-899 and 1516-1518: extendedTextLen. *)
Definition extended_len (n : Z) : Z := if n mod 64 >? 0 then u64 (n + (64 - n mod 64)) else n.
Definition block_count (n : Z) : Z := extended_len n / 64.

(** The loops of lines 905-910 and 913-919 (1524-1529, 1532-1538): is every byte
    of the block accepted by [p]? *)
Fixpoint all_bytes (p : Z -> bool) (text : list Z) (i : Z) (fuel : nat) (j : Z) : res bool :=
  match fuel with
  | O => Ok true
  | S f =>
      if i + j >=? zlen text then Ok false else
      let* b := geti text (i + j) in
      if p b then all_bytes p text i f (j + 1) else Ok false
  end.

(** Lines 904-920 (1523-1539), one block. *)
Definition homoblock (text : list Z) (i : Z) : res bool :=
  let* h := all_bytes (fun b => negb (b >? 0)) text i 64 0 in
  if h then Ok true else all_bytes (fun b => negb (b <? 255)) text i 64 0.

(** emptyBlock: lines 901-922 (1520-1541); 1 for true. *)
Definition empty_blocks (text : list Z) : res (list Z) :=
  mapM (fun b => let* h := homoblock text (64 * b) in Ok (b2z h)) (zrange 0 (Z.to_nat (block_count (zlen text)))).

(** notEmptyBlocks: lines 924-926 (1543-1545). *)
Definition not_empty (eb : list Z) : Z := fold_left (fun n e => if e =? 0 then n + 1 else n) eb 0.

(** One byte of the copying loops: lines 568-579, 605-617 and 1561-1572.  State:
    the words, bitsCounter, rank. *)
Definition fill_byte (text : list Z) (i : Z) (st : list Z * Z * Z) (j : Z) : res (list Z * Z * Z) :=
  let '(bits, bc, rank) := st in
  let* bits := if j mod 8 =? 0 then seti bits bc 0 else Ok bits in
  let* bits := if i + j <? zlen text
               then let* b := geti text (i + j) in
                    let* w := geti bits bc in
                    seti bits bc (u64 (w + Z.shiftl b (8 * (8 - j mod 8 - 1))))
               else Ok bits in
  if j mod 8 =? 7
  then let* w := geti bits bc in Ok (bits, bc + 1, u64 (rank + popcount w))
  else Ok (bits, bc, rank).

(** One block: lines 562-579, 599-617 and 1555-1572.  State: the headers, the
    words, bitsCounter, rank; rankCounter is 2b. *)
Definition scan_block (text eb : list Z) (st : list Z * list Z * Z * Z) (b : Z) : res (list Z * list Z * Z * Z) :=
  let '(ranks, bits, bc, rank) := st in
  let* ranks := seti ranks (2 * b) rank in
  let* ranks := seti ranks (2 * b + 1) bc in
  let* e := geti eb b in
  if e =? 0
  then let* '(bits, bc, rank) := foldM (fill_byte text (64 * b)) (zrange 0 64) (bits, bc, rank) in
       Ok (ranks, bits, bc, rank)
  else let* x := geti text (64 * b) in
       Ok (ranks, bits, bc, if x =? 255 then u64 (rank + 512) else rank).

(** The loop over the blocks and the last header: lines 560-581, 597-619 and
    1553-1574. *)
Definition scan (text eb ranks bits : list Z) : res (list Z * list Z) :=
  let nb := block_count (zlen text) in
  let* '(ranks, bits, _, rank) := foldM (scan_block text eb) (zrange 0 (Z.to_nat nb)) (ranks, bits, 0, 0) in
  let* ranks := seti ranks (2 * nb) rank in
  Ok (ranks, bits).

(** new unsigned long long[n]. *)
Definition fresh (junk : Z -> Z) (n : Z) : list Z := map junk (zrange 0 (Z.to_nat n)).

(** new unsigned long long[len + 16] at address [addr], then the pointer is moved
    to a multiple of 128: the words from there (e.g. lines 550-552). *)
Definition fresh_aligned (junk : Z -> Z) (addr len : Z) : list Z := fresh junk (len + 16 - ((- addr) mod 128) / 8).

(** ** RankBasic64 *)

(** The members, lines 835-843; the arrays from alignedRanks and alignedBits on. *)
Record rank_basic := { rb_ranks : list Z; rb_ranks_len : Z; rb_bits : list Z; rb_bits_len : Z; rb_text_len : Z }.

(** Where memory comes from: contents and addresses of the two arrays that stay. *)
Record memory := { m_junk_r : Z -> Z; m_addr_r : Z; m_junk_b : Z -> Z; m_addr_b : Z; m_junk_t : Z -> Z }.

(** build_std, lines 546-582, with the lines of build() before it. *)
Definition build_std (m : memory) (text : list Z) : res rank_basic :=
  let* eb := empty_blocks text in
  let bits_len := not_empty eb * 8 in
  let ranks_len := 2 * block_count (zlen text) + 1 in
  let* '(ranks, bits) := scan text eb (fresh_aligned (m_junk_r m) (m_addr_r m) ranks_len)
                              (fresh_aligned (m_junk_b m) (m_addr_b m) bits_len) in
  Ok {| rb_ranks := ranks; rb_ranks_len := ranks_len; rb_bits := bits; rb_bits_len := bits_len; rb_text_len := zlen text |}.

(** emptyBlock[k] in line 648: [strict] makes a read past the end undefined, as
    the language has it; otherwise memory there holds [junk]. *)
Definition read_flag (strict : bool) (junk : Z -> Z) (eb : list Z) (k : Z) : res Z :=
  if strict || ((0 <=? k) && (k <? zlen eb)) then geti eb k else Ok (junk k).

(** One superblock, lines 641-653: the 19 words. *)
Definition bucket_of (strict : bool) (junk : Z -> Z) (temp eb : list Z) (s : Z) : res (list Z) :=
  let i := 64 * s in
  let* b0 := geti temp (2 * i) in
  let* bucket := seti (repeat 0 19) 0 b0 in
  let* bucket := foldM (fun bucket j =>
      let* t := geti temp (2 * (i + j + 1)) in
      let* x := geti bucket (j / 4 + 1) in
      seti bucket (j / 4 + 1) (u64 (x + Z.shiftl (u64 (t - b0)) (16 * (j mod 4)))))
    (zrange 0 63) bucket in
  let* o := geti temp (2 * i + 1) in
  let* bucket := seti bucket 17 o in
  foldM (fun bucket j =>
      let* e := read_flag strict junk eb (i + j) in
      if e =? 0 then let* x := geti bucket 18 in seti bucket 18 (u64 (x + Z.shiftl 1 (63 - j))) else Ok bucket)
    (zrange 0 63) bucket.

(** Stores of consecutive words. *)
Definition put_words (l : list Z) (at_ : Z) (v : list Z) : res (list Z) :=
  foldM (fun l k => seti l (at_ + k) (zn 0 v k)) (zrange 0 (length v)) l.

(** Rounding of lines 591-594. *)
Definition temp_len (nb : Z) : Z :=
  let l := 2 * nb + 2 in if l mod 128 >? 0 then l + (128 - l mod 128) else l.

(** build_bch, lines 584-657, with the lines of build() before it. *)
Definition build_bch (strict : bool) (jf : Z -> Z) (m : memory) (text : list Z) : res rank_basic :=
  let* eb := empty_blocks text in
  let nb := block_count (zlen text) in
  let bits_len := not_empty eb * 8 in
  let tl := temp_len nb in
  let* '(temp, bits) := scan text eb (fresh (m_junk_t m) tl) (fresh_aligned (m_junk_b m) (m_addr_b m) bits_len) in
  let* temp := foldM (fun temp k => seti temp k 0) (zrange (2 * nb + 1) (Z.to_nat (tl - (2 * nb + 1)))) temp in
  let ranks_len := tl / 2 / 64 * 19 in
  let* ranks := foldM (fun ranks s =>
      let* v := bucket_of strict jf temp eb s in put_words ranks (19 * s) v)
    (zrange 0 (Z.to_nat (tl / 2 / 64))) (fresh_aligned (m_junk_r m) (m_addr_r m) ranks_len) in
  Ok {| rb_ranks := ranks; rb_ranks_len := ranks_len; rb_bits := bits; rb_bits_len := bits_len; rb_text_len := zlen text |}.

(** The switch of lines 667-718, 779-830 and 1657-1708: [p] is the index the
    pointer stands at, [i] the bit inside the block. *)
Definition count_block (bits : list Z) (p i rank : Z) : res Z :=
  let* rank := foldM (fun r j => let* w := geti bits (p + j) in Ok (u64 (r + popcount w))) (zrange 0 (Z.to_nat (i / 64))) rank in
  let* w := geti bits (p + i / 64) in
  let* m := geti masks (i - 64 * (i / 64)) in
  Ok (u64 (rank + popcount (Z.land w m))).

(** getRank_std, lines 659-719. *)
Definition rank_std (t : rank_basic) (i : Z) : res Z :=
  let start := i / 512 in
  let* rank := geti (rb_ranks t) (2 * start) in
  let i := i mod 512 in
  let* next := geti (rb_ranks t) (2 * start + 2) in
  let diff := u64 (next - rank) in
  if Z.land diff 511 =? 0 then Ok (u64 (rank + u64 (i * Z.shiftr diff 9))) else
  let* p := geti (rb_ranks t) (2 * start + 1) in
  count_block (rb_bits t) p i rank.

(** getRank_bch, lines 721-832.  [num] is rankNumInCL. *)
Definition rank_bch (t : rank_basic) (i : Z) : res Z :=
  let start := i / 512 in
  let p2 := 19 * (start / 64) in
  let* first := geti (rb_ranks t) p2 in
  let num := start mod 64 in
  let* rank := if num >? 0 then
      let* w := geti (rb_ranks t) (p2 + (num + 3) / 4) in
      Ok (u64 (first + (match num mod 4 with
                        | 3 => Z.land (Z.shiftr w 32) 0xFFFF
                        | 2 => Z.land (Z.shiftr w 16) 0xFFFF
                        | 1 => Z.land w 0xFFFF
                        | _ => Z.shiftr w 48
                        end)))
    else Ok first in
  let i := i mod 512 in
  let* rank2 := if num =? 63 then geti (rb_ranks t) (p2 + 19) else
      let* w := geti (rb_ranks t) (p2 + (if num mod 4 =? 0 then num + 4 else num + 3) / 4) in
      Ok (u64 (first + (match num mod 4 with
                        | 3 => Z.shiftr w 48
                        | 2 => Z.land (Z.shiftr w 32) 0xFFFF
                        | 1 => Z.land (Z.shiftr w 16) 0xFFFF
                        | _ => Z.land w 0xFFFF
                        end))) in
  let diff := u64 (rank2 - rank) in
  if Z.land diff 511 =? 0 then Ok (u64 (rank + u64 (i * Z.shiftr diff 9))) else
  let* o := geti (rb_ranks t) (p2 + 17) in
  let* p := if num >? 0 then
      let* f := geti (rb_ranks t) (p2 + 18) in
      let* m := geti masks num in
      Ok (o + 8 * popcount (Z.land f m))
    else Ok o in
  count_block (rb_bits t) p i rank.

(** getSize and getTextSize, lines 1022-1035. *)
Definition basic_size (t : rank_basic) : Z :=
  u64 (32 + (if rb_ranks_len t >? 0 then (rb_ranks_len t + 16) * 8 else 0)
          + (if rb_bits_len t >? 0 then (rb_bits_len t + 16) * 8 else 0)).
Definition basic_text_size (t : rank_basic) : Z := rb_text_len t.

(** ** RankCF64 *)

(** The members, lines 1464-1470. *)
Record rank_cf := { cf_bits : list Z; cf_bits_len : Z; cf_text_len : Z; cf_border : Z; cf_block_border : Z }.

(** The loop of lines 1579-1589: the border, or 0 when no block is reached. *)
Fixpoint find_border (eb : list Z) (b l r : Z) : Z :=
  match eb with
  | [] => 0
  | e :: rest =>
      let l := if e =? 0 then l else u64 (l + 1) in
      let r := if e =? 0 then u64 (r - 1) else r in
      if l >=? r then b + 1 else find_border rest (b + 1) l r
  end.

(** The loop of lines 1607-1611; offsetCounter is 2 RCounter + 1 throughout. *)
Fixpoint find_right (fuel : nat) (eb : list Z) (rc : Z) : res Z :=
  match fuel with
  | O => Ub UB_loop
  | S f => let* e := geti eb rc in if e =? 0 then Ok rc else find_right f eb (rc + 1)
  end.

(** Copies of eight words, lines 1614-1616 and 1620-1623. *)
Definition copy_block (dst : list Z) (lc : Z) (src : list Z) (off : Z) : res (list Z) :=
  foldM (fun dst j => let* w := geti src (off + j) in seti dst (lc + j) w) (zrange 0 8) dst.

(** One block left of the border, lines 1605-1625.  State: alignedBits, RCounter,
    ranks; LCounter is 9b, rankCounter 2b. *)
Definition left_block (eb temp : list Z) (st : list Z * Z * list Z) (b : Z) : res (list Z * Z * list Z) :=
  let '(bits, rc, ranks) := st in
  let* r := geti ranks (2 * b) in
  let* bits := seti bits (9 * b) r in
  let* e := geti eb b in
  if e =? 0
  then let* off := geti ranks (2 * b + 1) in
       let* bits := copy_block bits (9 * b + 1) temp off in
       Ok (bits, rc, ranks)
  else let* rc := find_right (S (length eb)) eb rc in
       let* off := geti ranks (2 * rc + 1) in
       let* ranks := seti ranks (2 * rc + 1) (9 * b + 1) in
       let* bits := copy_block bits (9 * b + 1) temp off in
       Ok (bits, rc + 1, ranks).

(** build, lines 1513-1633. *)
Definition build_cf (m : memory) (text : list Z) : res rank_cf :=
  let* eb := empty_blocks text in
  let nb := block_count (zlen text) in
  let ranks_len := 2 * nb + 1 in
  let* '(ranks, temp) := scan text eb (fresh (m_junk_r m) ranks_len) (fresh (m_junk_t m) (not_empty eb * 8)) in
  let border := find_border eb 0 0 (not_empty eb) in
  let bits_len := u64 ((border - 1) * 9 + (nb - (border - 1)) * 2 + 8) in
  let* '(bits, _, ranks) := foldM (left_block eb temp) (zrange 0 (Z.to_nat border))
                                  (fresh_aligned (m_junk_b m) (m_addr_b m) bits_len, border, ranks) in
  let* bits := foldM (fun bits i => let* r := geti ranks i in seti bits (9 * border + (i - 2 * border)) r)
                     (zrange (2 * border) (Z.to_nat (ranks_len - 2 * border))) bits in
  Ok {| cf_bits := bits; cf_bits_len := bits_len; cf_text_len := zlen text; cf_border := border; cf_block_border := border * 9 |}.

(** rank, lines 1635-1709. *)
Definition rank_of_cf (t : rank_cf) (i : Z) : res Z :=
  let start := i / 512 in
  if start <? cf_border t
  then let p := start * 8 + start in
       let* rank := geti (cf_bits t) p in
       let i := i mod 512 in
       let* next := geti (cf_bits t) (p + 9) in
       let diff := u64 (next - rank) in
       if Z.land diff 511 =? 0 then Ok (u64 (rank + u64 (i * Z.shiftr diff 9))) else
       count_block (cf_bits t) (p + 1) i rank
  else let r := cf_block_border t + 2 * (start - cf_border t) in
       let* rank := geti (cf_bits t) r in
       let i := i mod 512 in
       let* next := geti (cf_bits t) (r + 2) in
       let diff := u64 (next - rank) in
       if Z.land diff 511 =? 0 then Ok (u64 (rank + u64 (i * Z.shiftr diff 9))) else
       let* p := geti (cf_bits t) (r + 1) in
       count_block (cf_bits t) p i rank.

(** getSize and getTextSize, lines 1772-1784. *)
Definition cf_size (t : rank_cf) : Z := u64 (40 + (if cf_bits_len t >? 0 then (cf_bits_len t + 16) * 8 else 0)).
Definition cf_text_size (t : rank_cf) : Z := cf_text_len t.

(** What new[] guarantees about the addresses. *)
Definition addresses_ok (m : memory) : Prop := 0 <= m_addr_r m /\ m_addr_r m mod 16 = 0 /\ 0 <= m_addr_b m /\ m_addr_b m mod 16 = 0.
