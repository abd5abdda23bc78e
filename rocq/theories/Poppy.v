(** include/poppy: the rank/select index "poppy", a competitor of
    src/perf_immutable_bitmap.cpp.  [uint64], [uint32] and [int] are explicit
    wraps.  Allocation never fails (the test "posix_memalign(...) < 0" of
    bitmap.h lines 77-84 is never true: the function returns a non-negative
    code).  [junk] is the content of memory obtained from posix_memalign and
    new[], unspecified. *)
From Verif Require Import Base Words.

(** ** popcount.h *)

(** popcount.h lines 73-83 (the alternative of line 89, not used). *)
Definition suxpopcount (x : Z) : Z :=
  let x := u64 (x - Z.shiftr (Z.land x 0xAAAAAAAAAAAAAAAA) 1) in
  let x := u64 (Z.land x 0x3333333333333333 + Z.land (Z.shiftr x 2) 0x3333333333333333) in
  let x := Z.land (u64 (x + Z.shiftr x 4)) 0x0F0F0F0F0F0F0F0F in
  Z.shiftr (u64 (x * 0x0101010101010101)) 56.

(** popcount.h lines 95-113. *)
Definition popcount_linear (ws : list Z) (x nb : Z) : res Z :=
  if nb =? 0 then Ok 0 else
  let last := (nb - 1) / 64 in
  let* p := foldM (fun p i => let* w := geti ws (u64 (x + i)) in Ok (u64 (p + popcount w)))
                  (zrange 0 (Z.to_nat last)) 0 in
  let* w := geti ws (u64 (x + last)) in
  let* s := shr64 w (63 - Z.land (nb - 1) 63) in
  Ok (u64 (p + popcount s)).

(** popcount.h lines 116-126; [cnt] is the loop variable 63 - i, equal to
    [count] after its increment. *)
Fixpoint select64_naive_loop (fuel : nat) (cnt x k : Z) : Z :=
  match fuel with
  | O => -1
  | S f =>
      if Z.testbit x (63 - cnt)
      then if k - 1 =? 0 then cnt else select64_naive_loop f (cnt + 1) x (k - 1)
      else select64_naive_loop f (cnt + 1) x k
  end.
Definition select64_naive (x k : Z) : Z := select64_naive_loop 64 0 x k.

(** popcount.h lines 131-142; the two asm statements are PDEP and TZCNT.  The
    instruction TZCNT gives 64 for 0. *)
Definition select64_pdep_tzcnt (x k : Z) : res Z :=
  let* i := shl64 1 k in
  Ok (tzcnt64 (pdep64 i x)).

(** One iteration of popcount.h lines 147-156. *)
Definition search_step (st : Z * Z * Z) (testbits : Z) : Z * Z * Z :=
  let '(x, loc, k) := st in
  let lcount := popcount (Z.shiftr x testbits) in
  if k >? lcount
  then (Z.land x (u64 (Z.shiftl 1 testbits) - 1), loc + testbits, k - lcount)
  else (Z.shiftr x testbits, loc, k).

(** popcount.h lines 143-158. *)
Definition select64_popcount_search (x k : Z) : Z :=
  let '(_, loc, k) := fold_left search_step [32; 16; 8; 4; 2; 1] (x, -1, k) in loc + k.

(** The macros LEQ_STEP_8 and ZCOMPARE_STEP_8: popcount.h lines 42-45 and 65-66. *)
Definition leq_step_8 (x y : Z) : Z :=
  let d := u64 (Z.lor y msbs_step_8 - Z.land x (2 ^ 64 - 1 - msbs_step_8)) in
  Z.shiftr (Z.land (Z.lxor (Z.lxor d x) y) msbs_step_8) 7.
Definition zcompare_step_8 (x : Z) : Z :=
  Z.shiftr (Z.land (Z.lor x (u64 (Z.lor x msbs_step_8 - ones_step_8))) msbs_step_8) 7.
(** INCR_STEP_8: popcount.h lines 31-33. *)
Definition incr_step_8 : Z := 0x8040201008040201.

(** popcount.h lines 160-188; [byte_counts] is the code of lines 165-168. *)
Definition select64_broadword (x k : Z) : res Z :=
  let byte_sums := u64 (byte_counts x * ones_step_8) in
  let place := Z.land (Z.shiftr (u64 (leq_step_8 byte_sums (u64 (k * ones_step_8)) * ones_step_8)) 53) (2 ^ 64 - 1 - 7) in
  let* s := shr64 (u64 (Z.shiftl byte_sums 8)) place in
  let byte_rank := sgn 32 (u32 (u64 (k - Z.land s 0xFF))) in
  let* w := shr64 x place in
  let spread := Z.land (u64 (Z.land w 0xFF * ones_step_8)) incr_step_8 in
  let bit_sums := u64 (zcompare_step_8 spread * ones_step_8) in
  Ok (place + Z.shiftr (u64 (leq_step_8 bit_sums (u64 (byte_rank * ones_step_8)) * ones_step_8)) 56).

(** popcount.h lines 190-193. *)
Definition select64 (x k : Z) : res Z := select64_pdep_tzcnt x k.

(** The loop of popcount.h lines 201-205. *)
Fixpoint word_loop (fuel : nat) (ws : list Z) (x i k pop : Z) : res (Z * Z * Z) :=
  match fuel with
  | O => Ok (i, k, pop)
  | S f =>
      if k >? pop
      then let* w := geti ws (x + (i + 1)) in word_loop f ws x (i + 1) (k - pop) (popcount w)
      else Ok (i, k, pop)
  end.

(** popcount.h lines 197-209; [sel] stands for the call of select64, so that
    the two alternatives of lines 191-192 can be compared. *)
Definition select512_with (sel : Z -> Z -> res Z) (ws : list Z) (x k : Z) : res Z :=
  let* w := geti ws x in
  let* '(i, k, pop) := word_loop 7 ws x 0 k (popcount w) in
  let* w := geti ws (x + i) in
  if (i =? 7) && (popcount w <? k) then Ok (-1) else
  let* s := sel w k in
  Ok (i * 64 + s).
Definition select512 : list Z -> Z -> Z -> res Z := select512_with select64.

(** ** bitmap.h *)

(** The members of BitmapPoppy: bitmap.h lines 236-247. *)
Record poppy := {
  p_bits : list Z;          (* bits_: the words *)
  p_nbits : Z;              (* nbits_ *)
  p_l1 : list Z;            (* l1Entries_, l1EntryCount_ entries *)
  p_l2 : list Z;            (* l2Entries_, l2EntryCount_ entries *)
  p_loc : list (list Z);    (* loc_[0 .. l1EntryCount_-1] *)
  p_loc_count : list Z;     (* locCount_[0 .. l1EntryCount_-1] *)
  p_count : Z               (* pCount_ *)
}.

(** Iterations of a loop "for (k = 0; k < bound; k++) { ...; if (++id >= count)
    break; }": bitmap.h lines 96, 112 and 127, 140-141. *)
Definition trips (bound count id : Z) : nat := Z.to_nat (Z.min bound (Z.max 1 (count - id))).

(** bitmap.h lines 97-112: one L2 entry.  State: l2Entries_, l2Id,
    basicBlockId, cum.  The entry is assembled apart and stored once. *)
Definition l2_step (ws : list Z) (st : list Z * Z * Z * Z) : res (list Z * Z * Z * Z) :=
  let '(l2, id, b, cum) := st in
  let* l2 := seti l2 id cum in
  let* '(e, b, cum) :=
    foldM (fun (s : Z * Z * Z) offset =>
             let '(e, b, cum) := s in
             let* c := popcount_linear ws (u64 (b * 8)) 512 in
             Ok (Z.lor e (u64 (Z.shiftl c (32 + offset))), u64 (b + 1), u32 (cum + c)))
          [0; 10; 20] (cum, b, cum) in
  let* l2 := seti l2 id e in
  let* c := popcount_linear ws (u64 (b * 8)) 512 in
  Ok (l2, u64 (id + 1), u64 (b + 1), u32 (cum + c)).

(** bitmap.h lines 92-117: one L1 entry.  State: l1Entries_, l2Entries_, l2Id,
    basicBlockId, locCount_, pCount_. *)
Definition l1_step (ws : list Z) (l2c : Z) (st : list Z * list Z * Z * Z * list Z * Z) (i : Z)
  : res (list Z * list Z * Z * Z * list Z * Z) :=
  let '(l1, l2, id, b, caps, p) := st in
  let* l1 := seti l1 i p in
  let* '(l2, id, b, cum) :=
    foldM (fun s _ => l2_step ws s) (zrange 0 (trips (2 ^ 21) l2c id)) (l2, id, b, 0) in
  Ok (l1, l2, id, b, caps ++ [u32 (cum + 8192 - 1) / 8192], u64 (p + cum)).

(** bitmap.h lines 131-138: one bit.  State: oneCount, loc_[i], locCount_[i]. *)
Definition loc_bit (w pos bit : Z) (st : Z * list Z * Z) : res (Z * list Z * Z) :=
  let '(ones, loc, cnt) := st in
  if Z.testbit w (63 - bit)
  then let ones := u32 (ones + 1) in
       if Z.land ones 8191 =? 1
       then let* loc := seti loc cnt (u32 pos) in Ok (ones, loc, u32 (cnt + 1))
       else Ok (ones, loc, cnt)
  else Ok (ones, loc, cnt).

(** bitmap.h lines 128-140: one basic block. *)
Definition loc_block (ws : list Z) (st : Z * (Z * list Z * Z)) (k : Z) : res (Z * (Z * list Z * Z)) :=
  let '(b, s) := st in
  let woff := u64 (b * 8) in
  let* s :=
    foldM (fun s widx =>
             foldM (fun s bit =>
                      let* w := geti ws (u64 (woff + widx)) in
                      loc_bit w (k * 512 + widx * 64 + bit) bit s)
                   (zrange 0 64) s)
          (zrange 0 8) s in
  Ok (u64 (b + 1), s).

(** bitmap.h lines 121-143: the locations of one L1 entry.  State:
    basicBlockId, loc_, locCount_. *)
Definition loc_step (ws : list Z) (junk : Z -> Z) (bbc : Z)
    (st : Z * list (list Z) * list Z) (cap : Z) : res (Z * list (list Z) * list Z) :=
  let '(b, locs, cnts) := st in
  let* '(b, (_, loc, cnt)) :=
    foldM (loc_block ws) (zrange 0 (trips (2 ^ 23) bbc b))
          (b, (0, map junk (zrange 0 (Z.to_nat cap)), 0)) in
  Ok (b, locs ++ [loc], cnts ++ [cnt]).

(** The constructor: bitmap.h lines 65-144. *)
Definition poppy_new (junk : Z -> Z) (ws : list Z) (nbits : Z) : res poppy :=
  let l1c := Z.max (Z.shiftr nbits 32) 1 in
  let l2c := Z.shiftr nbits 11 in
  let bbc := nbits / 512 in
  let* '(l1, l2, _, _, caps, p) :=
    foldM (l1_step ws l2c) (zrange 0 (Z.to_nat l1c))
          (map junk (zrange 0 (Z.to_nat l1c)), map junk (zrange 0 (Z.to_nat l2c)), 0, 0, [], 0) in
  let* '(_, locs, cnts) := foldM (loc_step ws junk bbc) caps (0, [], []) in
  Ok {| p_bits := ws; p_nbits := nbits; p_l1 := l1; p_l2 := l2; p_loc := locs;
        p_loc_count := cnts; p_count := p |}.

(** bitmap.h lines 152-172. *)
Definition poppy_rank (dbg : bool) (t : poppy) (pos : Z) : res Z :=
  let* _ := massert dbg (pos <=? p_nbits t) in
  let l1Id := Z.shiftr pos 32 in
  let l2Id := Z.shiftr pos 11 in
  let* x := geti (p_l2 t) l2Id in
  let* e := geti (p_l1 t) l1Id in
  let r := u64 (e + Z.land x 0xFFFFFFFF) in
  let x := Z.shiftr x 32 in
  let g := Z.land pos 2047 / 512 in
  let '(r, x) := fold_left (fun (s : Z * Z) (_ : Z) =>
                              let '(r, x) := s in (u64 (r + Z.land x 1023), Z.shiftr x 10))
                           (zrange 0 (Z.to_nat g)) (r, x) in
  let* c := popcount_linear (p_bits t) (u64 ((l2Id * 4 + g) * 8)) (Z.land pos 511) in
  Ok (u64 (r + c)).

(** The loop of bitmap.h lines 178-183; below entry 0 the index wraps. *)
Fixpoint find_l1 (fuel : nat) (l1 : list Z) (id rank : Z) : res (Z * Z) :=
  match fuel with
  | O => Ub UB_loop
  | S f =>
      let* e := geti l1 id in
      if e <? rank then Ok (id, u64 (rank - e)) else find_l1 f l1 (u64 (id - 1)) rank
  end.

(** The loop of bitmap.h lines 192-194. *)
Fixpoint find_l2 (fuel : nat) (l2 : list Z) (max id rank : Z) : res Z :=
  match fuel with
  | O => Ub UB_loop
  | S f =>
      if u32 (id + 1) <? max
      then let* e := geti l2 (u32 (id + 1)) in
           if Z.land e 0xFFFFFFFF <? rank then find_l2 f l2 max (u32 (id + 1)) rank else Ok id
      else Ok id
  end.

(** The loop of bitmap.h lines 200-207. *)
Fixpoint find_group (fuel : nat) (g x rank : Z) : Z * Z :=
  match fuel with
  | O => (g, rank)
  | S f =>
      let k := Z.land x 1023 in
      if rank >? k then find_group f (g + 1) (Z.shiftr x 10) (rank - k) else (g, rank)
  end.

(** bitmap.h lines 173-214. *)
Definition poppy_select_with (sel : Z -> Z -> res Z) (dbg : bool) (t : poppy) (rank : Z) : res Z :=
  let* _ := massert dbg (rank <=? p_count t) in
  let l1c := zlen (p_l1 t) in
  let* '(l1Id, rank) := find_l1 (S (length (p_l1 t))) (p_l1 t) (l1c - 1) rank in
  let offset := u32 (l1Id * 2 ^ 21) in
  let max := if l1Id =? l1c - 1 then u32 (zlen (p_l2 t) - offset) else 2 ^ 21 in
  let* pos := geti (zn [] (p_loc t) l1Id) (u64 (rank - 1) / 8192) in
  let l2Id := Z.shiftr pos 11 in
  let* l2Id := find_l2 (S (length (p_l2 t))) (p_l2 t) max l2Id rank in
  let* e := geti (p_l2 t) l2Id in
  let rank := u64 (rank - Z.land e 0xFFFFFFFF) in
  let '(g, rank) := find_group 3 0 (u32 (Z.shiftr e 32)) rank in
  let* s := select512_with sel (p_bits t) (sgn 32 (u32 ((u32 (offset + l2Id) * 4 + g) * 8)))
                           (sgn 32 (u32 rank)) in
  Ok (u64 (u64 (Z.shiftl l1Id 32) + u32 (Z.shiftl l2Id 11) + Z.shiftl g 9 + s)).
Definition poppy_select : bool -> poppy -> Z -> res Z := poppy_select_with select64.

(** bitmap.h lines 216-218 and 220-234. *)
Definition poppy_size (t : poppy) : Z := p_nbits t.
Definition poppy_bytes (t : poppy) : Z :=
  fold_left (fun r c => u64 (r + 4 * c + 4)) (p_loc_count t)
            (8 + 8 * zlen (p_l2 t) + 8 + 8 * zlen (p_l1 t) + 8 + 8) + 8.

(** ** poppy_wrapper: src/perf_immutable_bitmap.cpp lines 249-282 *)

(** Lines 253-257. *)
Definition wrapper_build (junk : Z -> Z) (ws : list Z) : res poppy := poppy_new junk ws (zlen ws * 64).
(** Lines 263-265 and 267-269. *)
Definition wrapper_rank (dbg : bool) (t : poppy) (i : Z) : res Z := poppy_rank dbg t (u64 (i + 1)).
Definition wrapper_select (dbg : bool) (t : poppy) (i : Z) : res Z := poppy_select dbg t (u64 (i + 1)).
(** Lines 271-277. *)
Definition wrapper_size (t : poppy) : Z := poppy_size t.
Definition wrapper_bytes (t : poppy) : Z := zlen (p_bits t) * 8 + poppy_bytes t.
