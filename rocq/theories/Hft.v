(** Model of the Fenwick trees in include/hft, the competitors that
    src/perf_hft.cpp measures.  All line numbers refer to include/hft. *)
From Verif Require Import Base Mem SpecHft.

(** ** common.hpp *)

(** ceil_log2_plus1, common.hpp line 66.  The recursion halves a [size_t], so 64
    steps suffice. *)
Fixpoint ceil_log2_plus1 (fuel : nat) (n : Z) : Z :=
  match fuel with
  | O => 1
  | S f => if n <? 2 then 1 else 1 + ceil_log2_plus1 f (n / 2)
  end.

(** BOUNDSIZE of every class, e.g. fenwick/fixedf.hpp line 17. *)
Definition bound_size (B : Z) : Z := ceil_log2_plus1 64 B.

(** Shifts of 64-bit words: undefined from 64 on.  With [sh64] a shift by
    exactly 64 behaves as on x86, where only the low six bits of the shift count
    are used. *)
Definition shl (x s : Z) : res Z := if (0 <=? s) && (s <? 64) then Ok (u64 (Z.shiftl x s)) else Ub UB_shift.
Definition shr (sh64 : bool) (x s : Z) : res Z :=
  if (0 <=? s) && (s <? 64) then Ok (Z.shiftr x s) else if sh64 && (s =? 64) then Ok x else Ub UB_shift.

(** __builtin_clzll: undefined for 0. *)
Definition clzll (x : Z) : res Z := if x =? 0 then Ub UB_ctz0 else Ok (63 - Z.log2 x).

(** rho, lambda, clear_rho, mask_rho, mask_lambda: common.hpp lines 165-203. *)
Definition rho (w : Z) : res Z := ctz w.
Definition lambda (w : Z) : res Z := let* c := clzll w in Ok (Z.lxor 63 c).
Definition clear_rho (w : Z) : Z := Z.land w (u64 (w - 1)).
Definition mask_rho (w : Z) : Z := Z.land w (u64 (- w)).
Definition mask_lambda (w : Z) : res Z := let* c := clzll w in shr false (2 ^ 63) c.

(** BYTE_MASK, common.hpp lines 58-60: nine entries. *)
Definition byte_mask (len : Z) : res Z := if (0 <=? len) && (len <=? 8) then Ok (2 ^ (8 * len) - 1) else Ub UB_bounds.

(** byteread, bytewrite, bytewrite_inc, common.hpp lines 235-254. *)
Definition byteread (m : list Z) (p len : Z) : res Z :=
  let* ret := load 8 m p in
  let* mask := byte_mask len in
  Ok (Z.land ret mask).

Definition bytewrite (m : list Z) (p len val : Z) : res (list Z) :=
  let* old := load 8 m p in
  let* mask := byte_mask len in
  store 8 m p (Z.lor (Z.land old (2 ^ 64 - 1 - mask)) (Z.land val mask)).

Definition bytewrite_inc (m : list Z) (p inc : Z) : res (list Z) :=
  let* value := load 8 m p in
  store 8 m p (u64 (value + inc)).

(** bitread, common.hpp lines 256-267; [p] is the byte the pointer refers to. *)
Definition bitread (m : list Z) (p from length : Z) : res Z :=
  let* ret := load 8 m p in
  if from + length <=? 64 then
    let* a := shr false ret from in
    let* mask := shr false (2 ^ 64 - 1) (64 - length) in
    Ok (Z.land a mask)
  else
    let* next := load 8 m (p + 8) in
    let* a := shr false ret from in
    let* b := shl next (128 - from - length) in
    let* b := shr false b (64 - length) in
    Ok (Z.lor a b).

(** bitwrite_inc, common.hpp lines 290-308.  carry is computed before the
    branch, so with [from] = 0 the code shifts by 64. *)
Definition bitwrite_inc (sh64 : bool) (m : list Z) (p from length inc : Z) : res (list Z) :=
  let* value := load 8 m p in
  let* v := shr false value from in
  let sum := u64 (v + inc) in
  let* carry := shr sh64 sum (64 - from) in
  if (from + length <=? 64) || (carry =? 0) then
    let* d := shl inc from in
    store 8 m p (u64 (value + d))
  else
    let* lowmask := shr false (2 ^ 64 - 1) (64 - from) in
    let* s := shl sum from in
    let* m := store 8 m p (Z.lor (Z.land value lowmask) s) in
    let* next := load 8 m (p + 8) in
    store 8 m (p + 8) (u64 (next + carry)).

(** popcount, common.hpp line 315. *)
Fixpoint popcount_pos (p : positive) : Z :=
  match p with xI q => 1 + popcount_pos q | xO q => popcount_pos q | xH => 1 end.
Definition hpopcount (x : Z) : Z := match x with Zpos p => popcount_pos p | _ => 0 end.

(** ** The trees *)
(** A tree object: BOUND (template argument), Size, Level (L classes only; Levels
    is its length), and the bytes of Tree, or of Tree8, Tree16, Tree64 in TypeL.
    DArray (darray.hpp) maps whole pages, so the machine has up to 4095 readable
    bytes after these; the model counts any access beyond the requested length as
    undefined.  A DArray of no elements is a null pointer. *)
Record ftree := { ft_lay : layout; ft_bound : Z; ft_size : Z; ft_level : list Z; ft_arr : list (list Z) }.
Definition arr (t : ftree) (k : nat) : list Z := nth k (ft_arr t) [].
Definition with_arr (t : ftree) (k : nat) (m : list Z) : ftree :=
  {| ft_lay := ft_lay t; ft_bound := ft_bound t; ft_size := ft_size t; ft_level := ft_level t; ft_arr := upd_nat (ft_arr t) k m |}.

(** DArray<T>(length), darray.hpp lines 43-62: zero-filled by mmap. *)
Definition darray (elem length : Z) : list Z := repeat 0 (Z.to_nat (elem * length)).

(** *** Node positions *)

(** FixedF::holes and pos, fenwick/fixedf.hpp lines 98-100. *)
Definition fixedf_pos (idx : Z) : Z := u64 (idx + Z.shiftr idx 14).

(** ByteF::bytesize, holes, pos, fenwick/bytef.hpp lines 102-128, without
    HFT_DISABLE_TRANSHUGE. *)
Definition bytef_holes (bs idx : Z) : Z := if 32 <=? bs then 0 else Z.shiftr idx (28 + (64 - bs) mod 8).
Definition bytef_pos (bs idx : Z) : Z :=
  let idx := u64 (idx - 1) in
  let nextbyte := Z.lor (bs - 1) 7 + 1 in
  let small := Z.shiftr (bs - 1) 3 + 1 in
  let medium := nextbyte - bs + 1 in
  let large := medium + 8 in
  let multiplier := u64 (8 - small - 1) in
  u64 (idx * small + Z.shiftr idx medium + Z.shiftr idx large * multiplier + bytef_holes bs idx).

(** ByteL::heightsize, fenwick/bytel.hpp line 136; ByteF::bytesize is the same
    function of rho(idx). *)
Definition heightsize (bs h : Z) : Z := Z.shiftr (h + bs - 1) 3 + 1.

(** BitF::holes and first_bit_after, fenwick/bitf.hpp lines 102-106; the position
    of node idx is first_bit_after(idx - 1), lines 110-112. *)
Definition bitf_holes (idx : Z) : Z := 1 + Z.shiftr idx 14 * 64.
Definition first_bit_after (bs idx : Z) : Z := u64 ((bs + 1) * idx - hpopcount idx + bitf_holes idx).

(** TypeF::pos, fenwick/typef.hpp lines 194-198. *)
Definition typef_pos (bs idx : Z) : Z :=
  let idx := u64 (idx - 1) in
  u64 (idx + Z.shiftr idx (if bs <=? 8 then 8 - bs + 1 else 0)
           + Z.shiftr idx (if bs <=? 16 then 16 - bs + 1 else 0) * 6).

(** Width in bytes of a node of [b] bits in TypeF and TypeL: the switch
    statements, e.g. fenwick/typef.hpp lines 29-38. *)
Definition type_width (b : Z) : nat :=
  if (17 <=? b) && (b <=? 64) then 8 else if (9 <=? b) && (b <=? 16) then 2 else 1.

(** The array of TypeL that holds a node of [b] bits: fenwick/typel.hpp lines 78-87
    and the same switch elsewhere. *)
Definition type_arr (b : Z) : nat :=
  if (17 <=? b) && (b <=? 64) then 2 else if (9 <=? b) && (b <=? 16) then 1 else 0.

(** *** Nodes of the L classes, by height and index within the level *)

(** Reads: fenwick/fixedl.hpp lines 40, 54 and 84, bytel.hpp 40-41, bitl.hpp 41-42,
    typel.hpp 76-87.  Alignment (TypeF casts byte addresses) is left to TypeFAlign. *)
Definition lget (t : ftree) (h i : Z) : res Z :=
  let bs := bound_size (ft_bound t) in
  let* l := geti (ft_level t) h in
  match ft_lay t with
  | ByteL => byteread (arr t 0) (u64 (l + i * heightsize bs h)) (heightsize bs h)
  | BitL => let pos := u64 (l + i * (bs + h)) in bitread (arr t 0) (pos / 8) (pos mod 8) (bs + h)
  | TypeL => load (type_width (bs + h)) (arr t (type_arr (bs + h))) (Z.of_nat (type_width (bs + h)) * u64 (l + i))
  | _ => load 8 (arr t 0) (8 * u64 (l + i)) (* FixedL *)
  end.

(** The stores at the end of the constructors: fenwick/fixedl.hpp line 43,
    bytel.hpp lines 46-47, bitl.hpp lines 45-46, typel.hpp line 228. *)
Definition lset (sh64 : bool) (t : ftree) (h i v : Z) : res ftree :=
  let bs := bound_size (ft_bound t) in
  let* l := geti (ft_level t) h in
  match ft_lay t with
  | ByteL => let* m := bytewrite (arr t 0) (u64 (l + heightsize bs h * i)) (heightsize bs h) v in Ok (with_arr t 0 m)
  | BitL => let pos := u64 (l + (bs + h) * i) in
      let* m := bitwrite_inc sh64 (arr t 0) (pos / 8) (pos mod 8) (bs + h) v in Ok (with_arr t 0 m)
  | TypeL => let k := type_arr (bs + h) in
      let* m := store (type_width (bs + h)) (arr t k) (Z.of_nat (type_width (bs + h)) * u64 (l + i)) v in Ok (with_arr t k m)
  | _ => let* m := store 8 (arr t 0) (8 * u64 (l + i)) v in Ok (with_arr t 0 m)
  end.

(** *** One node by its index: reading *)

(** The bodies of the loops of prefix: fenwick/fixedf.hpp line 39, fixedl.hpp
    52-54, bytef.hpp 42, bytel.hpp 56-60, bitf.hpp getPartialFrequency 108-122,
    bitl.hpp 55-57, typef.hpp 85-96, typel.hpp 74-87. *)
Definition node_get (t : ftree) (idx : Z) : res Z :=
  let bs := bound_size (ft_bound t) in
  match ft_lay t with
  | FixedF => load 8 (arr t 0) (8 * fixedf_pos idx)
  | ByteF => let* h := rho idx in byteread (arr t 0) (bytef_pos bs idx) (heightsize bs h)
  | BitF =>
      let* h := rho idx in
      let* m := shl 1 (bs + h) in
      let mask := u64 (m - 1) in
      let prod := u64 ((bs + 1) * u64 (idx - 1)) in
      let pos := first_bit_after bs (u64 (idx - 1)) in
      if u64 (prod + (bs + 1)) mod 64 =? 0
      then let* t := load 8 (arr t 0) (pos / 64 * 8) in Ok (Z.land (Z.shiftr t (pos mod 64)) mask)
      else let* t := load 8 (arr t 0) (pos / 8) in Ok (Z.land (Z.shiftr t (pos mod 8)) mask)
  | TypeF => let* h := rho idx in load (type_width (bs + h)) (arr t 0) (typef_pos bs idx)
  | _ => let* h := rho idx in let* i := shr false idx (1 + h) in lget t h i
  end.

(** *** One node by its index: adding *)

(** The bodies of the loops of add: fenwick/fixedf.hpp line 48, fixedl.hpp
    64-66, bytef.hpp 51, bytel.hpp 69-73, bitf.hpp addToPartialFrequency 124-141,
    bitl.hpp 67-69, typef.hpp 106-117, typel.hpp 97-110.  [inc] is an [int64_t];
    the sums are unsigned. *)
Definition node_add (sh64 : bool) (t : ftree) (idx inc : Z) : res ftree :=
  let bs := bound_size (ft_bound t) in
  let bump (k : nat) (w : nat) (p : Z) :=
    let* v := load w (arr t k) p in
    let* m := store w (arr t k) p (wrap (8 * Z.of_nat w) (v + inc)) in Ok (with_arr t k m) in
  match ft_lay t with
  | FixedF => bump 0%nat 8%nat (8 * fixedf_pos idx)
  | ByteF => let* m := bytewrite_inc (arr t 0) (bytef_pos bs idx) (u64 inc) in Ok (with_arr t 0 m)
  | BitF =>
      let prod := u64 ((bs + 1) * u64 (idx - 1)) in
      let pos := first_bit_after bs (u64 (idx - 1)) in
      let '(p, s) := if u64 (prod + (bs + 1)) mod 64 =? 0 then (pos / 64 * 8, pos mod 64) else (pos / 8, pos mod 8) in
      let* v := load 8 (arr t 0) p in
      let* d := shl (u64 inc) s in
      let* m := store 8 (arr t 0) p (u64 (v + d)) in Ok (with_arr t 0 m)
  | TypeF => let* h := rho idx in bump 0%nat (type_width (bs + h)) (typef_pos bs idx)
  | lay =>
      let* h := rho idx in
      let* i := shr false idx (1 + h) in
      let* l := geti (ft_level t) h in
      match lay with
      | ByteL => let* m := bytewrite_inc (arr t 0) (u64 (l + i * heightsize bs h)) (u64 inc) in Ok (with_arr t 0 m)
      | BitL => let pos := u64 (l + i * (bs + h)) in
          let* m := bitwrite_inc sh64 (arr t 0) (pos / 8) (pos mod 8) (bs + h) (u64 inc) in Ok (with_arr t 0 m)
      | TypeL => bump (type_arr (bs + h)) (type_width (bs + h)) (Z.of_nat (type_width (bs + h)) * u64 (l + i))
      | _ => bump 0%nat 8%nat (8 * u64 (l + i))
      end
  end.

(** *** Constructors of the F classes *)

(** The first loop: fenwick/fixedf.hpp line 27, bytef.hpp 27, bitf.hpp 30,
    typef.hpp 26-39. *)
Definition leaf_set (sh64 : bool) (t : ftree) (idx v : Z) : res ftree :=
  let bs := bound_size (ft_bound t) in
  match ft_lay t with
  | ByteF => let* h := rho idx in let* m := bytewrite (arr t 0) (bytef_pos bs idx) (heightsize bs h) v in Ok (with_arr t 0 m)
  | BitF => node_add sh64 t idx v
  | TypeF => let* h := rho idx in let* m := store (type_width (bs + h)) (arr t 0) (typef_pos bs idx) v in Ok (with_arr t 0 m)
  | _ => let* m := store 8 (arr t 0) (8 * fixedf_pos idx) v in Ok (with_arr t 0 m)
  end.

(** The body of the second loop: fenwick/fixedf.hpp line 31, bytef.hpp 31-33,
    bitf.hpp 34, typef.hpp 43-76. *)
Definition node_combine (sh64 : bool) (t : ftree) (idx other : Z) : res ftree :=
  match ft_lay t with
  | ByteF =>
      let bs := bound_size (ft_bound t) in
      let* left := node_get t idx in
      let* right := node_get t other in
      let* h := rho idx in
      let* m := bytewrite (arr t 0) (bytef_pos bs idx) (heightsize bs h) (u64 (left + right)) in Ok (with_arr t 0 m)
  | _ => let* right := node_get t other in node_add sh64 t idx right
  end.

(** for (m = 2; m <= size; m <<= 1) for (idx = m; idx <= size; idx += m),
    fenwick/fixedf.hpp lines 29-30 and the same lines in the others.  [e] is
    the logarithm of m; the model lists the inner indices.  Not modelled: the
    wrap of m and idx for sizes of 2^63 and more. *)
Definition combine_round (sh64 : bool) (size e : Z) (t : ftree) : res ftree :=
  foldM (fun t k => let idx := (k + 1) * 2 ^ e in node_combine sh64 t idx (idx - 2 ^ e / 2))
    (zrange 0 (Z.to_nat (size / 2 ^ e))) t.

(** The bytes requested for Tree: fenwick/fixedf.hpp line 25, bytef.hpp 25,
    bitf.hpp 28, typef.hpp 25. *)
Definition f_bytes (lay : layout) (B size : Z) : Z :=
  let bs := bound_size B in
  match lay with
  | ByteF => u64 (bytef_pos bs (u64 (size + 1)) + 8)
  | BitF => Z.shiftr (u64 (first_bit_after bs size + 56 + 7)) 3
  | TypeF => typef_pos bs (u64 (size + 1))
  | _ => 8 * u64 (fixedf_pos size + 1)
  end.

(** fenwick/fixedf.hpp lines 25-33, bytef.hpp 25-36, bitf.hpp 27-35, typef.hpp
    25-79. *)
Definition build_f (sh64 : bool) (lay : layout) (B : Z) (seq : list Z) (size : Z) : res ftree :=
  let t := {| ft_lay := lay; ft_bound := B; ft_size := size; ft_level := []; ft_arr := [darray 1 (f_bytes lay B size)] |} in
  let* t := foldM (fun t j => let* v := geti seq (j - 1) in leaf_set sh64 t j v) (zrange 1 (Z.to_nat size)) t in
  foldM (fun t e => combine_round sh64 size e t) (zrange 1 (Z.to_nat (Z.log2 size))) t.

(** *** Constructors of the L classes *)

(** Levels: fenwick/fixedl.hpp line 27 and the same line in the others. *)
Definition levels_of (size : Z) : res Z := if size =? 0 then Ok 1 else let* l := lambda size in Ok (l + 2).

(** Number of nodes of height h: (size + 2^h) / 2^(h+1), with i = h + 1 in
    fenwick/fixedl.hpp line 30. *)
Definition level_count (size h : Z) : res Z :=
  let* a := shl 1 h in let* b := shl 1 (h + 1) in Ok (u64 (size + a) / b).

(** The Level array: fenwick/fixedl.hpp lines 28-30, bytel.hpp 28-30, bitl.hpp
    28-30. *)
Definition level_unit (lay : layout) (bs h : Z) : Z :=
  match lay with ByteL => heightsize bs h | BitL => bs + h | _ => 1 end.
Definition level_table (lay : layout) (bs size levels : Z) : res (list Z) :=
  foldM (fun l i => let* c := level_count size (i - 1) in
                    let* p := geti l (i - 1) in Ok (l ++ [u64 (c * level_unit lay bs (i - 1) + p)]))
    (zrange 1 (Z.to_nat (levels - 1))) [0].

(** TypeL: Level and typeEnd, fenwick/typel.hpp lines 31-42.  The comparisons
    with 8 - BOUNDSIZE and 16 - BOUNDSIZE are between unsigned numbers. *)
Definition typel_table (bs size levels : Z) : res (list Z * list Z * Z) :=
  let j0 := if bs <=? 8 then 0 else if bs <=? 16 then 1 else 2 in
  foldM (fun '(l, ends, j) i =>
    let* c := level_count size (i - 1) in
    let* p := geti l (i - 1) in
    let* ends := seti ends j (u64 (c + p)) in
    if (i - 1 =? u64 (8 - bs)) || (i - 1 =? u64 (16 - bs)) then Ok (l ++ [0], ends, j + 1)
    else Ok (l ++ [u64 (c + p)], ends, j))
    (zrange 1 (Z.to_nat (levels - 1))) ([0], [0; 0; 0], j0).

(** The allocations of TypeL, fenwick/typel.hpp lines 44-51: a switch whose cases
    fall through. *)
Definition typel_arrays (bs levels : Z) (ends : list Z) : list (list Z) :=
  let s := levels + bs - 1 in
  let a8 := darray 1 (zn 0 ends 0) in
  let a16 := darray 2 (zn 0 ends 1) in
  let a64 := darray 8 (zn 0 ends 2) in
  if (17 <=? s) && (s <=? 64) then [a8; a16; a64] else if (9 <=? s) && (s <=? 16) then [a8; a16; []] else [a8; []; []].

(** The value of node [node] at height [l]: the inner loop of the constructors,
    fenwick/fixedl.hpp lines 36-41.  [w]: width of the accumulator; 64 but for
    TypeL, where it is T (typel.hpp line 202). *)
Definition l_value (w : Z) (t : ftree) (seq : list Z) (l node : Z) : res Z :=
  let* v := geti seq (node - 1) in
  let* '(_, v) := foldM (fun '(si, v) j =>
      let si := Z.shiftr si 1 in
      let* x := lget t j si in Ok (si, wrap w (v + x))) (zrange 0 (Z.to_nat l)) (node - 1, wrap w v) in
  Ok v.

(** One level: for (node = 2^l; node <= size; node += 2^(l+1)),
    fenwick/fixedl.hpp line 35 and the same line in the others. *)
Definition fill_level (sh64 : bool) (seq : list Z) (t : ftree) (l : Z) : res ftree :=
  let w := match ft_lay t with TypeL => 8 * Z.of_nat (type_width (bound_size (ft_bound t) + l)) | _ => 64 end in
  foldM (fun t k => let node := 2 ^ l + k * 2 ^ (l + 1) in
      let* v := l_value w t seq l node in
      let* i := shr false node (l + 1) in lset sh64 t l i v)
    (zrange 0 (Z.to_nat ((ft_size t + 2 ^ l) / 2 ^ (l + 1)))) t.

(** fenwick/fixedl.hpp lines 26-46, bytel.hpp 26-50, bitl.hpp 26-49, typel.hpp
    29-68 with fillTree 198-231: consecutive calls of fillTree cover the heights
    up to 64 - BOUNDSIZE in order. *)
Definition build_l (sh64 : bool) (lay : layout) (B : Z) (seq : list Z) (size : Z) : res ftree :=
  let bs := bound_size B in
  let* levels := levels_of size in
  let* '(level, arrs, top) :=
    match lay with
    | TypeL =>
        let* '(level, ends, _) := typel_table bs size levels in
        Ok (level, typel_arrays bs levels ends, Z.min (levels - 1) (64 - bs + 1))
    | _ =>
        let* level := level_table lay bs size levels in
        let* last := geti level (levels - 1) in
        Ok (level, [match lay with ByteL => darray 1 (u64 (last + 8)) | BitL => darray 1 (Z.shiftr last 3 + 8) | _ => darray 8 last end], levels - 1)
    end in
  let t := {| ft_lay := lay; ft_bound := B; ft_size := size; ft_level := level; ft_arr := arrs |} in
  foldM (fill_level sh64 seq) (zrange 0 (Z.to_nat top)) t.

(** The constructor of the class [lay]. *)
Definition ft_build (sh64 : bool) (lay : layout) (B : Z) (seq : list Z) : res ftree :=
  if is_l lay then build_l sh64 lay B seq (zlen seq) else build_f sh64 lay B seq (zlen seq).

(** ** Operations *)

(** prefix: fenwick/fixedf.hpp lines 35-44 and the same loop elsewhere.  Each
    round clears a bit of a 64-bit word, so 65 rounds suffice. *)
Fixpoint prefix_loop (fuel : nat) (t : ftree) (idx sum : Z) : res Z :=
  match fuel with
  | O => Ub UB_loop
  | S f => if idx =? 0 then Ok sum
           else let* v := node_get t idx in prefix_loop f t (clear_rho idx) (u64 (sum + v))
  end.
Definition ft_prefix (t : ftree) (idx : Z) : res Z := prefix_loop 65 t idx 0.

(** add: fenwick/fixedf.hpp lines 46-51 and the same loop elsewhere. *)
Fixpoint add_loop (sh64 : bool) (fuel : nat) (t : ftree) (idx inc : Z) : res ftree :=
  match fuel with
  | O => Ub UB_loop
  | S f => if idx <=? ft_size t
           then let* t := node_add sh64 t idx inc in add_loop sh64 f t (u64 (idx + mask_rho idx)) inc
           else Ok t
  end.
Definition ft_add (sh64 : bool) (t : ftree) (idx inc : Z) : res ftree := add_loop sh64 65 t idx inc.

(** find and compFind of the F classes: fenwick/fixedf.hpp lines 54-89.  [comp]
    selects compFind. *)
Definition complement (comp : bool) (B h v : Z) : res Z :=
  if comp then let* b := shl B h in Ok (u64 (b - v)) else Ok v.

Fixpoint find_f (fuel : nat) (comp : bool) (t : ftree) (m node val : Z) : res (Z * Z) :=
  match fuel with
  | O => Ub UB_loop
  | S f =>
      if m =? 0 then Ok (node, val)
      else if ft_size t <? u64 (node + m) then find_f f comp t (Z.shiftr m 1) node val
      else
        let* v := node_get t (u64 (node + m)) in
        let* value := if comp then let* h := rho (u64 (node + m)) in complement true (ft_bound t) h v else Ok v in
        if value <=? val then find_f f comp t (Z.shiftr m 1) (u64 (node + m)) (val - value)
        else find_f f comp t (Z.shiftr m 1) node val
  end.

(** find and compFind of the L classes: fenwick/fixedl.hpp lines 73-116,
    bytel.hpp 79-126, bitl.hpp 76-122, typel.hpp 117-188.  The test whether the
    node exists compares with the start of the next level, but in TypeL with the
    length of the whole array. *)
Definition l_present (t : ftree) (h i : Z) : res bool :=
  let bs := bound_size (ft_bound t) in
  let* l := geti (ft_level t) h in
  match ft_lay t with
  | TypeL => Ok (u64 (l + i) <? zlen (arr t (type_arr (bs + h))) / Z.of_nat (type_width (bs + h)))
  | lay => let* next := geti (ft_level t) (h + 1) in Ok (u64 (l + i * level_unit lay bs h) <? next)
  end.

Definition find_l (comp : bool) (t : ftree) (val : Z) : res (Z * Z) :=
  let* '(node, _, val) := foldM (fun '(node, i, val) h =>
      let* here := l_present t h i in
      let i2 := u64 (Z.shiftl i 1) in
      if here then
        let* v := lget t h i in
        let* value := complement comp (ft_bound t) h v in
        if value <=? val then let* d := shl 1 h in Ok (u64 (node + d), u64 (i2 + 1), val - value) else Ok (node, i2, val)
      else Ok (node, i2, val))
    (rev (zrange 0 (Z.to_nat (zlen (ft_level t) - 1)))) (0, 0, val) in
  Ok (Z.min node (ft_size t), val).

(** The result and what is left in *val. *)
Definition ft_find (comp : bool) (t : ftree) (val : Z) : res (Z * Z) :=
  if is_l (ft_lay t) then find_l comp t val
  else let* m := mask_lambda (ft_size t) in find_f 65 comp t m 0 val.

(** A client: build, then a list of calls.  size(), fenwick/fixedf.hpp line
    91, returns Size. *)
Definition ft_step (sh64 : bool) (t : ftree) (p : fop) : res (fout * ftree) :=
  match p with
  | FPrefix i => let* x := ft_prefix t i in Ok (FNum x, t)
  | FAdd i inc => let* t := ft_add sh64 t i inc in Ok (FDone, t)
  | FFind v => let* '(k, r) := ft_find false t v in Ok (FPair k r, t)
  | FCompFind v => let* '(k, r) := ft_find true t v in Ok (FPair k r, t)
  | FSize => Ok (FNum (ft_size t), t)
  end.

Fixpoint ft_run (sh64 : bool) (t : ftree) (ops : list fop) : res (list fout) :=
  match ops with
  | [] => Ok []
  | p :: r => let* '(o, t) := ft_step sh64 t p in let* l := ft_run sh64 t r in Ok (o :: l)
  end.

Definition ft_client (sh64 : bool) (lay : layout) (B : Z) (seq : list Z) (ops : list fop) : res (list fout) :=
  let* t := ft_build sh64 lay B seq in ft_run sh64 t ops.
