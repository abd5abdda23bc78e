(** Model of the stream operators and of bitCount() in include/hft: common.hpp,
    darray.hpp and fenwick/*.hpp.  All line numbers refer to include/hft; the
    machine is little-endian.  A file is the list of its bytes; writing never fails.
    Allocations of any size succeed. *)
From Verif Require Import Base Mem SpecHft SpecHftFile Hft HftHybrid.

(** ** common.hpp *)

(** swap_endian, lines 410-430, for one, two, four and eight bytes. *)
Definition swap8 (v : Z) : Z := v.
Definition swap16 (v : Z) : Z :=
  wrap 16 (Z.lor (Z.shiftl (swap8 (wrap 8 (Z.land v (2 ^ 8 - 1)))) 8) (swap8 (wrap 8 (Z.shiftr v 8)))).
Definition swap32 (v : Z) : Z :=
  u32 (Z.lor (Z.shiftl (swap16 (wrap 16 (Z.land v (2 ^ 16 - 1)))) 16) (swap16 (wrap 16 (Z.shiftr v 16)))).
Definition swap64 (v : Z) : Z :=
  u64 (Z.lor (Z.shiftl (swap32 (u32 (Z.land v (2 ^ 32 - 1)))) 32) (swap32 (u32 (Z.shiftr v 32)))).
Definition swap_endian (w : nat) (v : Z) : Z :=
  match w with 1%nat => swap8 v | 2%nat => swap16 v | 4%nat => swap32 v | _ => swap64 v end.

(** hton and ntoh, lines 437 and 444, when is_little_endian(). *)
Definition hton (w : nat) (v : Z) : Z := swap_endian w v.
Definition ntoh (w : nat) (v : Z) : Z := hton w v.

(** ** Streams *)

(** os.write of a converted number: its bytes in memory. *)
Definition put (w : nat) (v : Z) : list Z := le w (hton w v).

(** std::istream: the bytes not yet read and failbit.  is.read of [n] bytes stores
    what there is; if that is less, the stream fails, and later reads do nothing. *)
Record istr := { is_data : list Z; is_fail : bool }.
Definition stream (f : list Z) : istr := {| is_data := f; is_fail := false |}.
Definition is_read (n : nat) (s : istr) : list Z * istr :=
  if is_fail s then ([], s)
  else if (n <=? length (is_data s))%nat then (firstn n (is_data s), stream (skipn n (is_data s)))
  else (is_data s, {| is_data := []; is_fail := true |}).

(** A local uint64_t, is.read into it, and its value through ntoh, e.g. darray.hpp
    lines 123-126: not initialised if the file is too short. *)
Definition get (s : istr) : res (Z * istr) :=
  let '(bs, s) := is_read 8 s in
  if (length bs <? 8)%nat then Ub UB_uninit else Ok (ntoh 8 (rd 8 bs 0), s).

(** ** darray.hpp *)

(** page_aligned, lines 102-108, without HFT_FORCE_HUGETLBPAGE. *)
Definition page_aligned (w : nat) (n : Z) : Z := u64 (Z.lor (4 * 1024 - 1) (u64 (u64 (n * Z.of_nat w) - 1)) + 1).

(** Size, and the first [n] elements, of an array of elements of [w] bytes. *)
Definition darray_size (w : nat) (a : list Z) : Z := zlen a / Z.of_nat w.
Fixpoint cells (w n : nat) (a : list Z) : list Z :=
  match n with O => [] | S k => rd w a 0 :: cells w k (skipn w a) end.

(** operator<<, lines 110-120. *)
Definition save_darray (w : nat) (a : list Z) : list Z :=
  put 8 (darray_size w a) ++ flat_map (put w) (cells w (Z.to_nat (darray_size w a)) a).

(** operator>>, lines 122-134.  The new array is zero-filled (mmap); an element of
    which the file has only some bytes is made from these and zeros.  If
    page_aligned wraps, the array is shorter than its Size. *)
Fixpoint read_cells (w n : nat) (s : istr) : list Z * istr :=
  match n with
  | O => ([], s)
  | S k => let '(bs, s) := is_read w s in
           let '(r, s) := read_cells w k s in (le w (ntoh w (rd w bs 0)) ++ r, s)
  end.
Definition load_darray (w : nat) (s : istr) : res (list Z * istr) :=
  let* '(n, s) := get s in
  if page_aligned w n <? n * Z.of_nat w then Ub UB_bounds else Ok (read_cells w (Z.to_nat n) s).

(** bitCount, lines 97-99.  sizeof(DArray<T>) is 16. *)
Definition darray_bits (w : nat) (a : list Z) : Z := u64 (16 * 8 + page_aligned w (darray_size w a) * 8).

(** ** The trees *)

Fixpoint save_arrays (ws : list nat) (arrs : list (list Z)) : list Z :=
  match ws, arrs with w :: ws, a :: arrs => save_darray w a ++ save_arrays ws arrs | _, _ => [] end.
Fixpoint load_arrays (ws : list nat) (s : istr) : res (list (list Z) * istr) :=
  match ws with
  | [] => Ok ([], s)
  | w :: ws => let* '(a, s) := load_darray w s in let* '(r, s) := load_arrays ws s in Ok (a :: r, s)
  end.

(** operator<<: fenwick/fixedf.hpp lines 102-107, bytef.hpp 130-135, bitf.hpp
    143-148, typef.hpp 200-205; fixedl.hpp 126-139, bytel.hpp 138-151, bitl.hpp
    132-145, typel.hpp 234-247. *)
Definition ft_save (t : ftree) : list Z :=
  put 8 (ft_size t) ++
  (if is_l (ft_lay t) then put 8 (zlen (ft_level t)) ++ flat_map (put 8) (ft_level t) else []) ++
  save_arrays (elem_widths (ft_lay t)) (ft_arr t).

(** The classes whose operator>> compiles: in TypeF and TypeL it assigns to Size and
    Levels, which are const there (typef.hpp lines 21 and 211, typel.hpp lines 21,
    252 and 256). *)
Definition can_load (lay : layout) : bool := match lay with TypeF | TypeL => false | _ => true end.

(** operator>>: fenwick/fixedf.hpp lines 109-115, bytef.hpp 137-143, bitf.hpp
    150-156; fixedl.hpp 141-158, bytel.hpp 153-170, bitl.hpp 147-164.  [t] is the
    object read into. *)
Fixpoint get_levels (n : nat) (s : istr) : res (list Z * istr) :=
  match n with
  | O => Ok ([], s)
  | S k => let* '(v, s) := get s in let* '(r, s) := get_levels k s in Ok (v :: r, s)
  end.
Definition ft_load (t : ftree) (s : istr) : res (ftree * istr) :=
  let* '(size, s) := get s in
  let* '(level, s) :=
    if is_l (ft_lay t) then let* '(n, s) := get s in get_levels (Z.to_nat n) s else Ok ([], s) in
  let* '(arrs, s) := load_arrays (elem_widths (ft_lay t)) s in
  Ok ({| ft_lay := ft_lay t; ft_bound := ft_bound t; ft_size := size; ft_level := level; ft_arr := arrs |}, s).

(** sizeof the class: fenwick/fixedf.hpp lines 21-22, fixedl.hpp 21-23 and the same
    lines of the others, typel.hpp 21-26, after the pointer to the virtual
    functions. *)
Definition tree_sizeof (lay : layout) : Z := match lay with TypeL => 80 | FixedL | ByteL | BitL => 48 | _ => 32 end.

(** bitCount: fenwick/fixedf.hpp lines 93-95, bytef.hpp 97-99, bitf.hpp 96-98,
    typef.hpp 189-191; fixedl.hpp 120-123, bytel.hpp 130-133, bitl.hpp 126-129,
    typel.hpp 192-195. *)
Fixpoint arrays_bits (ws : list nat) (arrs : list (list Z)) : Z :=
  match ws, arrs with w :: ws, a :: arrs => darray_bits w a - 16 + arrays_bits ws arrs | _, _ => 0 end.
Definition ft_bits (t : ftree) : Z :=
  u64 (tree_sizeof (ft_lay t) * 8 + arrays_bits (elem_widths (ft_lay t)) (ft_arr t) +
       (if is_l (ft_lay t) then zlen (ft_level t) * 8 * 8 else 0)).

(** ** fenwick/hybrid.hpp *)

(** operator<<, lines 89-101: nbottom is converted before it bounds the loop. *)
Definition hy_save (h : hybrid) : res (list Z) :=
  let nbottom := hton 8 (zlen (hy_bots h)) in
  let* l := foldM (fun l i => let* b := getb (hy_bots h) i in Ok (l ++ ft_save b)) (zrange 0 (Z.to_nat nbottom)) [] in
  Ok (put 8 (hy_size h) ++ le 8 nbottom ++ ft_save (hy_top h) ++ l).

(** operator>>, lines 103-123, for bottom trees of class [bot] and bound [B].  nsize
    is read but not used; nbottom is not converted; the trees read are appended to
    those there are.  In reality reserve(nbottom) throws when it asks for more memory
    than there is. *)
Definition hy_load (sh : bool) (bot : layout) (B : Z) (h : hybrid) (s : istr) : res (hybrid * istr) :=
  let '(_, s) := is_read 8 s in
  let '(nb, s) := is_read 8 s in
  let* '(top, s) := ft_load (hy_top h) s in
  if (length nb <? 8)%nat then Ub UB_uninit else
  let* '(bots, s) := foldM (fun '(bots, s) (_ : Z) =>
      let* b := ft_build sh bot B [] in
      let* '(b, s) := ft_load b s in Ok (bots ++ [b], s)) (zrange 0 (Z.to_nat (rd 8 nb 0))) (hy_bots h, s) in
  Ok ({| hy_cut := hy_cut h; hy_size := hy_size h; hy_top := top; hy_bots := bots |}, s).

(** bitCount, lines 70-76.  sizeof of a Hybrid: the pointer to the virtual functions,
    BottomSize, Size, the top tree, a vector of 24 bytes (lines 12-18); line 75 names
    the type with TOP and BOTTOM exchanged, [bot] is the class of the bottom
    trees. *)
Definition hy_bits (bot : layout) (h : hybrid) : Z :=
  u64 (fold_left (fun s t => u64 (s + ft_bits t)) (hy_bots h) 0 + (24 + tree_sizeof bot + 24) + ft_bits (hy_top h)).

(** ** A client *)

(** Calls of one tree, with the tree after them. *)
Fixpoint ft_runs (sh : bool) (t : ftree) (ops : list fop) : res (list fout * ftree) :=
  match ops with
  | [] => Ok ([], t)
  | p :: r => let* '(o, t) := ft_step sh t p in let* '(l, t) := ft_runs sh t r in Ok (o :: l, t)
  end.

(** The trees a client can have. *)
Definition ft_state (sh : bool) (lay : layout) (B : Z) (t : ftree) : Prop :=
  exists A ops o t0, fits lay B (zlen A) /\ ft_build sh lay B A = Ok t0 /\ ft_runs sh t0 ops = Ok (o, t).

(** Build a tree from [A], use it, write it to a stream that [rest] follows, read it
    into a tree built from [A2], use that.  The answers, and the stream after reading. *)
Definition ft_file_client (sh : bool) (lay : layout) (B : Z) (A : list Z) (ops : list fop) (A2 : list Z) (rest : list Z) (ops2 : list fop) :
    res (list fout * list fout * istr) :=
  let* t := ft_build sh lay B A in
  let* '(o, t) := ft_runs sh t ops in
  let* t2 := ft_build sh lay B A2 in
  let* '(t2, s) := ft_load t2 (stream (ft_save t ++ rest)) in
  let* '(o2, _) := ft_runs sh t2 ops2 in
  Ok (o, o2, s).

(** The same for hybrids. *)
Fixpoint hy_runs (sh : bool) (h : hybrid) (ops : list fop) : res (list fout * hybrid) :=
  match ops with
  | [] => Ok ([], h)
  | p :: r => let* '(o, h) := hy_step sh h p in let* '(l, h) := hy_runs sh h r in Ok (o :: l, h)
  end.
Definition hy_state (sh : bool) (top bot : layout) (B cut : Z) (h : hybrid) : Prop :=
  exists A ops o h0, hybrid_fits top bot B cut (zlen A) /\ hy_build sh top bot B cut A = Ok h0 /\ hy_runs sh h0 ops = Ok (o, h).

(** The memory a tree takes, in bits; used by the theorems. *)
Definition bits_of (t : ftree) : Z := tree_bits (ft_lay t) (zlen (ft_level t)) (map (@zlen Z) (ft_arr t)).

(** A stream that has failed; a tree with other contents of its only array. *)
Definition failed : istr := {| is_data := []; is_fail := true |}.
Definition with_first (t : ftree) (a : list Z) : ftree :=
  {| ft_lay := ft_lay t; ft_bound := ft_bound t; ft_size := ft_size t; ft_level := ft_level t; ft_arr := [a] |}.
