(** Model of include/hft/fenwick/hybrid.hpp: a tree over blocks of 2^CUT elements
    and one tree per block over all but its last element.  Line numbers refer to
    that file.  Serialization (lines 89-123) and bitCount are in HftFile.v. *)
From Verif Require Import Base Mem SpecHft Hft.

(** Lines 16-18.  [hy_cut] is the template argument CUT, below 64. *)
Record hybrid := { hy_cut : Z; hy_size : Z; hy_top : ftree; hy_bots : list ftree }.

(** Line 12: BottomSize. *)
Definition bottom_size (cut : Z) : Z := 2 ^ cut - 1.
(** Line 13: TOPBOUND, in size_t. *)
Definition top_bound (B cut : Z) : Z := u64 (B * 2 ^ cut).

(** BottomForest[i]. *)
Definition getb (l : list ftree) (i : Z) : res ftree :=
  if i <? 0 then Ub UB_bounds else match nth_error l (Z.to_nat i) with Some t => Ok t | None => Ub UB_bounds end.

(** The elements a bottom tree is built from, line 26: [len] elements starting at
    sequence + next.  The model demands that they exist. *)
Definition slice (seq : list Z) (next len : Z) : res (list Z) :=
  if (0 <=? next) && (next + len <=? zlen seq) then Ok (firstn (Z.to_nat len) (skipn (Z.to_nat next) seq)) else Ub UB_bounds.

(** Lines 79-87: buildTop. *)
Definition build_top (sh : bool) (lay : layout) (B cut : Z) (seq : list Z) : res ftree :=
  let* sub := foldM (fun l i => let* v := geti seq (u64 (i * 2 ^ cut) - 1) in Ok (l ++ [v]))
                    (zrange 1 (Z.to_nat (Z.shiftr (zlen seq) cut))) [] in
  ft_build sh lay (top_bound B cut) sub.

(** Lines 22-27. *)
Definition build_bots (sh : bool) (lay : layout) (B cut : Z) (seq : list Z) (topsize : Z) : res (list ftree) :=
  foldM (fun l i =>
    let next := u64 (2 ^ cut * i) in
    let bsize := if u64 (bottom_size cut + next) <=? zlen seq then bottom_size cut else Z.land (zlen seq) (bottom_size cut) in
    let* sub := slice seq next bsize in
    let* t := ft_build sh lay B sub in Ok (l ++ [t])) (zrange 0 (Z.to_nat (topsize + 1))) [].

(** Conversion of uint64_t to the int64_t argument of add. *)
Definition s64 (x : Z) : Z := if x <? 2 ^ 63 then x else x - 2 ^ 64.

(** Lines 21-31. *)
Definition hy_build (sh : bool) (top bot : layout) (B cut : Z) (seq : list Z) : res hybrid :=
  let* t := build_top sh top B cut seq in
  let* bots := build_bots sh bot B cut seq (ft_size t) in
  let* t := foldM (fun t i =>
    let* b := getb bots i in
    let* x := ft_prefix b (ft_size b) in
    ft_add sh t (i + 1) (s64 x)) (zrange 0 (Z.to_nat (ft_size t))) t in
  Ok {| hy_cut := cut; hy_size := zlen seq; hy_top := t; hy_bots := bots |}.

(** Lines 33-38. *)
Definition hy_prefix (h : hybrid) (idx : Z) : res Z :=
  let top := Z.shiftr idx (hy_cut h) in
  let* x := ft_prefix (hy_top h) top in
  let* b := getb (hy_bots h) top in
  let* y := ft_prefix b (Z.land idx (bottom_size (hy_cut h))) in
  Ok (u64 (x + y)).

(** Lines 40-50. *)
Definition hy_add (sh : bool) (h : hybrid) (idx inc : Z) : res hybrid :=
  let top := Z.shiftr idx (hy_cut h) in
  let bottom := Z.land idx (bottom_size (hy_cut h)) in
  if bottom =? 0 then
    let* t := ft_add sh (hy_top h) top inc in
    Ok {| hy_cut := hy_cut h; hy_size := hy_size h; hy_top := t; hy_bots := hy_bots h |}
  else
    let* t := ft_add sh (hy_top h) (u64 (top + 1)) inc in
    let* b := getb (hy_bots h) top in
    let* b := ft_add sh b bottom inc in
    Ok {| hy_cut := hy_cut h; hy_size := hy_size h; hy_top := t; hy_bots := upd_nat (hy_bots h) (Z.to_nat top) b |}.

(** Lines 53-58 and 61-66. *)
Definition hy_find (comp : bool) (h : hybrid) (val : Z) : res (Z * Z) :=
  let* '(top, val) := if ft_size (hy_top h) =? 0 then Ok (0, val) else ft_find comp (hy_top h) val in
  let* '(bottom, val) :=
    if top <? zlen (hy_bots h) then let* b := getb (hy_bots h) top in ft_find comp b val else Ok (0, val) in
  Ok (u64 (u64 (Z.shiftl top (hy_cut h)) + bottom), val).

(** A client, as in Hft.v.  size(): line 68. *)
Definition hy_step (sh : bool) (h : hybrid) (p : fop) : res (fout * hybrid) :=
  match p with
  | FPrefix i => let* x := hy_prefix h i in Ok (FNum x, h)
  | FAdd i inc => let* h := hy_add sh h i inc in Ok (FDone, h)
  | FFind v => let* '(k, r) := hy_find false h v in Ok (FPair k r, h)
  | FCompFind v => let* '(k, r) := hy_find true h v in Ok (FPair k r, h)
  | FSize => Ok (FNum (hy_size h), h)
  end.
Fixpoint hy_run (sh : bool) (h : hybrid) (ops : list fop) : res (list fout) :=
  match ops with
  | [] => Ok []
  | p :: r => let* '(o, h) := hy_step sh h p in let* l := hy_run sh h r in Ok (o :: l)
  end.
Definition hy_client (sh : bool) (top bot : layout) (B cut : Z) (seq : list Z) (ops : list fop) : res (list fout) :=
  let* h := hy_build sh top bot B cut seq in hy_run sh h ops.
