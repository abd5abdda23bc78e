(** Model of DArray in include/hft/darray.hpp: the memory it maps and who owns it.
    (Elsewhere a DArray is the list of its elements, see Hft.v and HftFile.v.) *)
From Verif Require Import Base SpecDarray.

(** page_aligned, lines 102-108, for pages of 2^[p] bytes: 12, or 21 with
    HFT_FORCE_HUGETLBPAGE.  [w] is sizeof(T). *)
Definition page_aligned (p w size : Z) : Z := u64 (Z.lor (2 ^ p - 1) (u64 (u64 (size * w) - 1)) + 1).

(** Buffer, line 38: null, MAP_FAILED, or the start of a mapping. *)
Inductive ptr := Null | Failed | At (id : Z).

(** The members, lines 37-38. *)
Record darr := { da_size : Z; da_buf : ptr }.

(** Mappings are numbered in the order of the calls of mmap: their lengths in bytes
    while they exist, and their elements.  The variables of the program. *)
Record world := { w_next : Z; w_live : Z -> option Z; w_cell : Z -> Z -> Z; w_vars : Z -> option darr }.
Definition no_world : world := {| w_next := 0; w_live := fun _ => None; w_cell := fun _ _ => 0; w_vars := fun _ => None |}.
Definition with_vars (s : world) (v : Z -> option darr) : world :=
  {| w_next := w_next s; w_live := w_live s; w_cell := w_cell s; w_vars := v |}.

(** The constructor, lines 43-62.  [fails] are the lengths for which mmap fails; [dbg]:
    assertions are checked.  A new mapping is zero. *)
Definition da_new (dbg : bool) (p w : Z) (fails : Z -> bool) (s : world) (i n : Z) : res world :=
  let space := page_aligned p w n in
  if space =? 0 then Ok (with_vars s (set_at (w_vars s) i (Some {| da_size := n; da_buf := Null |})))
  else if fails space then
    if dbg then AssertFail else Ok (with_vars s (set_at (w_vars s) i (Some {| da_size := n; da_buf := Failed |})))
  else Ok {| w_next := w_next s + 1; w_live := set_at (w_live s) (w_next s) (Some space);
             w_cell := set_at (w_cell s) (w_next s) (fun _ => 0);
             w_vars := set_at (w_vars s) i (Some {| da_size := n; da_buf := At (w_next s) |}) |}.

(** The move constructor, lines 64-66. *)
Definition da_move (s : world) (i j : Z) (b : darr) : world :=
  with_vars s (set_at (set_at (w_vars s) i (Some b)) j (Some {| da_size := 0; da_buf := Null |})).

(** swap, lines 80-83; operator=, lines 68-71, calls it. *)
Definition da_swap (s : world) (i j : Z) (a b : darr) : world := with_vars s (set_at (set_at (w_vars s) i (Some b)) j (Some a)).

(** The destructor, lines 73-78.  munmap(MAP_FAILED) fails.  A call for something else
    than one whole mapping that exists is counted as an error. *)
Definition da_drop (dbg : bool) (p w : Z) (s : world) (i : Z) (a : darr) : res world :=
  let s' := with_vars s (set_at (w_vars s) i None) in
  match da_buf a with
  | Null => Ok s'
  | Failed => if dbg then AssertFail else Ok s'
  | At id => match w_live s id with
      | Some b => if b =? page_aligned p w (da_size a)
          then Ok {| w_next := w_next s; w_live := set_at (w_live s) id None; w_cell := w_cell s; w_vars := set_at (w_vars s) i None |}
          else Ub UB_freed
      | None => Ub UB_freed end
  end.

(** operator[], lines 89-91: the mapping in which element [k] lies. *)
Definition da_at (w : Z) (s : world) (a : darr) (k : Z) : res Z :=
  match da_buf a with
  | Null => Ub UB_null
  | Failed => Ub UB_bounds
  | At id => match w_live s id with
      | Some b => if (0 <=? k) && (k * w + w <=? b) then Ok id else Ub UB_bounds
      | None => Ub UB_freed end
  end.

(** One statement of a program.  [Ub UB_uninit]: it names a variable that does not exist,
    or declares one that does, so there is no such program. *)
Definition d_step (dbg : bool) (p w : Z) (fails : Z -> bool) (s : world) (o : dop) : res (list Z * world) :=
  match o with
  | DNew i n => match w_vars s i with
      | None => let* s := da_new dbg p w fails s i n in Ok ([], s)
      | Some _ => Ub UB_uninit end
  | DMove i j => match w_vars s i, w_vars s j with
      | None, Some b => Ok ([], da_move s i j b)
      | _, _ => Ub UB_uninit end
  | DAssign i j | DSwap i j => match w_vars s i, w_vars s j with
      | Some a, Some b => Ok ([], da_swap s i j a b)
      | _, _ => Ub UB_uninit end
  | DDrop i => match w_vars s i with
      | Some a => let* s := da_drop dbg p w s i a in Ok ([], s)
      | None => Ub UB_uninit end
  | DGet i k => match w_vars s i with
      | Some a => let* id := da_at w s a k in Ok ([w_cell s id k], s)
      | None => Ub UB_uninit end
  | DSet i k v => match w_vars s i with
      | Some a => let* id := da_at w s a k in
          Ok ([], {| w_next := w_next s; w_live := w_live s; w_cell := set_at (w_cell s) id (set_at (w_cell s id) k (wrap (8 * w) v)); w_vars := w_vars s |})
      | None => Ub UB_uninit end
  | DSize i => match w_vars s i with Some a => Ok ([da_size a], s) | None => Ub UB_uninit end
  end.

Fixpoint d_run (dbg : bool) (p w : Z) (fails : Z -> bool) (s : world) (ops : list dop) : res (list Z * world) :=
  match ops with
  | [] => Ok ([], s)
  | o :: r => let* '(a, s) := d_step dbg p w fails s o in let* '(b, s) := d_run dbg p w fails s r in Ok (a ++ b, s)
  end.
