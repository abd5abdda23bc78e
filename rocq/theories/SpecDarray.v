(** Specification for DArray of include/hft/darray.hpp: arrays that are values.  A
    program has variables, named by numbers, that exist from DNew or DMove to DDrop. *)
From Verif Require Import Base.

Inductive dop :=
| DNew (i n : Z)      (* DArray<T> i(n); *)
| DMove (i j : Z)     (* DArray<T> i(std::move(j)); *)
| DAssign (i j : Z)   (* i = std::move(j); *)
| DSwap (i j : Z)     (* swap(i, j); *)
| DDrop (i : Z)       (* the end of the scope of i *)
| DGet (i k : Z)      (* i[k] *)
| DSet (i k v : Z)    (* i[k] = v; *)
| DSize (i : Z)       (* i.size() *).

Definition set_at {A} (f : Z -> A) (i : Z) (v : A) : Z -> A := fun j => if j =? i then v else f j.

(** The variables that exist: a length and the elements. *)
Definition values := Z -> option (Z * (Z -> Z)).
Definition no_values : values := fun _ => None.

(** Elements of [w] bytes, arrays of at most [limit] bytes.  [None]: not a program, an
    array that is too long, or an index that is not below the length. *)
Definition value_step (w limit : Z) (st : values) (o : dop) : option (list Z * values) :=
  match o with
  | DNew i n => match st i with
      | None => if (0 <=? n) && (n * w <=? limit) then Some ([], set_at st i (Some (n, fun _ => 0))) else None
      | Some _ => None end
  | DMove i j => match st i, st j with
      | None, Some a => Some ([], set_at (set_at st i (Some a)) j (Some (0, fun _ => 0)))
      | _, _ => None end
  | DAssign i j | DSwap i j => match st i, st j with
      | Some a, Some b => Some ([], set_at (set_at st i (Some b)) j (Some a))
      | _, _ => None end
  | DDrop i => match st i with Some _ => Some ([], set_at st i None) | None => None end
  | DGet i k => match st i with
      | Some (n, f) => if (0 <=? k) && (k <? n) then Some ([f k], st) else None
      | None => None end
  | DSet i k v => match st i with
      | Some (n, f) => if (0 <=? k) && (k <? n) then Some ([], set_at st i (Some (n, set_at f k (v mod 2 ^ (8 * w))))) else None
      | None => None end
  | DSize i => match st i with Some (n, _) => Some ([n], st) | None => None end
  end.

Fixpoint value_run (w limit : Z) (st : values) (ops : list dop) : option (list Z * values) :=
  match ops with
  | [] => Some ([], st)
  | o :: r => match value_step w limit st o with
      | Some (a, st) => match value_run w limit st r with Some (b, st) => Some (a ++ b, st) | None => None end
      | None => None end
  end.

(** The least multiple of [page] that is not below [bytes]. *)
Definition whole_pages (page bytes r : Z) : Prop := r mod page = 0 /\ bytes <= r < bytes + page.
