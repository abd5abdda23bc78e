(** Programs that use the classes of include/mranisz, as far as their memory goes: objects,
    named by numbers, exist from ONew or OCopy to ODrop. *)
From Verif Require Import Base.

Inductive oop :=
| ONew (i : Z)               (* C i; *)
| OBuild (i : Z) (a b : bool) (* i.build(...) or i.load(...); whether the first array and bits are allocated *)
| OUse (i : Z)               (* i.rank(...), i.select(...), i.save(...) *)
| OFree (i : Z)              (* i.free() *)
| ODrop (i : Z)              (* the end of the scope of i *)
| OCopy (i j : Z)            (* C i(j); *)
| OAssign (i j : Z)          (* i = j; *).

Definition no_copy (o : oop) : bool := match o with OCopy _ _ | OAssign _ _ => false | _ => true end.

(** Objects are used only while they exist; [e]: which exist. *)
Fixpoint scoped (e : Z -> bool) (ops : list oop) : bool :=
  match ops with
  | [] => true
  | o :: r => match o with
    | ONew i => negb (e i) && scoped (fun x => (x =? i) || e x) r
    | OBuild i _ _ | OUse i | OFree i => e i && scoped e r
    | ODrop i => e i && scoped (fun x => negb (x =? i) && e x) r
    | OCopy i j => e j && negb (e i) && scoped (fun x => (x =? i) || e x) r
    | OAssign i j => e j && e i && scoped e r
    end
  end.
