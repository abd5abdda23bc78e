(** Model of the memory of the classes of include/mranisz/shared/rank.hpp and select.hpp:
    RankBasic32/64, RankCF32/64, RankMPE32/64, SelectBasic32/64, SelectMPE32/64.  Each has
    a constructor, a destructor, free, build and load, and no copy constructor or
    assignment of its own.  Line numbers are those of RankBasic64 in rank.hpp. *)
From Verif Require Import Base SpecOwn.

(** The blocks that exist, numbered in the order of new[]; the objects; and their pointers:
    member 0 is ranks or selects, 1 is bits, 2 is buffer (SelectMPE only). *)
Record heap := { h_next : Z; h_live : Z -> bool; h_alive : Z -> bool; h_ptr : Z -> Z -> option Z }.
Definition no_heap : heap := {| h_next := 0; h_live := fun _ => false; h_alive := fun _ => false; h_ptr := fun _ _ => None |}.

Definition set1 {A} (f : Z -> A) (i : Z) (v : A) : Z -> A := fun j => if j =? i then v else f j.
Definition set2 {A} (f : Z -> Z -> A) (i k : Z) (v : A) : Z -> Z -> A := fun j l => if (j =? i) && (l =? k) then v else f j l.

(** [if (p != NULL) delete[] p;].  The pointer is forgotten here already: initialize
    overwrites it, or the object ends. *)
Definition release (i : Z) (s : heap) (k : Z) : res heap :=
  match h_ptr s i k with
  | None => Ok s
  | Some id => if h_live s id
      then Ok {| h_next := h_next s; h_live := set1 (h_live s) id false; h_alive := h_alive s; h_ptr := set2 (h_ptr s) i k None |}
      else Ub UB_freed
  end.

(** [p = new ...;] *)
Definition acquire (i k : Z) (s : heap) : heap :=
  {| h_next := h_next s + 1; h_live := set1 (h_live s) (h_next s) true; h_alive := h_alive s; h_ptr := set2 (h_ptr s) i k (Some (h_next s)) |}.

(** freeMemory, lines 529-532; with buffer: select.hpp lines 1378-1382 and 2877-2881. *)
Definition free_memory (s : heap) (i : Z) : res heap := foldM (release i) [0; 1; 2] s.

(** initialize, lines 534-544.  [mpe]: SelectMPE32 and SelectMPE64, which allocate buffer
    there (select.hpp lines 1396 and 2895). *)
Definition initialize (mpe : bool) (s : heap) (i : Z) : heap := if mpe then acquire i 2 s else s.

Definition with_alive (s : heap) (i : Z) (b : bool) : heap :=
  {| h_next := h_next s; h_live := h_live s; h_alive := set1 (h_alive s) i b; h_ptr := h_ptr s |}.

(** The implicit copies: every member. *)
Definition copy_ptrs (s : heap) (i j : Z) : heap :=
  {| h_next := h_next s; h_live := h_live s; h_alive := set1 (h_alive s) i true; h_ptr := fun a k => if a =? i then h_ptr s j k else h_ptr s a k |}.

(** The calls that use an object read those of its two arrays that are not NULL (which ones
    is the subject of the other models), and write to buffer whatever it is. *)
Definition usable (s : heap) (i k : Z) : bool := match h_ptr s i k with None => true | Some id => h_live s id end.
Definition has_buffer (s : heap) (i : Z) : bool := match h_ptr s i 2 with None => false | Some _ => true end.

(** The constructor (lines 886-888), build (894-940) and load (968-1015), which start with
    free(), free (1017-1020), the destructor (890-892).  [Ub UB_uninit]: not a program.
    Temporary arrays of build are deleted before it returns and left out. *)
Definition o_step (mpe : bool) (s : heap) (o : oop) : res heap :=
  match o with
  | ONew i => if h_alive s i then Ub UB_uninit else Ok (initialize mpe (with_alive s i true) i)
  | OBuild i a b => if h_alive s i then
      let* s := free_memory s i in
      let s := initialize mpe s i in
      let s := if a then acquire i 0 s else s in
      Ok (if b then acquire i 1 s else s) else Ub UB_uninit
  | OUse i => if h_alive s i then if mpe && negb (has_buffer s i) then Ub UB_null else
      if usable s i 0 && usable s i 1 && usable s i 2 then Ok s else Ub UB_freed else Ub UB_uninit
  | OFree i => if h_alive s i then let* s := free_memory s i in Ok (initialize mpe s i) else Ub UB_uninit
  | ODrop i => if h_alive s i then let* s := free_memory s i in Ok (with_alive s i false) else Ub UB_uninit
  | OCopy i j => if h_alive s j && negb (h_alive s i) then Ok (copy_ptrs s i j) else Ub UB_uninit
  | OAssign i j => if h_alive s j && h_alive s i then Ok (copy_ptrs s i j) else Ub UB_uninit
  end.
Definition o_run (mpe : bool) (s : heap) (ops : list oop) : res heap := foldM (o_step mpe) ops s.
