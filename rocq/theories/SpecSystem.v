(** Programs that create, copy, move, assign, rebuild and destroy several
    bitmaps.  Specification only: contents as bit vectors, and which index
    describes which contents. *)
From Verif Require Import Base Blocks Spec Bitmap Usage.

(** What the allocator answers if the call allocates: the address and the
    capacity of the new index buffer. *)
Record alloc := { al_addr : Z; al_cap : Z }.

(** Objects are numbered in the order they are created. *)
Inductive event :=
| ENew (ty : btyp)                              (* default constructor *)
| EBuild (o : nat) (input : list Z) (a : alloc) (* build *)
| ECall (o : nat) (p : op)                      (* any other member function *)
| ECopy (o : nat) (a : alloc)                   (* copy constructor *)
| EMove (o : nat)                               (* move constructor *)
| EAssign (d s : nat) (a : alloc)               (* copy assignment *)
| EMoveAssign (d s : nat)                       (* move assignment *)
| EDestroy (o : nat)                            (* destructor *).

(** An object: type, bits, the index buffer its pointers refer to, the buffer it
    owns, and size and capacity of the latter in bytes. *)
Record sobj := { so_ty : btyp; so_bits : list bool; so_link : option nat; so_own : option nat; so_len : Z; so_cap : Z }.

(** All objects, and for every index buffer ever allocated the type and the bits
    it is the index of (None: released, or of no known contents). *)
Record sstate := { ss_objs : list (option sobj); ss_index : list (option (btyp * list bool)) }.
Definition ss_init : sstate := {| ss_objs := []; ss_index := [] |}.

Definition sobj_at (s : sstate) (o : nat) : option sobj := nth o (ss_objs s) None.
Definition index_at (s : sstate) (id : nat) : option (btyp * list bool) := nth id (ss_index s) None.

(** Contents after build on an object that held [old]: the input, then whatever
    the object held beyond it, then zeros, up to a whole number of blocks. *)
Definition rebuilt (bs : Z) (input old : list bool) : list bool :=
  let size := zlen input + (- zlen input) mod bs in
  firstn (Z.to_nat size) (input ++ skipn (length input) old ++ repeat false (Z.to_nat size)).

(** The object's index is the index of the object's bits. *)
Definition in_sync (s : sstate) (o : nat) : Prop :=
  exists x id, sobj_at s o = Some x /\ so_link x = Some id /\ index_at s id = Some (so_ty x, so_bits x).

(** Calls that need the index. *)
Definition needs_index (p : op) : bool := match p with Flip _ | Rank _ | Select _ => true | _ => false end.

Definition same_type (s : sstate) (d e : nat) : Prop :=
  exists x y, sobj_at s d = Some x /\ sobj_at s e = Some y /\ so_ty x = so_ty y.

(** Bytes of the index of [n] words. *)
Definition bytes_needed (ty : btyp) (nw : Z) : Z := index_bytes (ty_fam ty) (blocks_of (ty_block ty) nw).

(** The events a user may issue, and what the allocator has to guarantee. *)
Definition allowed (c : cfg) (s : sstate) (e : event) : Prop :=
  match e with
  | ENew _ => True
  | EBuild o input a =>
      exists x, sobj_at s o = Some x /\ buildable (so_ty x) input /\ index_addr_ok c (so_ty x) (al_addr a) /\
        debug_counts_ok c (so_ty x) (rebuilt (block_size (ty_block (so_ty x))) (bits_of_words input) (so_bits x))
  | ECall o p =>
      exists x, sobj_at s o = Some x /\ valid_op (so_bits x) p /\ (needs_index p = true -> in_sync s o) /\
        match p with Select k => select_safe c (so_ty x) (so_bits x) k | _ => True end
  | ECopy o a => exists x, sobj_at s o = Some x /\ index_addr_ok c (so_ty x) (al_addr a)
  | EMove o | EDestroy o => sobj_at s o <> None
  | EAssign d e a => same_type s d e /\ (forall x, sobj_at s d = Some x -> index_addr_ok c (so_ty x) (al_addr a))
  | EMoveAssign d e => same_type s d e /\ d <> e
  end.

(** Allowed answers. *)
Definition event_answer (s : sstate) (e : event) (r : out) : Prop :=
  match e with
  | ECall o p => exists x, sobj_at s o = Some x /\ answer_ok (so_bits x) p r
  | _ => r = ONone
  end.

Definition set_obj (s : sstate) (o : nat) (x : option sobj) : sstate :=
  {| ss_objs := upd_nat (ss_objs s) o x; ss_index := ss_index s |}.
Definition add_obj (s : sstate) (x : sobj) : sstate :=
  {| ss_objs := ss_objs s ++ [Some x]; ss_index := ss_index s |}.
Definition set_index (s : sstate) (id : nat) (v : option (btyp * list bool)) : sstate :=
  {| ss_objs := ss_objs s; ss_index := upd_nat (ss_index s) id v |}.
Definition add_index (s : sstate) (v : option (btyp * list bool)) : sstate :=
  {| ss_objs := ss_objs s; ss_index := ss_index s ++ [v] |}.

(** Give up the buffer the object owns. *)
Definition release_own (s : sstate) (own : option nat) : sstate :=
  match own with Some id => set_index s id None | None => s end.

(** A moved-from object: no bits, no buffer; its pointers stay. *)
Definition emptied (x : sobj) : sobj :=
  {| so_ty := so_ty x; so_bits := []; so_link := so_link x; so_own := None; so_len := 0; so_cap := 0 |}.

(** The index buffer of an object as a vector that is given [need] bytes which
    are the index of [v]: in place if they fit, else in a new buffer.  Returns
    the state, the buffer and its capacity. *)
Definition store_index (s : sstate) (own : option nat) (cap need : Z) (a : alloc) (v : option (btyp * list bool)) : sstate * option nat * Z :=
  if need <=? cap then
    match own with Some id => (set_index s id v, own, cap) | None => (s, None, cap) end
  else (add_index (release_own s own) v, Some (length (ss_index s)), al_cap a).

(** What the buffer an object owns is the index of. *)
Definition own_index (s : sstate) (own : option nat) : option (btyp * list bool) :=
  match own with Some id => index_at s id | None => None end.

Definition after (s : sstate) (e : event) : sstate :=
  match e with
  | ENew ty => add_obj s {| so_ty := ty; so_bits := []; so_link := None; so_own := None; so_len := 0; so_cap := 0 |}
  | EBuild o input a =>
      match sobj_at s o with
      | Some x =>
          let ty := so_ty x in
          let B := rebuilt (block_size (ty_block ty)) (bits_of_words input) (so_bits x) in
          let need := bytes_needed ty (zlen input) in
          let '(s, own, cap) := store_index s (so_own x) (so_cap x) need a (Some (ty, B)) in
          set_obj s o (Some {| so_ty := ty; so_bits := B; so_link := own; so_own := own; so_len := need; so_cap := cap |})
      | None => s
      end
  | ECall o p =>
      match sobj_at s o, p with
      | Some x, Flip i =>
          let B := flip_bit (so_bits x) i in
          let s := match so_link x with Some id => set_index s id (Some (so_ty x, B)) | None => s end in
          set_obj s o (Some {| so_ty := so_ty x; so_bits := B; so_link := so_link x; so_own := so_own x; so_len := so_len x; so_cap := so_cap x |})
      | _, _ => s
      end
  | ECopy o a =>
      match sobj_at s o with
      | Some x =>
          let '(s, own, cap) := store_index s None 0 (so_len x) a (own_index s (so_own x)) in
          add_obj s {| so_ty := so_ty x; so_bits := so_bits x; so_link := so_link x; so_own := own; so_len := so_len x; so_cap := cap |}
      | None => s
      end
  | EMove o =>
      match sobj_at s o with
      | Some x => add_obj (set_obj s o (Some (emptied x))) x
      | None => s
      end
  | EAssign d e a =>
      match sobj_at s d, sobj_at s e with
      | Some x, Some y =>
          if Nat.eqb d e then s else
          let '(s, own, cap) := store_index s (so_own x) (so_cap x) (so_len y) a (own_index s (so_own y)) in
          set_obj s d (Some {| so_ty := so_ty y; so_bits := so_bits y; so_link := so_link y; so_own := own; so_len := so_len y; so_cap := cap |})
      | _, _ => s
      end
  | EMoveAssign d e =>
      match sobj_at s d, sobj_at s e with
      | Some x, Some y => set_obj (set_obj (release_own s (so_own x)) d (Some y)) e (Some (emptied y))
      | _, _ => s
      end
  | EDestroy o =>
      match sobj_at s o with
      | Some x => set_obj (release_own s (so_own x)) o None
      | None => s
      end
  end.

Fixpoint after_all (s : sstate) (es : list event) : sstate :=
  match es with [] => s | e :: r => after_all (after s e) r end.

Fixpoint allowed_all (c : cfg) (s : sstate) (es : list event) : Prop :=
  match es with [] => True | e :: r => allowed c s e /\ allowed_all c (after s e) r end.

Fixpoint events_ok (s : sstate) (es : list event) (outs : list out) : Prop :=
  match es, outs with
  | [], [] => True
  | e :: r, a :: l => event_answer s e a /\ events_ok (after s e) r l
  | _, _ => False
  end.

(** ** Value semantics: what one expects of objects that share nothing *)

(** An object: type, bits, and whether it has an index of its own.  Objects that
    were filled by copying have none until they are built again. *)
Record value := { va_ty : btyp; va_bits : list bool; va_index : bool }.
Definition vstate := list (option value).
Definition val_at (s : vstate) (o : nat) : option value := nth o s None.

Definition val_allowed (c : cfg) (s : vstate) (e : event) : Prop :=
  match e with
  | ENew _ => True
  | EBuild o input a =>
      exists x, val_at s o = Some x /\ buildable (va_ty x) input /\ index_addr_ok c (va_ty x) (al_addr a) /\
        debug_counts_ok c (va_ty x) (rebuilt (block_size (ty_block (va_ty x))) (bits_of_words input) (va_bits x))
  | ECall o p =>
      exists x, val_at s o = Some x /\ valid_op (va_bits x) p /\ (needs_index p = true -> va_index x = true) /\
        match p with Select k => select_safe c (va_ty x) (va_bits x) k | _ => True end
  | ECopy o a => exists x, val_at s o = Some x /\ index_addr_ok c (va_ty x) (al_addr a)
  | EMove o | EDestroy o => val_at s o <> None
  | EAssign d e a =>
      exists x y, val_at s d = Some x /\ val_at s e = Some y /\ va_ty x = va_ty y /\ index_addr_ok c (va_ty x) (al_addr a)
  | EMoveAssign d e =>
      d <> e /\ exists x y, val_at s d = Some x /\ val_at s e = Some y /\ va_ty x = va_ty y
  end.

Definition val_answer (s : vstate) (e : event) (r : out) : Prop :=
  match e with
  | ECall o p => exists x, val_at s o = Some x /\ answer_ok (va_bits x) p r
  | _ => r = ONone
  end.

(** A copy holds the same bits; a moved-from object holds none. *)
Definition val_copy (x : value) : value := {| va_ty := va_ty x; va_bits := va_bits x; va_index := false |}.
Definition val_empty (x : value) : value := {| va_ty := va_ty x; va_bits := []; va_index := false |}.

Definition val_after (s : vstate) (e : event) : vstate :=
  match e with
  | ENew ty => s ++ [Some {| va_ty := ty; va_bits := []; va_index := false |}]
  | EBuild o input a =>
      match val_at s o with
      | Some x => upd_nat s o (Some {| va_ty := va_ty x; va_index := true;
          va_bits := rebuilt (block_size (ty_block (va_ty x))) (bits_of_words input) (va_bits x) |})
      | None => s
      end
  | ECall o p =>
      match val_at s o with
      | Some x => upd_nat s o (Some {| va_ty := va_ty x; va_bits := contents_after (va_bits x) p; va_index := va_index x |})
      | None => s
      end
  | ECopy o a => match val_at s o with Some x => s ++ [Some (val_copy x)] | None => s end
  | EMove o => match val_at s o with Some x => upd_nat s o (Some (val_empty x)) ++ [Some x] | None => s end
  | EAssign d e a =>
      match val_at s e with Some y => if Nat.eqb d e then s else upd_nat s d (Some (val_copy y)) | None => s end
  | EMoveAssign d e =>
      match val_at s e with Some y => upd_nat (upd_nat s d (Some y)) e (Some (val_empty y)) | None => s end
  | EDestroy o => upd_nat s o None
  end.

Fixpoint val_after_all (s : vstate) (es : list event) : vstate :=
  match es with [] => s | e :: r => val_after_all (val_after s e) r end.

Fixpoint val_allowed_all (c : cfg) (s : vstate) (es : list event) : Prop :=
  match es with [] => True | e :: r => val_allowed c s e /\ val_allowed_all c (val_after s e) r end.

Fixpoint val_answers (s : vstate) (es : list event) (outs : list out) : Prop :=
  match es, outs with
  | [], [] => True
  | e :: r, a :: l => val_answer s e a /\ val_answers (val_after s e) r l
  | _, _ => False
  end.

(** A program and the values it leaves. *)
Definition val_program (c : cfg) (es : list event) (s : vstate) : Prop := val_allowed_all c [] es /\ val_after_all [] es = s.

(** Calls on object [o]. *)
Definition calls (o : nat) (ops : list op) : list event := map (ECall o) ops.

(** The event may change the value of object [p]; being copied does not. *)
Definition changes (p : nat) (e : event) : bool :=
  match e with
  | ENew _ | ECopy _ _ => false
  | EBuild o _ _ | ECall o _ | EMove o | EDestroy o => Nat.eqb o p
  | EAssign d _ _ => Nat.eqb d p
  | EMoveAssign d e => Nat.eqb d p || Nat.eqb e p
  end.

(** The event makes object [q] a copy of object [o]. *)
Definition copies (c : cfg) (s : vstate) (o q : nat) (e : event) : Prop :=
  exists x, val_at s o = Some x /\
  match e with
  | ECopy o' a => o' = o /\ q = length s /\ index_addr_ok c (va_ty x) (al_addr a)
  | EAssign d o' a => o' = o /\ q = d /\ d <> o /\ index_addr_ok c (va_ty x) (al_addr a) /\ exists y, val_at s d = Some y /\ va_ty y = va_ty x
  | _ => False
  end.
