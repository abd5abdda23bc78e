(** Model of the memory of BitmapPoppy, include/poppy/bitmap.h. *)
From Verif Require Import Base SpecPopOwn MrOwn.

(** The heap of MrOwn with l1EntryCount_ of every object.  Member 0 is l1Entries_, 1 is
    l2Entries_, 2 + c is loc_[c] (lines 240-246). *)
Definition pheap : Type := heap * (Z -> Z).
Definition no_pheap : pheap := (no_heap, fun _ => 0).

(** [if (posix_memalign(&p, ...) < 0) exit(1);], lines 77-84, where the call returned [e]:
    zero and memory, or an error and [p] as it was.  The end of the process is AssertFail. *)
Definition memalign (i k e : Z) (s : heap) : res heap :=
  if e <? 0 then AssertFail else Ok (if e =? 0 then acquire i k s else s).

(** The writes to l1Entries_[0] (line 93) and l2Entries_[0] (line 97): undefined if the
    pointer has no value. *)
Definition written (s : heap) (i k : Z) : res unit := match h_ptr s i k with None => Ub UB_uninit | Some id => if h_live s id then Ok tt else Ub UB_freed end.

Definition members (n : Z) : list Z := zrange 0 (Z.to_nat (2 + n)).

(** The constructor, lines 65-144: only what concerns memory; the bounds of the arrays are
    the subject of the other models of poppy.  loc_ has 2^16 entries (line 246).  The
    destructor, lines 146-150.  The implicit copy.  [Ub UB_uninit] also: not a program. *)
Definition p_step (st : pheap) (o : pop) : res pheap :=
  let '(s, cnt) := st in
  match o with
  | PNew i nbits e1 e2 => if h_alive s i then Ub UB_uninit else
      let n := Z.max (Z.shiftr nbits 32) 1 in
      let* s := memalign i 0 e1 (with_alive s i true) in
      let* s := memalign i 1 e2 s in
      let* _ := written s i 0 in
      let* _ := written s i 1 in
      if 2 ^ 16 <? n then Ub UB_bounds else
      Ok (fold_left (fun s c => acquire i (2 + c) s) (zrange 0 (Z.to_nat n)) s, set1 cnt i n)
  | PUse i => if h_alive s i then if forallb (usable s i) (members (cnt i)) then Ok (s, cnt) else Ub UB_freed else Ub UB_uninit
  | PDrop i => if h_alive s i then let* s := foldM (release i) (members (cnt i)) s in Ok (with_alive s i false, cnt) else Ub UB_uninit
  | PCopy i j => if h_alive s j && negb (h_alive s i) then Ok (copy_ptrs s i j, set1 cnt i (cnt j)) else Ub UB_uninit
  end.
Definition p_run (st : pheap) (ops : list pop) : res pheap := foldM p_step ops st.
