(** Threads: which calls may run at the same time, and what they must answer.
    Specification only. *)
From Verif Require Import Base Blocks Spec Bitmap Usage System Conc.

(** The contents of the bitmaps, by number. *)
Definition contents := nat -> list bool.
Definition set_contents (C : contents) (o : nat) (B : list bool) : contents := fun k => if Nat.eqb k o then B else C k.

(** A thread, given as its calls in order, that nobody disturbs. *)
Fixpoint calls_valid (c : cfg) (T : nat -> btyp) (C : contents) (cs : list (nat * op)) : Prop :=
  match cs with
  | [] => True
  | (o, p) :: r =>
      valid_op (C o) p /\ (match p with Select k => select_safe c (T o) (C o) k | _ => True end) /\
      calls_valid c T (set_contents C o (contents_after (C o) p)) r
  end.
Fixpoint calls_answered (C : contents) (cs : list (nat * op)) (outs : list out) : Prop :=
  match cs, outs with
  | [], [] => True
  | (o, p) :: r, a :: l => answer_ok (C o) p a /\ calls_answered (set_contents C o (contents_after (C o) p)) r l
  | _, _ => False
  end.

Definition uses (cs : list (nat * op)) (o : nat) : Prop := exists p, In (o, p) cs.
Definition flips (cs : list (nat * op)) (o : nat) : Prop := exists i, In (o, Flip i) cs.

(** The rank and select modes that keep intermediate results in static arrays. *)
Definition rank_static (n : nat) (m : rank_mode) : list inst :=
  match m with
  | RM_broadword_loop | RM_builtin | RM_builtin_loop | RM_avx2_loop | RM_avx512_loop => []
  | _ => [IRank n m]
  end.
Definition select_static (n : nat) (m : select_mode) : list inst :=
  match m with
  | SM_builtin_avx512_pdep | SM_avx2_avx512_pdep | SM_avx512_avx512_pdep => [ISel n m]
  | _ => []
  end.
Definition call_statics (b : btype) (p : op) : list inst :=
  match p, b with
  | Rank _, B256 rm _ => rank_static 4 rm
  | Rank _, B512 rm _ => rank_static 8 rm
  | Select _, B256 _ sm => select_static 4 sm
  | Select _, B512 _ sm => select_static 8 sm
  | _, _ => []
  end.
Definition uses_static (T : nat -> btyp) (cs : list (nat * op)) (i : inst) : Prop :=
  exists o p, In (o, p) cs /\ In i (call_statics (ty_block (T o)) p).

(** Two threads that do not get in each other's way: what one flips the other
    does not touch, and they share no static array. *)
Definition compatible (T : nat -> btyp) (cs ds : list (nat * op)) : Prop :=
  (forall o, flips cs o -> ~ uses ds o) /\ (forall o, flips ds o -> ~ uses cs o) /\
  (forall i, uses_static T cs i -> ~ uses_static T ds i).
Definition all_compatible (T : nat -> btyp) (ts : list (list (nat * op))) : Prop :=
  forall t u cs ds, t <> u -> nth_error ts t = Some cs -> nth_error ts u = Some ds -> compatible T cs ds.

(** Bitmap [b] holds [B] after a program within the limits. *)
Definition made_by_program (c : cfg) (ty : btyp) (b : bitmap) (B : list bool) : Prop :=
  exists addr s input ops b0 outs s', history c ty addr s input ops /\ new_bitmap c ty addr input = Ok b0 /\
    run c ty (b0, s) ops = Ok (outs, (b, s')) /\ B = current ty input ops.

(** The process when the threads start: bitmap [o] has type [T o] and holds
    [C o]; static arrays have their declared sizes and contain anything, except
    that nobody writes the sentinel sums[0]. *)
Definition static_shape (i : inst) (st : stat) : Prop :=
  length (st_c st) = inst_words i /\ length (st_s st) = S (inst_words i) /\ zn 0 (st_s st) 0 = 0.
Definition ready (c : cfg) (T : nat -> btyp) (C : contents) (s : shared) (ts : list (list (nat * op))) : Prop :=
  (forall i, static_shape i (sh_stat s i)) /\
  (forall o x, sh_objs s o = Some x -> fst x = T o) /\
  (forall cs o, In cs ts -> uses cs o -> exists b, sh_objs s o = Some (T o, b) /\ made_by_program c (T o) b (C o)).

(** Thread [t] has finished with answers [outs]. *)
Definition finished (st : cstate) (t : nat) (outs : list out) : Prop := nth_error (cs_thr st) t = Some (Done (Ok outs)).
(** ... has not finished. *)
Definition running (st : cstate) (t : nat) : Prop :=
  exists a, nth_error (cs_thr st) t = Some a /\ astep a (cs_sh st) <> None.

(** What rank(i) on a bitmap with contents [B] answers if, between filling the
    static array and reading it, a rank(j) on [B'] has refilled it: the words of
    the block before the one with bit i are counted in the wrong block. *)
Definition mixed_rank (bs : Z) (B : list bool) (i : Z) (B' : list bool) (j : Z) : Z :=
  let i0 := bs * (i / bs) in let j0 := bs * (j / bs) in let w := 64 * (i mod bs / 64) in
  ones_before B i0 + (ones_before B' (j0 + w) - ones_before B' j0) + (rank_spec B i - ones_before B (i0 + w)).

(** The process after building bitmap [o] from [input o], nothing called yet. *)
Definition built (c : cfg) (T : nat -> btyp) (addr : nat -> Z) (input : nat -> list Z) : shared :=
  {| sh_stat := fun i => stat_init (inst_words i);
     sh_objs := fun o => match new_bitmap c (T o) (addr o) (input o) with Ok b => Some (T o, b) | _ => None end |}.
