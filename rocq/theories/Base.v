(** Basic vocabulary of the model: outcomes of a C++ operation, machine
    integers as [Z] with explicit wraps, [Z]-indexed arrays. *)
From Coq Require Export ZArith List Bool Lia.
Export ListNotations.
Open Scope Z_scope.

(** What can go wrong when the C++ code runs.  Not in the source: the source
    leaves these cases undefined, the model makes each a distinct outcome. *)
Inductive ub_kind :=
| UB_bounds   (* access outside an array or a heap buffer *)
| UB_freed    (* access to a buffer whose owner released it *)
| UB_null     (* access through a null pointer *)
| UB_shift    (* shift of a 64-bit word by 64 or more *)
| UB_ctz0     (* __builtin_ctz(0), __builtin_clz(0) *)
| UB_align    (* aligned vector load from a misaligned address *)
| UB_noreturn (* flowing off the end of a non-void function *)
| UB_div      (* division by zero *)
| UB_uninit   (* use of an uninitialised variable *)
| UB_loop     (* not undefined: the loop does not end *).

(** Outcome of an operation: a value, undefined behaviour, or a failed
    [assert] (debug builds only). *)
Inductive res (A : Type) :=
| Ok (a : A)
| Ub (k : ub_kind)
| AssertFail.
Arguments Ok {A}. Arguments Ub {A}. Arguments AssertFail {A}.

(** Sequencing of C++ statements; stops at the first failure. *)
Definition bind {A B} (e : res A) (f : A -> res B) : res B :=
  match e with Ok a => f a | Ub k => Ub k | AssertFail => AssertFail end.

Notation "'let*' x := e1 'in' e2" := (bind e1 (fun x => e2))
  (at level 200, x name, e1 at level 100, e2 at level 200, right associativity).
Notation "'let*' ' p := e1 'in' e2" := (bind e1 (fun p => e2))
  (at level 200, p strict pattern, e1 at level 100, e2 at level 200, right associativity).

(** [assert(b)] of <cassert>: checked in debug builds only. *)
Definition massert (dbg : bool) (b : bool) : res unit :=
  if dbg && negb b then AssertFail else Ok tt.

(** Build configuration: the preprocessor symbols the sources test.
    [c_debug]: NDEBUG not defined.  [c_avx2]: DISABLE_AVX not defined
    (include/segment_tree/avx2/node*.hpp).  [c_avx512]: AVX512 defined
    (include/segment_tree/avx512/node*.hpp).  [c_trap]: the CPU faults on an
    aligned vector load from a misaligned address (x86 does). *)
Record cfg := { c_debug : bool; c_avx2 : bool; c_avx512 : bool; c_trap : bool }.

(** Unsigned wrap to [w] bits. *)
Definition wrap (w : Z) (x : Z) : Z := x mod 2 ^ w.
Notation u8 := (wrap 8).
Notation u16 := (wrap 16).
Notation u32 := (wrap 32).
Notation u64 := (wrap 64).

(** Two's complement reading of a [w]-bit pattern. *)
Definition sgn (w : Z) (x : Z) : Z := if x <? 2 ^ (w - 1) then x else x - 2 ^ w.

Definition b2z (b : bool) : Z := if b then 1 else 0.

(** [zlen l]: length as a [Z]. *)
Definition zlen {A} (l : list A) : Z := Z.of_nat (length l).

(** [zrange lo n]: lo, lo+1, ..., lo+n-1. *)
Fixpoint zrange (lo : Z) (n : nat) : list Z :=
  match n with O => [] | S n' => lo :: zrange (lo + 1) n' end.

(** Total array read with a default, and bounds-checked read and write. *)
Definition zn {A} (d : A) (l : list A) (i : Z) : A := nth (Z.to_nat i) l d.

Definition geti (l : list Z) (i : Z) : res Z :=
  if (0 <=? i) && (i <? zlen l) then Ok (zn 0 l i) else Ub UB_bounds.

Fixpoint upd_nat {A} (l : list A) (i : nat) (v : A) : list A :=
  match l, i with
  | [], _ => []
  | _ :: r, O => v :: r
  | x :: r, S i' => x :: upd_nat r i' v
  end.

Definition upd {A} (l : list A) (i : Z) (v : A) : list A := upd_nat l (Z.to_nat i) v.

Definition seti (l : list Z) (i : Z) (v : Z) : res (list Z) :=
  if (0 <=? i) && (i <? zlen l) then Ok (upd l i v) else Ub UB_bounds.

(** [sumf f lo n] = f lo + f (lo+1) + ... + f (lo+n-1). *)
Fixpoint sumn (f : Z -> Z) (lo : Z) (n : nat) : Z :=
  match n with O => 0 | S n' => f lo + sumn f (lo + 1) n' end.

(** Sum of [f] over [lo, hi). *)
Definition sumf (f : Z -> Z) (lo hi : Z) : Z := sumn f lo (Z.to_nat (hi - lo)).

(** Left fold in the outcome monad: a C++ for-loop over the list. *)
Fixpoint foldM {S A} (f : S -> A -> res S) (l : list A) (s : S) : res S :=
  match l with
  | [] => Ok s
  | a :: r => let* s' := f s a in foldM f r s'
  end.

(** Number of trailing zeros of a positive number. *)
Fixpoint ctz_pos (p : positive) : Z :=
  match p with xO q => 1 + ctz_pos q | _ => 0 end.

(** [_tzcnt_u64] (Intel intrinsics guide): 64 for 0.  Also [ctzll] of
    include/segment_tree/avx2/search_common.hpp lines 5-10. *)
Definition tzcnt64 (x : Z) : Z :=
  match x with Zpos p => ctz_pos p | _ => 64 end.

(** [__builtin_ctz] / [__builtin_ctzll]: undefined for 0. *)
Definition ctz (x : Z) : res Z :=
  match x with Zpos p => Ok (ctz_pos p) | _ => Ub UB_ctz0 end.
