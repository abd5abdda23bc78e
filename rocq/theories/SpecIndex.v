(** Specification of a searchable prefix-sum structure: an array of counters. *)
From Verif Require Import Base Spec.

(** [IUpdate i sign]: add 1 (sign = false) or -1 (sign = true) to counter i. *)
Inductive iop := ISum (i : Z) | IUpdate (i : Z) (sign : bool) | ISearch (x : Z).
Inductive iout := INone | INum (z : Z) | IPair (i s : Z).

Definition counters_after (A : list Z) (o : iop) : list Z :=
  match o with
  | IUpdate i sign => upd A i (zn 0 A i + if sign then -1 else 1)
  | _ => A
  end.

Fixpoint counters_after_all (A : list Z) (ops : list iop) : list Z :=
  match ops with [] => A | o :: r => counters_after_all (counters_after A o) r end.

Definition iop_valid (A : list Z) (o : iop) : Prop :=
  match o with
  | ISum i | IUpdate i _ => 0 <= i < zlen A
  | ISearch x => 0 <= x < psum A (zlen A)
  end.

Definition ianswer_ok (A : list Z) (o : iop) (r : iout) : Prop :=
  match o, r with
  | ISum i, INum z => z = psum A (i + 1)
  | IUpdate _ _, INone => True
  | ISearch x, IPair i s => is_search A x (i, s)
  | _, _ => False
  end.

(** Every call valid, every array on the way (after the first) satisfies [P]. *)
Fixpoint iops_valid (P : list Z -> Prop) (A : list Z) (ops : list iop) : Prop :=
  match ops with
  | [] => True
  | o :: r => iop_valid A o /\ P (counters_after A o) /\ iops_valid P (counters_after A o) r
  end.

Fixpoint ianswers_ok (A : list Z) (ops : list iop) (outs : list iout) : Prop :=
  match ops, outs with
  | [], [] => True
  | o :: r, a :: s => ianswer_ok A o a /\ ianswers_ok (counters_after A o) r s
  | _, _ => False
  end.

(** All counters between 0 and [mx]. *)
Definition counters_in (mx : Z) (A : list Z) : Prop := Forall (fun v => 0 <= v <= mx) A.

(** Calls that only concern the first [k] counters. *)
Fixpoint iops_below (k : Z) (A : list Z) (ops : list iop) : Prop :=
  match ops with
  | [] => True
  | o :: r => (match o with ISum i | IUpdate i _ => 0 <= i < k | ISearch x => 0 <= x < psum A k end) /\
      iops_below k (counters_after A o) r
  end.
