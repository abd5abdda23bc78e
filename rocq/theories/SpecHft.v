(** What a searchable prefix-sum structure over a sequence of numbers does.
    Nothing here mentions nodes or memory. *)
From Verif Require Import Base.

(** The classes of include/hft/fenwick other than the hybrids. *)
Inductive layout := FixedF | FixedL | ByteF | ByteL | BitF | BitL | TypeF | TypeL.
Definition is_l (lay : layout) : bool := match lay with FixedL | ByteL | BitL | TypeL => true | _ => false end.

(** Sum of the first [k] elements. *)
Definition seq_sum (A : list Z) (k : Z) : Z := fold_right Z.add 0 (firstn (Z.to_nat k) A).

(** Element [i], counting from 1, increased by [d]. *)
Definition seq_add (A : list Z) (i d : Z) : list Z := upd A (i - 1) (zn 0 A (i - 1) + d).

(** The sequence of the distances to the bound. *)
Definition seq_comp (B : Z) (A : list Z) : list Z := map (fun a => B - a) A.

Inductive fop := FPrefix (i : Z) | FAdd (i inc : Z) | FFind (v : Z) | FCompFind (v : Z) | FSize.
Inductive fout := FNum (x : Z) | FPair (k rest : Z) | FDone.

(** [k] is the longest prefix whose sum does not exceed [v]; [rest] is the
    difference. *)
Definition found (A : list Z) (v k rest : Z) : Prop :=
  0 <= k <= zlen A /\ rest = v - seq_sum A k /\ 0 <= rest /\ forall j, k < j <= zlen A -> v < seq_sum A j.

(** The contract: elements between 0 and the bound, indexes in range. *)
Definition elems_ok (B : Z) (A : list Z) : Prop := Forall (fun a => 0 <= a <= B) A.
Definition fop_ok (B : Z) (A : list Z) (p : fop) : Prop :=
  match p with
  | FPrefix i => 0 <= i <= zlen A
  | FAdd i inc => 1 <= i <= zlen A /\ 0 <= zn 0 A (i - 1) + inc <= B /\ - 2 ^ 63 <= inc < 2 ^ 63
  | FFind v | FCompFind v => 0 <= v < 2 ^ 64
  | FSize => True
  end.

Definition fop_after (A : list Z) (p : fop) : list Z := match p with FAdd i inc => seq_add A i inc | _ => A end.

Definition fop_answer (B : Z) (A : list Z) (p : fop) (r : fout) : Prop :=
  match p, r with
  | FPrefix i, FNum x => x = seq_sum A i mod 2 ^ 64
  | FAdd _ _, FDone => True
  | FFind v, FPair k rest => found A v k rest
  | FCompFind v, FPair k rest => found (seq_comp B A) v k rest
  | FSize, FNum x => x = zlen A
  | _, _ => False
  end.

Fixpoint fops_ok (B : Z) (A : list Z) (ops : list fop) : Prop :=
  match ops with [] => True | p :: r => fop_ok B A p /\ fops_ok B (fop_after A p) r end.

Fixpoint fanswers (B : Z) (A : list Z) (ops : list fop) (outs : list fout) : Prop :=
  match ops, outs with
  | [], [] => True
  | p :: r, o :: l => fop_answer B A p o /\ fanswers B (fop_after A p) r l
  | _, _ => False
  end.

(** Which bounds and sizes a class can handle.  [width B]: bits of the bound. *)
Definition width (B : Z) : Z := Z.log2 B + 1.
Definition fits (lay : layout) (B n : Z) : Prop :=
  0 <= B < 2 ^ 64 /\ 0 <= n <= 2 ^ 48 /\
  match lay with
  | BitF => width B <= 55 /\ width B + Z.log2 n <= 63
  | BitL => width B + Z.log2 n <= 57
  | TypeL => width B + Z.log2 n <= 63
  | _ => width B + Z.log2 n <= 64
  end.

(** When searching works: the F classes cannot search an empty sequence; TypeL
    needs a size without certain zero bits. *)
Definition can_search (lay : layout) (B n : Z) : Prop :=
  (n = 0 -> is_l lay = true) /\
  (lay = TypeL -> forall h, 0 <= h < Z.log2 n -> Z.testbit n h = false -> width B + h = 8 \/ width B + h = 16).
Definition searches (ops : list fop) : Prop := exists v, In (FFind v) ops \/ In (FCompFind v) ops.

(** Calls of the wide classes, whose nodes are 64-bit sums modulo 2^64: any
    elements and increments, but no searches. *)
Definition fop_wide (n : Z) (p : fop) : Prop :=
  match p with
  | FPrefix i => 0 <= i <= n
  | FAdd i inc => 1 <= i <= n /\ - 2 ^ 63 <= inc < 2 ^ 63
  | FFind _ | FCompFind _ => False
  | FSize => True
  end.

(** What the benchmark src/perf_hft.cpp is expected to print. *)
Definition total (l : list Z) : Z := fold_right Z.add 0 l.
(** Change of the sum by one run of the "update" loop: +1 at even, -1 at odd
    queries. *)
Definition drift (qs : list Z) : Z := total (map (fun q => if Z.odd q then -1 else 1) qs).
(** The calls of the "update" loop run [times] times. *)
Definition update_calls (qs : list Z) (times : nat) : list fop :=
  concat (repeat (map (fun q => FAdd q (if Z.odd q then -1 else 1)) qs) times).

(** Hybrid trees: [cut] splits the sequence in blocks of 2^cut elements. *)
Definition hybrid_fits (top bot : layout) (B cut n : Z) : Prop :=
  0 <= n <= 2 ^ 48 /\ 0 <= cut < 64 /\ B * 2 ^ cut < 2 ^ 63 /\
  fits top (B * 2 ^ cut) (n / 2 ^ cut) /\ fits bot B (Z.min n (2 ^ cut - 1)).
(** When searching for [v] works: the top tree, if not empty, can search, and so can
    the bottom tree of the block the answer lies in. *)
Definition hybrid_can_search (top bot : layout) (B cut : Z) (A : list Z) (v : Z) : Prop :=
  (zlen A / 2 ^ cut <> 0 -> can_search top (B * 2 ^ cut) (zlen A / 2 ^ cut)) /\
  (can_search bot B (zlen A mod 2 ^ cut) \/
   v < seq_sum A (zlen A - zlen A mod 2 ^ cut) /\ can_search bot B (2 ^ cut - 1)).
Definition hybrid_op_ok (top bot : layout) (B cut : Z) (A : list Z) (p : fop) : Prop :=
  fop_ok B A p /\
  match p with
  | FFind v => hybrid_can_search top bot B cut A v
  | FCompFind v => hybrid_can_search top bot B cut (seq_comp B A) v
  | _ => True
  end.
Fixpoint hybrid_ops_ok (top bot : layout) (B cut : Z) (A : list Z) (ops : list fop) : Prop :=
  match ops with
  | [] => True
  | p :: r => hybrid_op_ok top bot B cut A p /\ hybrid_ops_ok top bot B cut (fop_after A p) r
  end.
