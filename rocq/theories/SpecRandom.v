(** What the random bit generator should do.  Specification only. *)
From Verif Require Import Base Spec.

(** Number [i] of Vigna's splitmix64 with seed [seed], in closed form. *)
Definition fold_bits (k z : Z) : Z := Z.lxor z (z / 2 ^ k).
Definition mix (z : Z) : Z :=
  fold_bits 31 (fold_bits 27 (fold_bits 30 z * 0xBF58476D1CE4E5B9 mod 2 ^ 64) * 0x94D049BB133111EB mod 2 ^ 64).
Definition draw (seed i : Z) : Z := mix ((seed + (i + 1) * 0x9E3779B97F4A7C15) mod 2 ^ 64).

(** The positions whose number is below the threshold. *)
Definition drawn (seed threshold n : Z) : list bool := map (fun i => draw seed i <? threshold) (zrange 0 (Z.to_nat n)).

Fixpoint zip (f : bool -> bool -> bool) (a b : list bool) : list bool :=
  match a, b with x :: r, y :: s => f x y :: zip f r s | _, _ => [] end.

(** Old bits and drawn bits together; if the first 256 are all zero, position 0
    is set as well. *)
Definition joined (B D : list bool) : list bool := zip orb B D.
Definition forced (B D : list bool) : bool := negb (existsb (fun b => b) (firstn 256 (joined B D))).
Definition random_bits (B D : list bool) : list bool := if forced B D then upd (joined B D) 0 true else joined B D.
(** Old ones that were not drawn. *)
Definition kept (B D : list bool) : list bool := zip (fun b d => b && negb d) B D.
