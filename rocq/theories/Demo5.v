(** Concrete calls of Fenwick trees. *)
From Verif Require Import Base SpecHft.
Definition demo_ops : list fop := [FPrefix 4; FAdd 3 (-256); FPrefix 5; FFind 9; FCompFind 700; FSize; FFind 1000].
