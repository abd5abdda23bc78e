(** Specification of the 32-bit numbers in the files written by include/mranisz. *)
From Verif Require Import Base Spec SpecText SpecFile.

(** A 32-bit number in a file, least significant byte first, at byte [k]. *)
Definition int_field (f : list Z) (k : Z) : Z := number (map (zn 0 f) (zrange k 4)).
