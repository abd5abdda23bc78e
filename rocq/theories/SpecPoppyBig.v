(** Specification of the poppy index of bitmaps of 2^32 bits and more, which it
    treats in pieces of 2^32 bits. *)
From Verif Require Import Base Spec SpecPoppy.

(** Whole pieces; bits beyond them have no directory. *)
Definition pieces (ws : list Z) : Z := 64 * zlen ws / 2 ^ 32.
(** Ones of piece i. *)
Definition piece_ones (ws : list Z) (i : Z) : Z :=
  ones_before (bits_msb ws) (2 ^ 32 * (i + 1)) - ones_before (bits_msb ws) (2 ^ 32 * i).
(** At least one piece; not more than the 2^16 rows of the location table. *)
Definition big_ok (ws : list Z) : Prop := words_ok ws /\ 2 ^ 32 <= 64 * zlen ws < 2 ^ 48.
(** The 32-bit number of ones of a piece, plus 8191, does not wrap. *)
Definition piece_fits (ws : list Z) (i : Z) : Prop := piece_ones ws i + 8191 < 2 ^ 32.
(** Locations kept for all pieces: one for every 8192 ones, or part of it. *)
Definition locations (ws : list Z) : Z := fold_right Z.add 0 (map (fun i => cdiv (piece_ones ws i) 8192) (zrange 0 (Z.to_nat (pieces ws)))).
