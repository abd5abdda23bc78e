(** Specification of where RankCF32 keeps the bits of a block. *)
From Verif Require Import Base Spec SpecText.

(** Number of blocks before [b] that are not uniform. *)
Definition kept_before (t : list Z) (b : Z) : Z := zlen (filter (fun c => negb (uniform t c)) (zrange 0 (Z.to_nat b))).
(** The bits of a block are kept in its own place among the first [kept_blocks t], or
    if it comes later in the place of a uniform block there, in order. *)
Definition cf_place (t : list Z) (b : Z) : Z :=
  let k := kept_blocks t in
  if b <? k then b else zn 0 (filter (uniform t) (zrange 0 (Z.to_nat k))) (kept_before t b - kept_before t k).
(** Zeros (perhaps those after the end of the text) and ones occur in block [b]. *)
Definition has_both (t : list Z) (b : Z) : bool :=
  let d := ones_before (text_bits t) (512 * (b + 1)) - ones_before (text_bits t) (512 * b) in negb ((d =? 0) || (d =? 512)).
