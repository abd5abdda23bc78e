(** Specification of the files written by include/mranisz. *)
From Verif Require Import Base Spec SpecText.

(** A 64-bit number in a file, least significant byte first, at byte [k]. *)
Definition number (bs : list Z) : Z := fold_right (fun b n => b + 256 * n) 0 bs.
Definition field (f : list Z) (k : Z) : Z := number (map (zn 0 f) (zrange k 8)).

(** Part of the payload of a select structure is not written to the file: fewer
    than [L] ones, the last one at [p], and more bytes in use than counted. *)
Definition lost (L T : Z) (B : list bool) : bool :=
  let n := count_true B in let p := nth_one B n in
  (1 <=? n) && (n <? L) && negb (p + 1 =? L) && (if p <? T then p mod 8 =? 0 else (p =? T) && (8 * n >? (T + 7) / 8)).
