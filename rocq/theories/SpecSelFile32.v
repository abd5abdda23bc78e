(** What a file of SelectBasic32 does not keep; as [lost] of SpecFile, with positions of four bytes. *)
From Verif Require Import Base Spec SpecText.

(** Part of the payload of a select structure is not written to the file: fewer
    than [L] ones, the last one at [p], and more bytes in use than counted. *)
Definition lost32 (L T : Z) (B : list bool) : bool :=
  let n := count_true B in let p := nth_one B n in
  (1 <=? n) && (n <? L) && negb (p + 1 =? L) && (if p <? T then p mod 8 =? 0 else (p =? T) && (4 * n >? (T + 7) / 8)).
