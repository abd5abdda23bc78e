(** Programs that use BitmapPoppy of include/poppy, as far as memory goes. *)
From Verif Require Import Base.

Inductive pop :=
| PNew (i nbits e1 e2 : Z)   (* BitmapPoppy i(bits, nbits); what the two calls of posix_memalign return *)
| PUse (i : Z)               (* i.rank(...), i.select(...) *)
| PDrop (i : Z)              (* the end of the scope of i *)
| PCopy (i j : Z)            (* BitmapPoppy i(j); *).

(** Objects are used only while they exist; none is copied; bitmaps have less than 2^48 + 2^32
    bits; memory can be had. *)
Fixpoint pscoped (e : Z -> bool) (ops : list pop) : bool :=
  match ops with
  | [] => true
  | PNew i nbits e1 e2 :: r => negb (e i) && (0 <=? nbits) && (nbits <? 2 ^ 48 + 2 ^ 32) && (e1 =? 0) && (e2 =? 0) && pscoped (fun x => (x =? i) || e x) r
  | PUse i :: r => e i && pscoped e r
  | PDrop i :: r => e i && pscoped (fun x => negb (x =? i) && e x) r
  | PCopy _ _ :: _ => false
  end.
