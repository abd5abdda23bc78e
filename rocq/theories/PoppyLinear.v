(** include/poppy/popcount.h: selectLinear. *)
From Verif Require Import Base Words Poppy.

(** The loop of popcount.h lines 219-223. Every step after the first reads one
    more word of the array, so the number of words bounds the number of steps. *)
Fixpoint linear_loop (fuel : nat) (ws : list Z) (len x i k pop : Z) : res (Z * Z * Z) :=
  match fuel with
  | O => Ub UB_loop
  | S f =>
      if (k >? pop) && (i <? u64 (len - 1))
      then let* w := geti ws (u64 (x + (i + 1))) in linear_loop f ws len x (i + 1) (k - pop) (popcount w)
      else Ok (i, k, pop)
  end.

(** popcount.h lines 215-227; [ws] is the array, [len] the argument length, and
    [sel] stands for the call of select64 (lines 190-193), whose argument k is an
    int and whose int result is converted to uint64. *)
Definition select_linear_with (sel : Z -> Z -> res Z) (ws : list Z) (len x k : Z) : res Z :=
  if k >? u64 (u64 (len - x) * 64) then Ok (2 ^ 64 - 1) else
  let* w := geti ws x in
  let* '(i, k, pop) := linear_loop (S (length ws)) ws len x 0 k (popcount w) in
  if (i =? u64 (len - 1)) && (pop <? k) then Ok (2 ^ 64 - 1) else
  let* w := geti ws (u64 (x + i)) in
  let* s := sel w (sgn 32 (u32 k)) in
  Ok (u64 (i * 64 + s)).
Definition select_linear : list Z -> Z -> Z -> Z -> res Z := select_linear_with select64.
