(** Where the nodes of a tree are kept. *)
From Verif Require Import Base.

(** Nodes 1 ... n, node i in the [w i] bytes from [p i] on: one after the other, none
    sharing a byte, and the 8 bytes that an access of a node reads and writes within the
    array of [len] bytes. *)
Definition nodes_apart (n len : Z) (p w : Z -> Z) : Prop :=
  (forall i, 1 <= i <= n -> 1 <= w i <= 8 /\ 0 <= p i /\ p i + 8 <= len) /\
  (forall i j, 1 <= i < j -> j <= n -> p i + w i <= p j).
