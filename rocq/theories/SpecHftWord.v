(** Specification for the helpers of include/hft/common.hpp that work on bit fields and
    single words. *)
From Verif Require Import Base.

(** Bit [k] of memory seen as bytes, of an array of 64-bit words: least significant first. *)
Definition mem_bit (m : list Z) (k : Z) : bool := Z.testbit (zn 0 m (k / 8)) (k mod 8).
Definition word_bit (ws : list Z) (k : Z) : bool := Z.testbit (zn 0 ws (k / 64)) (k mod 64).

(** [r] is the number whose [L] bits are the bits s, s+1, ... of [bits]. *)
Definition is_field (bits : Z -> bool) (s L r : Z) : Prop :=
  0 <= r < 2 ^ L /\ forall j, 0 <= j < L -> Z.testbit r j = bits (s + j).

(** Bytes a field of [L] bits from bit [from] of a word on occupies when accessed by words. *)
Definition span (from L : Z) : Z := if from + L <=? 64 then 8 else 16.

Definition bytes_of (m : list Z) : Prop := Forall (fun b => 0 <= b < 256) m.
Definition words_of (ws : list Z) : Prop := Forall (fun w => 0 <= w < 2 ^ 64) ws.

(** The least power of two that is not below [v]; the least multiple of [d]. *)
Definition least_power (v r : Z) : Prop := exists e, 0 <= e /\ r = 2 ^ e /\ v <= r /\ forall f, 0 <= f -> v <= 2 ^ f -> r <= 2 ^ f.
Definition least_multiple (v d r : Z) : Prop := (exists q, r = q * d) /\ v <= r /\ forall q, v <= q * d -> r <= q * d.

(** The nodes of a Fenwick tree that an update of [j] visits: each adds its lowest one. *)
Definition lowest (j d : Z) : Prop := exists h q, 0 <= h /\ d = 2 ^ h /\ j = 2 ^ h * (2 * q + 1).
Inductive visits : Z -> Z -> Prop :=
| v_here : forall j, visits j j
| v_next : forall j d r, lowest j d -> visits (j + d) r -> visits j r.
(** The last of them inside a tree of [n] nodes. *)
Definition last_visited (j n r : Z) : Prop := visits j r /\ r <= n /\ forall d, lowest r d -> n < r + d.
