(** What the micro-benchmarks ask and should answer.  Specification only. *)
From Verif Require Import Base Spec SpecRandom.

(** Position of the (k+1)-th one, if there is one. *)
Fixpoint find_one (B : list bool) (k : Z) : Z :=
  match B with
  | [] => 0
  | b :: r => if b then (if k =? 0 then 0 else 1 + find_one r (k - 1)) else 1 + find_one r k
  end.

(** The number a list of bits stands for, least significant bit first. *)
Fixpoint bits_value (B : list bool) : Z :=
  match B with [] => 0 | b :: r => b2z b + 2 * bits_value r end.

(** [len] elements from position [from]. *)
Definition slice {A} (B : list A) (from len : Z) : list A := firstn (Z.to_nat len) (skipn (Z.to_nat from) B).

(** How the argument of a query is drawn: not at all, below a fixed number, below
    the number of ones of the bucket; in the last case a bucket without ones may
    be skipped. *)
Inductive argument := ANone | ABelow (m : Z) | AOnes (skip : bool).

(** A question about a bucket of [q_bits] bits, and its answer. *)
Record question := { q_bits : Z; q_arg : argument; q_answer : list bool -> Z -> Z }.

(** Ones among the first k bits, all 64 bits for k = 0. *)
Definition ask_rank64 := {| q_bits := 256; q_arg := ABelow 64;
  q_answer := fun b k => ones_before b (if k =? 0 then 64 else k) |}.
Definition ask_rank (n : Z) := {| q_bits := n; q_arg := ABelow n; q_answer := rank_spec |}.
Definition ask_select (n : Z) := {| q_bits := n; q_arg := AOnes true; q_answer := find_one |}.
(** The rank, inside its word, of the (k+1)-th one of the bucket. *)
Definition ask_search (n : Z) := {| q_bits := n; q_arg := AOnes false;
  q_answer := fun b k => k - ones_before b (64 * (find_one b k / 64)) |}.
(** The sum of the first k+1 words, modulo 2^64. *)
Definition ask_prefix (n : Z) := {| q_bits := n; q_arg := ABelow (n / 64);
  q_answer := fun b k => sumf (fun j => bits_value (slice b (64 * j) 64)) 0 (k + 1) mod 2 ^ 64 |}.
Definition ask_count (n : Z) := {| q_bits := n; q_arg := ANone; q_answer := fun b _ => count_true b |}.
(** Ones of the first word. *)
Definition ask_first (n : Z) := {| q_bits := n; q_arg := ANone; q_answer := fun b _ => ones_before b 64 |}.

Definition bucket (q : question) (B : list bool) (j : Z) : list bool := slice B (q_bits q * j) (q_bits q).

(** [asked q B n pos k qs]: reading the numbers draw 71 pos, draw 71 (pos+1), ...
    as queries to the first n bits of B gives the k queries [qs] (bucket number
    and argument). *)
Inductive asked (q : question) (B : list bool) (n : Z) : Z -> nat -> list (Z * Z) -> Prop :=
| asked_end pos : asked q B n pos 0 []
| asked_none pos k qs j : q_arg q = ANone -> j = draw 71 pos mod (n / q_bits q) ->
    asked q B n (pos + 1) k qs -> asked q B n pos (S k) ((j, 0) :: qs)
| asked_below pos k qs j m : q_arg q = ABelow m -> j = draw 71 pos mod (n / q_bits q) ->
    asked q B n (pos + 2) k qs -> asked q B n pos (S k) ((j, draw 71 (pos + 1) mod m) :: qs)
| asked_ones pos k qs j sk : q_arg q = AOnes sk -> j = draw 71 pos mod (n / q_bits q) -> 0 < count_true (bucket q B j) ->
    asked q B n (pos + 2) k qs -> asked q B n pos (S k) ((j, draw 71 (pos + 1) mod count_true (bucket q B j)) :: qs)
| asked_skip pos k qs j : q_arg q = AOnes true -> j = draw 71 pos mod (n / q_bits q) -> count_true (bucket q B j) = 0 ->
    asked q B n (pos + 1) (S k) qs -> asked q B n pos (S k) qs.

(** The answers to a list of queries. *)
Definition answers (q : question) (B : list bool) (qs : list (Z * Z)) : list Z :=
  map (fun '(j, k) => q_answer q (bucket q B j) k) qs.

(** The bits of the benchmarks: [N] random bits (generator seed 13). *)
Definition micro_bits (N t : Z) : list bool :=
  random_bits (repeat false (Z.to_nat N)) (drawn 13 t N).

(** With two numbers per query, one of the first [nq] buckets drawn has no ones. *)
Definition empty_drawn (q : question) (B : list bool) (nq : nat) (n : Z) : Prop :=
  exists i, 0 <= i < Z.of_nat nq /\ count_true (bucket q B (draw 71 (2 * i) mod (n / q_bits q))) = 0.
