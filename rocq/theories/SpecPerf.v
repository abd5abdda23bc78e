(** What the benchmarks should print.  Specification only. *)
From Verif Require Import Base Spec SpecIndex SpecRandom.

(** Sum of a list. *)
Definition total (l : list Z) : Z := fold_right Z.add 0 l.

(** The bitmap of the benchmark with [n] bits asked for and blocks of [bs] bits:
    whole words of random bits (generator seed 13), padded with zeros. *)
Definition bench_len (n : Z) : Z := 64 * ((n + 63) / 64).
Definition bench_bits (bs n t : Z) : list bool :=
  padded bs (random_bits (repeat false (Z.to_nat (bench_len n))) (drawn 13 t (bench_len n))).

(** Its queries: [k] numbers below [M] (generator seed 71). *)
Definition bench_queries (k : nat) (M : Z) : list Z := map (fun i => draw 71 i mod M) (zrange 0 k).

(** [k] rounds of flips at [qs]. *)
Definition flip_rounds (qs : list Z) (k : nat) : list op := concat (repeat (map Flip qs) k).

(** [k] rounds of decrements at [qs]. *)
Definition decrement_rounds (qs : list Z) (k : nat) : list iop := concat (repeat (map (fun q => IUpdate q true) qs) k).

(** How often [q] occurs in [qs]. *)
Definition occurrences (qs : list Z) (q : Z) : Z := Z.of_nat (count_occ Z.eq_dec qs q).
