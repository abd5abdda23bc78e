(** Specification of the numberings of bits used by the structures the benchmarks
    compare with: inside every group of [s] bits in the reverse order. *)
From Verif Require Import Base Spec SpecPerf Perf.

Definition reversed (s : Z) (B : list bool) : list bool :=
  map (fun i => bit B (s * (i / s) + (s - 1 - i mod s))) (zrange 0 (length B)).

(** Position of the one after the [k]-th (from 0) if it lies in the same word,
    otherwise the end of the word. *)
Definition next_one (B : list bool) (k q : Z) : Prop :=
  exists p, is_select B k p /\
  ((is_select B (k + 1) q /\ q / 64 = p / 64) \/
   ((forall q', is_select B (k + 1) q' -> q' / 64 <> p / 64) /\ q = 64 * (p / 64 + 1))).

(** The word of 64 bits around [p] is full and [p] is its last bit. *)
Definition ends_full_word (B : list bool) (p : Z) : Prop :=
  p mod 64 = 63 /\ forall i, p - 63 <= i <= p -> bit B i = true.

(** Bits 512b .. 512b+511 exist and are equal. *)
Definition equal_block (B : list bool) (b : Z) : Prop :=
  512 * (b + 1) <= zlen B /\ exists v, forall p, 512 * b <= p < 512 * (b + 1) -> bit B p = v.

(** What a run of a benchmark prints for a structure that answers [answer]: [n]
    bits, [ones] ones, [k] queries, [runs] rounds of them per measure.  The
    operations "flip" and unknown ones stop a debug build. *)
Definition printed (dbg : bool) (answer : Z -> Z) (op : bench_op) (n ones : Z) (k runs measures : nat) : res (list Z) :=
  match op with
  | BRank => Ok (repeat ((Z.of_nat runs * total (map answer (bench_queries k n))) mod 2 ^ 64) measures)
  | BSelect => Ok (repeat ((Z.of_nat runs * total (map answer (bench_queries k ones))) mod 2 ^ 64) measures)
  | BBuild => Ok (repeat ((Z.of_nat runs * total (bench_queries k n)) mod 2 ^ 64) measures)
  | BFlip | BOther => if dbg && negb (measures =? 0)%nat then AssertFail else Ok (repeat 0 measures)
  end.
