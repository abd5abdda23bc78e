(** The benchmarks src/perf_mutable_bitmap.cpp (C47) and src/perf_prefix_sum.cpp
    (C48). *)
From Verif Require Import Base Mem Nodes Trees Words Blocks Spec SpecIndex SpecRandom Bitmap Usage Random Drivers SpecPerf Perf PerfFacts Demo.

(** ** C47: what the benchmark of the bitmap computes *)

(** The sizes 2^9 ... 2^32 with blocks of 256 and 512 bits are all within the
    limits, whatever the density; only the avx512 tree over 512-bit blocks in a
    debug build also needs at most 256 ones per block. *)
Theorem C47_sizes : forall c f bt addr s i t, 0 <= i <= 23 -> supported bt = true -> bt <> B64 -> reachable_statics c bt s ->
  index_addr_ok c (bench_type f bt (2 ^ (9 + i))) addr ->
  (c_debug c = true -> f = F5 -> block_size bt = 512 -> max_ones 512 (bench_bits 512 (2 ^ (9 + i)) t) 256) ->
  bench_ok c f bt addr s (2 ^ (9 + i)) t.
Proof. exact bench_sizes. Qed.
Print Assumptions C47_sizes.

Theorem C47_rank : forall c f bt addr s n t k runs m, bench_ok c f bt addr s n t ->
  bitmap_bench c f bt addr s n t BRank k runs m =
    Ok (repeat ((Z.of_nat runs * total (map (rank_spec (bench_bits (block_size bt) n t)) (bench_queries k n))) mod 2 ^ 64) m).
Proof. exact bench_rank. Qed.
Print Assumptions C47_rank.

Example C47_rank_case : bench_ok demo_cfg F2 block256_type_a 28 (statics_init block256_type_a) (2 ^ (9 + 0)) (2 ^ 63) /\
  bitmap_bench demo_cfg F2 block256_type_a 28 (statics_init block256_type_a) 512 (2 ^ 63) BRank 5 3 2 = Ok [1677; 1677].
Proof.
  split; [|vm_compute; reflexivity]. apply C47_sizes; [split; discriminate|reflexivity|discriminate|apply rs_init|intros _ _ _; reflexivity|intros _ H; discriminate H].
Qed.

Theorem C47_select : forall c f bt addr s n t k runs m, bench_ok c f bt addr s n t ->
  let B := bench_bits (block_size bt) n t in
  Forall (select_safe c (bench_type f bt n) B) (bench_queries k (count_true B)) ->
  exists ps, Forall2 (is_select B) (bench_queries k (count_true B)) ps /\
    bitmap_bench c f bt addr s n t BSelect k runs m = Ok (repeat ((Z.of_nat runs * total ps) mod 2 ^ 64) m).
Proof. exact bench_select. Qed.
Print Assumptions C47_select.

Example C47_select_case : (forall B k, select_safe demo_cfg (bench_type F2 block256_type_a 512) B k) /\
  bitmap_bench demo_cfg F2 block256_type_a 28 (statics_init block256_type_a) 512 (2 ^ 63) BSelect 5 3 2 = Ok [4353; 4353].
Proof. split; [intros B k _ H; discriminate H|vm_compute; reflexivity]. Qed.

(** The flip loops print the number of ones after all flips so far. *)
Theorem C47_flip : forall c f bt addr s n t k runs m, bench_ok c f bt addr s n t ->
  bitmap_bench c f bt addr s n t BFlip k runs m =
    Ok (map (fun j => count_true (contents_after_all (bench_bits (block_size bt) n t) (flip_rounds (bench_queries k n) (j * runs)))) (seq 1 m)).
Proof. exact bench_flip. Qed.
Print Assumptions C47_flip.

(** With an even number of runs, as there (100), every measure starts from the
    same bits and prints the same number. *)
Theorem C47_flip_even : forall c f bt addr s n t k runs m, bench_ok c f bt addr s n t -> Nat.even runs = true ->
  bitmap_bench c f bt addr s n t BFlip k runs m = Ok (repeat (count_true (bench_bits (block_size bt) n t)) m).
Proof. exact bench_flip_even. Qed.
Print Assumptions C47_flip_even.

Example C47_flip_case :
  bitmap_bench demo_cfg F2 block256_type_a 28 (statics_init block256_type_a) 512 (2 ^ 63) BFlip 5 3 2 = Ok [230; 233] /\
  bitmap_bench demo_cfg F2 block256_type_a 28 (statics_init block256_type_a) 512 (2 ^ 63) BFlip 5 2 1 = Ok [233].
Proof. split; vm_compute; reflexivity. Qed.

Theorem C47_build : forall c f bt addr s n t k runs m, bench_ok c f bt addr s n t ->
  bitmap_bench c f bt addr s n t BBuild k runs m = Ok (repeat ((Z.of_nat runs * total (bench_queries k n)) mod 2 ^ 64) m).
Proof. exact bench_build. Qed.
Print Assumptions C47_build.
Example C47_build_case :
  bitmap_bench demo_cfg F2 block256_type_a 28 (statics_init block256_type_a) 512 (2 ^ 63) BBuild 5 3 2 = Ok [3621; 3621].
Proof. vm_compute. reflexivity. Qed.

(** ** C48: what the benchmark of the segment trees computes *)

Theorem C48_sum : forall c f addr A qs runs k, 1 <= zlen A <= 2 ^ 24 -> counters_in 256 A -> Forall (fun q => 0 <= q < zlen A) qs ->
  tree_bench c f addr A qs TSum runs k = Ok (repeat ((Z.of_nat runs * total (map (fun q => psum A (q + 1)) qs)) mod 2 ^ 64) k).
Proof. exact tbench_sum. Qed.
Print Assumptions C48_sum.

Example C48_sum_case : counters_in 256 [5; 256; 3] /\ tree_bench demo_cfg F2 28 [5; 256; 3] [0; 2; 2] TSum 2 3 = Ok [1066; 1066; 1066] /\
  1066 = 2 * (5 + 264 + 264).
Proof. split; [repeat constructor; vm_compute; congruence|]. split; vm_compute; reflexivity. Qed.

Theorem C48_search : forall c f addr A qs runs k, 1 <= zlen A <= 2 ^ 24 -> counters_in 256 A -> Forall (fun q => 0 <= q < psum A (zlen A)) qs ->
  exists ps, Forall2 (fun q i => is_search A q (i, psum A i)) qs ps /\
    tree_bench c f addr A qs TSearch runs k = Ok (repeat ((Z.of_nat runs * total ps) mod 2 ^ 64) k).
Proof. exact tbench_search. Qed.
Print Assumptions C48_search.

Example C48_search_case : tree_bench demo_cfg F2 28 [5; 256; 3] [0; 5; 263] TSearch 2 1 = Ok [6] /\ 6 = 2 * (0 + 1 + 2).
Proof. split; vm_compute; reflexivity. Qed.

Theorem C48_build : forall c f addr A qs runs k, 1 <= zlen A <= 2 ^ 24 -> counters_in 256 A ->
  tree_bench c f addr A qs TBuild runs k = Ok (repeat ((Z.of_nat runs * total qs) mod 2 ^ 64) k).
Proof. exact tbench_build. Qed.
Print Assumptions C48_build.

(** The deltas +1 and -1 both become the sign bit 1: every update decrements. *)
Theorem C48_update : forall c f addr A qs runs k, 1 <= zlen A <= 2 ^ 24 -> counters_in 256 A -> bench_addr_ok c f addr (zlen A) ->
  Forall (fun q => 0 <= q < zlen A) qs ->
  (forall q, 0 <= q < zlen A -> Z.of_nat (k * runs) * occurrences qs q <= zn 0 A q) ->
  tree_bench c f addr A qs TUpdate runs k = Ok (map (fun j => psum A (zlen A) - j * Z.of_nat runs * zlen qs) (zrange 1 k)).
Proof. exact tbench_update. Qed.
Print Assumptions C48_update.

Example C48_update_case : bench_addr_ok demo_cfg F2 28 3 /\ (forall q, 0 <= q < 3 -> Z.of_nat (2 * 1) * occurrences [0; 2; 0] q <= zn 0 [5; 256; 3] q) /\
  tree_bench demo_cfg F2 28 [5; 256; 3] [0; 2; 0] TUpdate 1 2 = Ok [261; 258].
Proof.
  split; [intros _ _ _; reflexivity|]. split; [|vm_compute; reflexivity].
  intros q Hq. assert (q = 0 \/ q = 1 \/ q = 2) as [-> | [-> | ->]] by Lia.lia; vm_compute; congruence.
Qed.

(** The intention, +1 at even positions and -1 at odd ones, is not met. *)
Theorem C48_update_refuted : exists c f addr A qs, counters_in 256 A /\ bench_addr_ok c f addr (zlen A) /\
  Forall (fun q => 0 <= q < zlen A /\ Z.even q = true) qs /\ tree_bench c f addr A qs TUpdate 1 1 <> Ok [psum A (zlen A) + zlen qs].
Proof.
  exists demo_cfg, F2, 28, [5; 256; 3], [0; 2]. split; [repeat constructor; vm_compute; congruence|]. split; [intros _ _ _; reflexivity|].
  split; [repeat constructor; vm_compute; congruence|]. vm_compute. congruence.
Qed.
Print Assumptions C48_update_refuted.

(** The benchmark goes on until some counter is below zero: runs times measures is
    4000 there, the largest counter 256 ... *)
Theorem C48_update_leaves_range : forall mx A qs k, 0 <= mx < Z.of_nat k -> counters_in mx A -> qs <> [] ->
  ~ iops_valid (counters_in mx) A (decrement_rounds qs k).
Proof. exact tbench_leaves. Qed.
Print Assumptions C48_update_leaves_range.

Example C48_update_leaves_range_case : 0 <= 256 < Z.of_nat 4000 /\ counters_in 256 [5; 256; 3] /\
  decrement_rounds [0; 2] 2 = [IUpdate 0 true; IUpdate 2 true; IUpdate 0 true; IUpdate 2 true].
Proof. split; [vm_compute; intuition congruence|]. split; [repeat constructor; vm_compute; congruence|reflexivity]. Qed.

(** ... and then prints something other than the sum, also modulo 2^64. *)
Theorem C48_update_wraps_refuted : exists c f addr A qs, zlen A = 2 ^ 8 /\ counters_in 256 A /\ bench_addr_ok c f addr (zlen A) /\
  Forall (fun q => 0 <= q < zlen A) qs /\
  tree_bench c f addr A qs TUpdate 1 1 <> Ok [(psum A (zlen A) - zlen qs) mod 2 ^ 64].
Proof.
  exists demo_cfg, F5, 28, (repeat 0 256), [0]. split; [reflexivity|]. split; [apply Forall_forall; intros x H; apply repeat_spec in H; subst x; vm_compute; intuition congruence|].
  split; [intros H; discriminate H|]. split; [repeat constructor; vm_compute; congruence|]. vm_compute. congruence.
Qed.
Print Assumptions C48_update_wraps_refuted.
