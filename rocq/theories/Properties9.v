(** The benchmark src/perf_hft.cpp (C45). *)
From Verif Require Import Base Mem SpecHft Hft HftPerf HftPerfFacts.

(** ** C45: what the benchmark of the Fenwick trees computes *)

(** The totals it prints, one per measure(): prefix sums, ... *)
Theorem C45_sum : forall sh lay A qs runs m, zlen A <= 2 ^ 48 -> (lay = BitL -> sh = true) -> elems_ok 256 A ->
  Forall (fun q => 1 <= q <= zlen A) qs ->
  perf_test sh lay A qs PerfSum runs m = Ok (repeat ((Z.of_nat runs * total (map (seq_sum A) qs)) mod 2 ^ 64) m).
Proof. exact perf_sum_ok. Qed.
Print Assumptions C45_sum.

Example C45_sum_case : Forall (fun q => 1 <= q <= 5) [5; 2; 2] /\
  perf_test true BitL [3; 0; 256; 7; 7] [5; 2; 2] PerfSum 3 2 = Ok [837; 837] /\ 837 = 3 * (273 + 3 + 3).
Proof. split; [repeat constructor; vm_compute; congruence|]. split; vm_compute; reflexivity. Qed.

(** ... positions, ... *)
Theorem C45_search : forall sh lay A qs runs m, 1 <= zlen A <= 2 ^ 48 -> (lay = BitL -> sh = true) ->
  (lay = TypeL -> can_search TypeL 256 (zlen A)) -> elems_ok 256 A -> Forall (fun q => 1 <= q <= zlen A) qs ->
  exists ks, Forall2 (fun q k => found A q k (q - seq_sum A k)) qs ks /\
    perf_test sh lay A qs PerfSearch runs m = Ok (repeat ((Z.of_nat runs * total ks) mod 2 ^ 64) m).
Proof. exact perf_search_ok. Qed.
Print Assumptions C45_search.

Example C45_search_case : perf_test true ByteF [3; 0; 256; 7; 7] [5; 2; 3] PerfSearch 3 2 = Ok [12; 12] /\ 12 = 3 * (2 + 0 + 2).
Proof. split; vm_compute; reflexivity. Qed.

(** ... the queries themselves, ... *)
Theorem C45_build : forall sh lay A qs runs m, zlen A <= 2 ^ 48 -> (lay = BitL -> sh = true) -> elems_ok 256 A ->
  perf_test sh lay A qs PerfBuild runs m = Ok (repeat ((Z.of_nat runs * total qs) mod 2 ^ 64) m).
Proof. exact perf_build_ok. Qed.
Print Assumptions C45_build.

Example C45_build_case : perf_test true FixedF [3; 0; 256] [1; 3] PerfBuild 5 2 = Ok [20; 20].
Proof. vm_compute. reflexivity. Qed.

(** ... and, in the classes with 64-bit nodes, the drifting sum. *)
Theorem C45_update : forall sh lay A qs runs m, lay = FixedF \/ lay = FixedL -> zlen A <= 2 ^ 48 -> elems_ok 256 A ->
  Forall (fun q => 1 <= q <= zlen A) qs ->
  perf_test sh lay A qs PerfUpdate runs m =
    Ok (map (fun j => (seq_sum A (zlen A) + j * Z.of_nat runs * drift qs) mod 2 ^ 64) (zrange 1 m)).
Proof. exact perf_update_ok. Qed.
Print Assumptions C45_update.

Example C45_update_case : drift [1; 3] = -2 /\ perf_test true FixedL [0; 0; 0; 9] [1; 3] PerfUpdate 2 3 = Ok [5; 1; 2 ^ 64 - 3].
Proof. split; vm_compute; reflexivity. Qed.

(** The update loop drives some element out of the bound: runs times measures is
    4000 there, the bound 256. *)
Theorem C45_update_leaves_bound : forall B A qs times, 0 <= B < Z.of_nat times -> elems_ok B A -> qs <> [] ->
  ~ fops_ok B A (update_calls qs times).
Proof. exact updates_leave. Qed.
Print Assumptions C45_update_leaves_bound.

Example C45_update_leaves_bound_case : 0 <= 256 < Z.of_nat 4000 /\ elems_ok 256 [3; 0; 256] /\ fops_ok 256 [3; 0; 255] (update_calls [1; 3] 3) = fops_ok 256 [3; 0; 255] [FAdd 1 (-1); FAdd 3 (-1); FAdd 1 (-1); FAdd 3 (-1); FAdd 1 (-1); FAdd 3 (-1)].
Proof. split; [vm_compute; intuition congruence|]. split; [repeat constructor; vm_compute; congruence|reflexivity]. Qed.

(** The compressed classes then print something else, already at the smallest
    size of the benchmark. *)
Theorem C45_update_refuted : exists A qs, zlen A = 2 ^ 8 /\ elems_ok 256 A /\ Forall (fun q => 1 <= q <= zlen A) qs /\
  seq_sum A (zlen A) + drift qs = 0 /\
  forall lay, In lay [ByteF; ByteL; BitF; BitL] -> perf_test true lay A qs PerfUpdate 1 1 <> Ok [0].
Proof.
  exists (repeat 0 256), [1; 255; 256; 256]. split; [reflexivity|]. split; [apply Forall_forall; intros x H; apply repeat_spec in H; subst x; vm_compute; intuition congruence|].
  split; [repeat constructor; vm_compute; congruence|]. split; [vm_compute; reflexivity|].
  intros lay [<- | [<- | [<- | [<- | []]]]]; vm_compute; discriminate.
Qed.
Print Assumptions C45_update_refuted.
