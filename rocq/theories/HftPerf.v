(** Model of the measured loops of src/perf_hft.cpp.

    Timers, printing of timings and bitCount() are not modelled.  The inputs
    and the queries, drawn there by a random generator, are arbitrary lists. *)
From Verif Require Import Base Mem SpecHft Hft.

(** The strings compared with [operation], src/perf_hft.cpp lines 61, 67, 77
    and 83; any other string reaches the assert of line 90. *)
Inductive perf_op := PerfSum | PerfUpdate | PerfSearch | PerfBuild | PerfOther.

(** src/perf_hft.cpp line 165: BOUND. *)
Definition perf_bound : Z := 256.

(** src/perf_hft.cpp line 64: one run of the "sum" loop. *)
Definition sum_run (t : ftree) (qs : list Z) (total : Z) : res Z :=
  foldM (fun total q => let* x := ft_prefix t q in Ok (u64 (total + x))) qs total.

(** src/perf_hft.cpp lines 71-73: one run of the "update" loop; deltas[q & 1]
    of line 68 is +1 for even and -1 for odd queries. *)
Definition update_run (sh : bool) (t : ftree) (qs : list Z) : res ftree :=
  foldM (fun t q => ft_add sh t q (if Z.odd q then -1 else 1)) qs t.

(** src/perf_hft.cpp line 80: one run of the "search" loop. *)
Definition search_run (t : ftree) (qs : list Z) (total : Z) : res Z :=
  foldM (fun total q => let* '(k, _) := ft_find false t q in Ok (u64 (total + k))) qs total.

(** src/perf_hft.cpp line 86: one run of the "build" loop. *)
Definition build_run (qs : list Z) (total : Z) : Z :=
  fold_left (fun total q => u64 (total + q)) qs total.

(** src/perf_hft.cpp lines 59-93: measure(), which returns here the tree it
    leaves and the total it prints at line 92.  [runs] is line 9. *)
Definition measure (sh : bool) (op : perf_op) (runs : nat) (n : Z) (qs : list Z) (t : ftree) : res (ftree * Z) :=
  match op with
  | PerfSum => let* total := foldM (fun total _ => sum_run t qs total) (repeat tt runs) 0 in Ok (t, total)
  | PerfUpdate =>
      let* t := foldM (fun t _ => update_run sh t qs) (repeat tt runs) t in
      let* total := ft_prefix t n in Ok (t, total)
  | PerfSearch => let* total := foldM (fun total _ => search_run t qs total) (repeat tt runs) 0 in Ok (t, total)
  | PerfBuild => Ok (t, fold_left (fun total _ => build_run qs total) (repeat tt runs) 0)
  | PerfOther => AssertFail
  end.

(** src/perf_hft.cpp lines 26-130 for one size: the tree is built at line 35
    and measure() is called [K] times by each of the four loops of lines 98,
    107, 115 and 124; the totals printed, in order. *)
Definition perf_test (sh : bool) (lay : layout) (A qs : list Z) (op : perf_op) (runs measures : nat) : res (list Z) :=
  let* t := ft_build sh lay perf_bound A in
  let* '(_, outs) := foldM (fun '(t, outs) _ => let* '(t, x) := measure sh op runs (zlen A) qs t in Ok (t, outs ++ [x]))
                           (repeat tt measures) (t, []) in
  Ok outs.
