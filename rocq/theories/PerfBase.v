(** Model of the drivers src/perf_compressed_bitmap.cpp and
    src/perf_immutable_bitmap.cpp for the structures whose sources are in the
    repository (include/mranisz, include/poppy).  Timers, timings, the printed text
    other than the totals and the parsing of arguments are not modelled. *)
From Verif Require Import Base Mem Nodes Trees Words Blocks Bitmap Random Drivers SpecPerf Perf Poppy MrRank MrSelect.

(** ** Loops common to both *)

(** The two nested loops over runs and queries: perf_compressed_bitmap.cpp lines
    266-270, perf_immutable_bitmap.cpp lines 320-324 and 326-330. *)
Definition query_total (query : Z -> res Z) (runs : nat) (qs : list Z) : res Z :=
  foldM (fun total _ => foldM (fun total q => let* r := query q in Ok (u64 (total + r))) qs total) (repeat tt runs) 0.

(** measure(), perf_compressed_bitmap.cpp lines 263-281 (one operator for rank and
    select), perf_immutable_bitmap.cpp lines 317-341. *)
Definition base_measure (dbg : bool) (rank select : Z -> res Z) (op : bench_op) (runs : nat) (qs : list Z) : res Z :=
  match op with
  | BRank => query_total rank runs qs
  | BSelect => query_total select runs qs
  | BBuild => Ok (fold_left (fun total _ => query_loop qs total) (repeat tt runs) 0)
  | _ => let* _ := massert dbg false in Ok 0
  end.

(** test::run for one size [n], perf_compressed_bitmap.cpp lines 230-332,
    perf_immutable_bitmap.cpp lines 286-392; [t] is the result of UINT64_MAX *
    density, [k] is num_queries, [measures] the number of calls of measure(). *)
Definition base_bench {A} (dbg : bool) (build : list Z -> res A) (rank select : A -> Z -> res Z) (n t : Z) (op : bench_op) (k runs measures : nat) : res (list Z) :=
  let* '(bits, num_ones) := create_random_bits (repeat 0 (Z.to_nat ((n + 63) / 64))) t bits_seed in
  let* a := build bits in
  let* qs := make_queries k (match op with BSelect => num_ones | _ => n end) in
  mapM (fun _ => base_measure dbg (rank a) (select a) op runs qs) (repeat tt measures).

(** ** src/perf_compressed_bitmap.cpp *)

(** reinterpret_cast<uint8_t*>(bits.data()), lines 164 and 200. *)
Definition bytes_of_words (ws : list Z) : list Z := flat_map (fun w => map (fun j => Z.land (Z.shiftr w (8 * j)) 255) (zrange 0 8)) ws.

(** mranisz_rank_wrapper, lines 156-190, with the types of lines 56-76. *)
Definition bench_basic (m : memory) (dbg : bool) := base_bench dbg (fun ws => build_std m (bytes_of_words ws)) rank_std rank_std.
Definition bench_bch (jf : Z -> Z) (m : memory) (dbg : bool) := base_bench dbg (fun ws => build_bch false jf m (bytes_of_words ws)) rank_bch rank_bch.
Definition bench_cf (m : memory) (dbg : bool) := base_bench dbg (fun ws => build_cf m (bytes_of_words ws)) rank_of_cf rank_of_cf.

(** mranisz_select_wrapper, lines 192-226, with the types of lines 102-133. *)
Definition bench_sel (el th : Z) (m : memory) (dbg : bool) := base_bench dbg (fun ws => build_sel el th m (bytes_of_words ws)) (select_std el th) (select_std el th).
Definition bench_sel_bch (el th : Z) (m : memory) (dbg : bool) := base_bench dbg (fun ws => build_sel_bch el th m (bytes_of_words ws)) (select_bch el th) (select_bch el th).

(** ** src/perf_immutable_bitmap.cpp, type poppy *)
Definition bench_poppy (junk : Z -> Z) (dbg : bool) := base_bench dbg (wrapper_build junk) (wrapper_rank dbg) (wrapper_select dbg).
