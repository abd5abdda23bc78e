(** Model of the measured loops of src/perf_mutable_bitmap.cpp and
    src/perf_prefix_sum.cpp.  Timers, timings, the printed text other than the
    totals, bytes() and name() are not modelled. *)
From Verif Require Import Base Mem Nodes Trees Words Blocks Spec Bitmap Usage Random Drivers SpecPerf.

(** ** src/perf_mutable_bitmap.cpp *)

(** The strings compared with [operation], lines 61, 67, 73 and 80; any other
    string reaches the assert of line 87. *)
Inductive bench_op := BRank | BSelect | BFlip | BBuild | BOther.

(** Lines 14 and 15. *)
Definition bits_seed : Z := 13.
Definition query_seed : Z := 71.

(** Line 32: the type, with the height computed in lines 30-31. *)
Definition bench_type (f : fam) (bt : btype) (n : Z) : btyp :=
  {| ty_fam := f; ty_height := Z.to_nat (tree_height f ((n + block_size bt - 1) / block_size bt)); ty_block := bt |}.

(** Line 64. *)
Definition rank_loop (c : cfg) (ty : btyp) (b : bitmap) (qs : list Z) (st : statics * Z) : res (statics * Z) :=
  foldM (fun '(s, total) q =>
    let* '(r, s) := bm_rank c ty s (b_words b) (own_view ty b) q in Ok (s, u64 (total + r))) qs st.

(** Line 70. *)
Definition select_loop (c : cfg) (ty : btyp) (b : bitmap) (qs : list Z) (st : statics * Z) : res (statics * Z) :=
  foldM (fun '(s, total) q =>
    let* '(r, s) := bm_select c ty s (b_words b) (own_view ty b) q in Ok (s, u64 (total + r))) qs st.

(** Line 76. *)
Definition flip_loop (c : cfg) (ty : btyp) (qs : list Z) (b : bitmap) : res bitmap :=
  foldM (fun b q =>
    let* '(ws, m) := bm_flip c ty (b_words b) (own_view ty b) q in
    Ok {| b_words := ws; b_data := m; b_addr := b_addr b; b_n := b_n b |}) qs b.

(** Line 83 (and line 99 of src/perf_prefix_sum.cpp). *)
Definition query_loop (qs : list Z) (total : Z) : Z := fold_left (fun total q => u64 (total + q)) qs total.

(** measure(), lines 59-90: the object and the statics it leaves and the total it
    prints.  With assertions off an unknown operation prints 0. *)
Definition bitmap_measure (c : cfg) (ty : btyp) (op : bench_op) (runs : nat) (qs : list Z) (b : bitmap) (s : statics) : res (bitmap * statics * Z) :=
  match op with
  | BRank => let* '(s, total) := foldM (fun st _ => rank_loop c ty b qs st) (repeat tt runs) (s, 0) in Ok (b, s, total)
  | BSelect => let* '(s, total) := foldM (fun st _ => select_loop c ty b qs st) (repeat tt runs) (s, 0) in Ok (b, s, total)
  | BFlip =>
      let* b := foldM (fun b _ => flip_loop c ty qs b) (repeat tt runs) b in
      let* '(total, s) := bm_rank c ty s (b_words b) (own_view ty b) (u64 (bm_size (b_words b) - 1)) in
      Ok (b, s, total)
  | BBuild => Ok (b, s, fold_left (fun total _ => query_loop qs total) (repeat tt runs) 0)
  | BOther => let* _ := massert (c_debug c) false in Ok (b, s, 0)
  end.

(** The calls of measure(), lines 95, 104, 112 and 121: the totals in order. *)
Definition bitmap_measures (c : cfg) (ty : btyp) (op : bench_op) (runs : nat) (qs : list Z) (measures : nat) (b : bitmap) (s : statics) : res (list Z) :=
  let* '(_, _, outs) := foldM (fun '(b, s, outs) _ =>
      let* '(b, s, x) := bitmap_measure c ty op runs qs b s in Ok (b, s, outs ++ [x]))
    (repeat tt measures) (b, s, []) in
  Ok outs.

(** Lines 49-52: [k] is num_queries. *)
Definition make_queries (k : nat) (M : Z) : res (list Z) :=
  mapM (fun z => if M =? 0 then Ub UB_div else Ok (z mod M)) (calls k query_seed).

(** test::run, lines 26-127, for one size [n]; [t] is the result of
    UINT64_MAX * density (line 37), [s] the function-local statics as earlier
    sizes left them. *)
Definition bitmap_bench (c : cfg) (f : fam) (bt : btype) (addr : Z) (s : statics) (n t : Z) (op : bench_op) (k runs measures : nat) : res (list Z) :=
  let ty := bench_type f bt n in
  let* '(bits, num_ones) := create_random_bits (repeat 0 (Z.to_nat ((n + 63) / 64))) t bits_seed in
  let* b := new_bitmap c ty addr bits in
  let* qs := make_queries k (match op with BSelect => num_ones | _ => n end) in
  bitmap_measures c ty op runs qs measures b s.

(** ** src/perf_prefix_sum.cpp *)

(** The strings compared with [operation], lines 74, 80, 90 and 96; any other
    string, also the "sarch" of line 54, reaches the assert of line 103. *)
Inductive tree_op := TSum | TUpdate | TSearch | TBuild | TOther.

(** Conversion of a number to the parameter [bool sign] of update. *)
Definition to_bool (d : Z) : bool := negb (d =? 0).

(** Line 81. *)
Definition deltas (i : Z) : Z := if i =? 0 then 1 else -1.

(** Line 77. *)
Definition sum_loop (c : cfg) (f : fam) (H : nat) (v : tview) (qs : list Z) (total : Z) : res Z :=
  foldM (fun total q => let* r := tree_sum c f H v q in Ok (u64 (total + r))) qs total.

(** Line 93. *)
Definition search_loop (c : cfg) (f : fam) (H : nat) (v : tview) (qs : list Z) (total : Z) : res Z :=
  foldM (fun total q => let* '(i, _) := tree_search c f H v q in Ok (u64 (total + i))) qs total.

(** Lines 84-86. *)
Definition update_loop (c : cfg) (f : fam) (H : nat) (addr n : Z) (qs : list Z) (m : list Z) : res (list Z) :=
  foldM (fun m q => tree_update c f H (tree_view H addr n m) q (to_bool (deltas (Z.land q 1)))) qs m.

(** measure(), lines 72-106: the buffer it leaves and the total it prints. *)
Definition tree_measure (c : cfg) (f : fam) (H : nat) (addr n : Z) (op : tree_op) (runs : nat) (qs m : list Z) : res (list Z * Z) :=
  let v := tree_view H addr n m in
  match op with
  | TSum => let* total := foldM (fun total _ => sum_loop c f H v qs total) (repeat tt runs) 0 in Ok (m, total)
  | TUpdate =>
      let* m := foldM (fun m _ => update_loop c f H addr n qs m) (repeat tt runs) m in
      let* total := tree_sum c f H (tree_view H addr n m) (n - 1) in Ok (m, total)
  | TSearch => let* total := foldM (fun total _ => search_loop c f H v qs total) (repeat tt runs) 0 in Ok (m, total)
  | TBuild => Ok (m, fold_left (fun total _ => query_loop qs total) (repeat tt runs) 0)
  | TOther => let* _ := massert (c_debug c) false in Ok (m, 0)
  end.

(** test::run, lines 33-143, for one size and arbitrary counters and queries
    (drawn there by essentials::uniform_int_rng, lines 46 and 61-64). *)
Definition tree_bench (c : cfg) (f : fam) (addr : Z) (input qs : list Z) (op : tree_op) (runs measures : nat) : res (list Z) :=
  let n := zlen input in
  let H := Z.to_nat (tree_height f n) in
  let* m := tree_build c f H input [] in
  let* '(_, outs) := foldM (fun '(m, outs) _ =>
      let* '(m, x) := tree_measure c f H addr n op runs qs m in Ok (m, outs ++ [x]))
    (repeat tt measures) (m, []) in
  Ok outs.

(** What the benchmark of the bitmap needs: a working type, enough bits, not too
    many blocks, an aligned index, and in a debug build counts the leaves accept. *)
Definition bench_ok (c : cfg) (f : fam) (bt : btype) (addr : Z) (s : statics) (n t : Z) : Prop :=
  supported bt = true /\ 193 <= n <= 2 ^ 24 * block_size bt /\ reachable_statics c bt s /\ index_addr_ok c (bench_type f bt n) addr /\
  debug_counts_ok c (bench_type f bt n) (bench_bits (block_size bt) n t).

(** The same for the benchmark of the trees. *)
Definition bench_addr_ok (c : cfg) (f : fam) (addr n : Z) : Prop :=
  f = F2 -> c_avx2 c = true -> c_trap c = true -> (addr + tree_height f n * 4) mod 32 = 0.
