(** Model of the micro-benchmarks: src/perf_rank64.cpp, perf_rank256.cpp,
    perf_rank512.cpp, perf_select64.cpp, perf_select256.cpp, perf_select512.cpp,
    perf_search256.cpp, perf_search512.cpp, perf_prefix_sum256.cpp,
    perf_prefix_sum512.cpp, perf_popcnt256.cpp, perf_popcnt512.cpp,
    perf_popcnt_for_avx_select256.cpp and perf_popcnt_for_avx_select512.cpp.
    Timers, timings and the printed text other than the counts are not modelled. *)
From Verif Require Import Base Mem Tables Words Blocks Spec Bitmap Usage Random SpecKernel.

(** The files come in pairs for 256 and 512 bits; words per bucket. *)
Inductive width := W256 | W512.
Definition lanes (w : width) : nat := match w with W256 => 4 | W512 => 8 end.
(** prefixsum_m256i, prefixsum_m512i (common.hpp 318-334). *)
Definition vec_psum (w : width) : list Z -> list Z := match w with W256 => prefixsum_m256i | W512 => prefixsum_m512i end.

(** ** perf_search256.cpp 30-67, perf_search512.cpp 29-64 *)

(** select.hpp 145-148. *)
Inductive search_mode := SC_loop | SC_avx512.

(** The loop of lines 37-42 (36-41): the rest of [k] and the last [cnt]. *)
Fixpoint search_loop (x : wptr) (fuel : nat) (i k cnt : Z) : res (Z * Z) :=
  match fuel with
  | O => Ok (k, cnt)
  | S fuel' =>
      let* cnt := ldw x i in
      if k <? cnt then Ok (k, cnt) else search_loop x fuel' (i + 1) (u64 (k - cnt)) cnt
  end.

(** search_256, search_512; [sums] is the function-local static array, whose
    element 0 no store touches. *)
Definition search_kernel (c : cfg) (w : width) (m : search_mode) (sums : list Z) (x : wptr) (k : Z) : res (Z * list Z) :=
  match m with
  | SC_loop =>
      let* '(k, cnt) := search_loop x (lanes w) 0 k 0 in
      let* _ := massert (c_debug c) (k <? cnt) in
      Ok (k, sums)
  | SC_avx512 =>
      let* v := ldws x 0 (lanes w) in
      let msums := vec_psum w v in
      let mask := vcmple_mask msums (set1 64 (lanes w) k) in
      let* i := geti lt_cnt mask in
      let* sums := store_words sums 1 msums in
      let* s := geti sums i in
      Ok (u64 (k - s), sums)
  end.

(** ** perf_prefix_sum256.cpp 27-66, perf_prefix_sum512.cpp 26-69 *)

(** prefixsum_256, prefixsum_512; [sums] is the function-local static array. *)
Definition prefix_kernel (w : width) (m : prefixsum_mode) (sums : list Z) (x : wptr) (k : Z) : res (Z * list Z) :=
  match m with
  | PS_loop => let* s := sum_loop (ldw x) 0 (Z.to_nat (k + 1)) 0 in Ok (s, sums)
  | PS_unrolled =>
      let* v := ldw x 0 in
      let* sums := seti sums 0 v in
      let* sums := foldM (fun sums b =>
          let* p := geti sums (b - 1) in
          let* v := ldw x b in
          seti sums b (u64 (p + v)))
        (zrange 1 (lanes w - 1)) sums in
      let* r := geti sums k in
      Ok (r, sums)
  | PS_parallel =>
      let* v := ldws x 0 (lanes w) in
      let* sums := store_words sums 0 (vec_psum w v) in
      let* r := geti sums k in
      Ok (r, sums)
  end.

(** ** perf_popcnt256.cpp 27-59, perf_popcnt512.cpp 26-67 *)

(** popcount_256, popcount_512 for the modes broadword and builtin. *)
Definition popcnt_kernel (c : cfg) (w : width) (m : popcount_mode) (x : wptr) : res Z :=
  foldM (fun tmp j => let* v := ldw x j in let* p := popcount_u64 c m v in Ok (u64 (tmp + p))) (zrange 0 (lanes w)) 0.

(** avx2_popcount_256, avx512_popcount_512: a vector. *)
Definition popcnt_vec_kernel (w : width) (x : wptr) : res (list Z) :=
  let* v := ldws x 0 (lanes w) in Ok (popcount_vec v).

(** ** perf_popcnt_for_avx_select256.cpp 31-52, ...512.cpp 30-54 *)

(** popcount_256, popcount_512 returning vectors: [vec] false for the mode
    builtin with its static array, true for avx2. *)
Definition popsel_kernel (w : width) (vec : bool) (cnts : list Z) (x : wptr) : res (list Z * list Z) :=
  if vec then let* v := popcnt_vec_kernel w x in Ok (v, cnts)
  else
    let* cnts := foldM (fun cnts j => let* v := ldw x j in seti cnts j (popcount v)) (zrange 0 (lanes w)) cnts in
    Ok (firstn (lanes w) cnts, cnts).

(** ** perf_rank64.cpp 56-59 *)
Definition rank64_kernel (x : wptr) (k : Z) : res Z :=
  let* w := ldw x 0 in
  let* t := shl64 1 k in
  let mask := u64 (b2z (negb (k =? 0)) * t - 1) in
  Ok (popcount (Z.land w mask)).

(** ** The programs *)

(** One constructor per source file (pair of files) with the mode its command
    line chooses.  [KPopcntVec]: the modes avx2 and avx512 of perf_popcnt. *)
Inductive kprog :=
| KRank64 | KRank (w : width) (m : rank_mode)
| KSelect64 (m : select64_mode) | KSelect (w : width) (m : select_mode)
| KSearch (w : width) (m : search_mode) | KPrefix (w : width) (m : prefixsum_mode)
| KPopcnt (w : width) (m : popcount_mode) | KPopcntVec (w : width) | KPopsel (w : width) (vec : bool).

(** Function-local statics: those of the rank function (of the measured one, or
    of rank_u256/rank_u512<broadword_unrolled> when queries are drawn), of the
    select function, and [sums] or [cnts] of the file itself. *)
Record kstat := { ks_rank : stat; ks_select : stat; ks_own : list Z }.

(** Zero-initialised, with the sizes declared. *)
Definition kstat_init (p : kprog) : kstat :=
  let n := match p with
           | KRank64 | KSelect64 _ => 1%nat
           | KRank w _ | KSelect w _ | KSearch w _ | KPrefix w _ | KPopcnt w _ | KPopcntVec w | KPopsel w _ => lanes w
           end in
  {| ks_rank := stat_init n; ks_select := stat_init n;
     ks_own := repeat 0 (match p with KSearch _ _ => S n | _ => n end) |}.

Definition rank_w (c : cfg) (w : width) := match w with W256 => rank_u256 c | W512 => rank_u512 c end.
Definition select_w (c : cfg) (w : width) := match w with W256 => select_u256 c | W512 => select_u512 c end.

(** The measured call: what is added to [tmp]; for perf_popcnt_for_avx_select
    lane 0 of the vector, the only one printed (perf_popcnt_for_avx_select256.cpp
    line 86; lanes of _mm256_add_epi64 do not mix).  [KPopcntVec] is measured
    differently, below. *)
Definition kcall (c : cfg) (p : kprog) (s : kstat) (x : wptr) (k : Z) : res (Z * kstat) :=
  let rank st := {| ks_rank := st; ks_select := ks_select s; ks_own := ks_own s |} in
  let sel st := {| ks_rank := ks_rank s; ks_select := st; ks_own := ks_own s |} in
  let own l := {| ks_rank := ks_rank s; ks_select := ks_select s; ks_own := l |} in
  match p with
  | KRank64 => let* r := rank64_kernel x k in Ok (r, s)                        (* perf_rank64.cpp 56-59 *)
  | KRank w m => let* '(r, st) := rank_w c w m (ks_rank s) x k in Ok (r, rank st)        (* perf_rank256.cpp 59 *)
  | KSelect64 m => let* v := ldw x 0 in let* r := select_u64 c m v k in Ok (r, s)        (* perf_select64.cpp 56-58 *)
  | KSelect w m => let* '(r, st) := select_w c w m (ks_select s) x k in Ok (r, sel st)   (* perf_select256.cpp 61 *)
  | KSearch w m => let* '(r, l) := search_kernel c w m (ks_own s) x k in Ok (r, own l)   (* perf_search256.cpp 109 *)
  | KPrefix w m => let* '(r, l) := prefix_kernel w m (ks_own s) x k in Ok (r, own l)     (* perf_prefix_sum256.cpp 101 *)
  | KPopcnt w m => let* r := popcnt_kernel c w m x in Ok (r, s)                          (* perf_popcnt256.cpp 89 *)
  | KPopcntVec w => let* v := popcnt_vec_kernel w x in Ok (zn 0 v 0, s)
  | KPopsel w vec => let* '(v, l) := popsel_kernel w vec (ks_own s) x in Ok (zn 0 v 0, own l)  (* ...select256.cpp 81 *)
  end.

(** Bits per bucket; perf_rank64.cpp line 44 takes buckets of 256 bits. *)
Definition bucket_bits (p : kprog) : Z :=
  match p with
  | KRank64 => 256
  | KSelect64 _ => 64
  | KRank w _ | KSelect w _ | KSearch w _ | KPrefix w _ | KPopcnt w _ | KPopcntVec w | KPopsel w _ => 64 * Z.of_nat (lanes w)
  end.

(** [(hasher.next() % num_buckets) * bits / 64] for the number [z]. *)
Definition bucket_word (p : kprog) (n z : Z) : res Z :=
  let num_buckets := n / bucket_bits p in
  if num_buckets =? 0 then Ub UB_div else Ok (u64 (z mod num_buckets * bucket_bits p) / 64).

(** [z % m] in a query. *)
Definition modm (z m : Z) : res Z := if m =? 0 then Ub UB_div else Ok (z mod m).

(** The loops that draw the queries: perf_rank256.cpp 44-47, perf_rank64.cpp
    47-50, perf_prefix_sum256.cpp 85-88, perf_popcnt256.cpp 76-78,
    perf_popcnt_for_avx_select256.cpp 70-72 (no second number), perf_search256.cpp
    88-92 (remainder by the sum of the bucket, not guarded), perf_select256.cpp
    44-49 and perf_select64.cpp 45-49 (guarded: a bucket without ones is drawn
    again).  A query is a word index and an argument.  [x] is the state of the
    generator; [fuel] bounds the number of rounds. *)
Fixpoint queries (c : cfg) (p : kprog) (arr : list Z) (n : Z) (fuel nq : nat) (s : kstat) (x : Z) : res (list (Z * Z) * kstat) :=
  match nq with
  | O => Ok ([], s)
  | S nq' =>
      match fuel with
      | O => Ub UB_loop
      | S fuel' =>
          let '(z, x) := sm_next x in
          let* o := bucket_word p n z in
          let again := queries c p arr n fuel' nq in
          let next q s x := (let* '(qs, s) := queries c p arr n fuel' nq' s x in Ok (q :: qs, s)) in
          let fixed m := (let '(z, x) := sm_next x in let* k := modm z m in next (o, k) s x) in
          let guarded r s := if r =? 0 then again s x
                             else let '(z, x) := sm_next x in let* k := modm z r in next (o, k) s x in
          match p with
          | KRank64 => fixed 64
          | KRank w _ => fixed (64 * Z.of_nat (lanes w))
          | KPrefix w _ => fixed (Z.of_nat (lanes w))
          | KPopcnt _ _ | KPopcntVec _ | KPopsel _ _ => next (o, 0) s x
          | KSearch w _ =>
              let* r := sum_loop (ldw {| w_arr := arr; w_off := o |}) 0 (lanes w) 0 in fixed r
          | KSelect64 _ => let* v := ldw {| w_arr := arr; w_off := o |} 0 in guarded (popcount v) s
          | KSelect w _ =>
              let* '(r, st) := rank_w c w RM_broadword_unrolled (ks_rank s) {| w_arr := arr; w_off := o |} (bucket_bits p - 1) in
              guarded r {| ks_rank := st; ks_select := ks_select s; ks_own := ks_own s |}
          end
      end
  end.

(** measure(): perf_rank256.cpp 52-65 and its copies; the number printed after
    "# ignore: ".  The vector modes of perf_popcnt (perf_popcnt256.cpp 95-107)
    keep the last vector only; [junk] is the uninitialised variable. *)
Definition kmeasure (c : cfg) (p : kprog) (arr : list Z) (junk : Z) (runs : nat) (qs : list (Z * Z)) (s : kstat) : res (kstat * Z) :=
  foldM (fun st (_ : unit) => foldM (fun '(s, tmp) '(o, k) =>
      let* '(r, s) := kcall c p s {| w_arr := arr; w_off := o |} k in
      Ok (s, match p with KPopcntVec _ => r | _ => u64 (tmp + r) end)) qs st)
    (repeat tt runs) (s, match p with KPopcntVec _ => junk | _ => 0 end).

(** The calls of measure() for one size. *)
Definition kmeasures (c : cfg) (p : kprog) (arr : list Z) (junk : Z) (runs : nat) (qs : list (Z * Z)) (measures : nat) (s : kstat) : res (kstat * list Z) :=
  foldM (fun '(s, outs) (_ : unit) => let* '(s, x) := kmeasure c p arr junk runs qs s in Ok (s, outs ++ [x]))
    (repeat tt measures) (s, []).

(** test(): perf_rank256.cpp 27-114 and its copies; the number of ones and the
    numbers printed, for the array [sizes] of the file.  [t] is the result of
    UINT64_MAX * density.  perf_search counts the ones of each word first
    (perf_search256.cpp 76-85). *)
Definition micro_bench (c : cfg) (p : kprog) (junk t : Z) (sizes : list Z) (fuel nq runs measures : nat) : res (Z * list Z) :=
  let* '(bits, num_ones) := create_random_bits (repeat 0 (Z.to_nat (last sizes 0 / 64))) t 13 in
  let arr := match p with KSearch _ _ => map popcount bits | _ => bits end in
  let* '(_, outs) := foldM (fun '(s, outs) n =>
      let* '(qs, s) := queries c p arr n fuel nq s 71 in
      let* '(s, o) := kmeasures c p arr junk runs qs measures s in
      Ok (s, outs ++ o)) sizes (kstat_init p, []) in
  Ok (num_ones, outs).

(** What each program asks; the mode does not matter. *)
Definition asks (p : kprog) : question :=
  match p with
  | KRank64 => ask_rank64
  | KRank w _ => ask_rank (64 * Z.of_nat (lanes w))
  | KSelect64 _ => ask_select 64
  | KSelect w _ => ask_select (64 * Z.of_nat (lanes w))
  | KSearch w _ => ask_search (64 * Z.of_nat (lanes w))
  | KPrefix w _ => ask_prefix (64 * Z.of_nat (lanes w))
  | KPopcnt w _ => ask_count (64 * Z.of_nat (lanes w))
  | KPopcntVec w | KPopsel w _ => ask_first (64 * Z.of_nat (lanes w))
  end.

(** Modes with an implementation; the command lines offer no others. *)
Definition prog_ok (p : kprog) : bool :=
  match p with
  | KRank W256 m => rank256_supported m
  | KRank W512 m => rank512_supported m
  | KSelect W256 m => select256_supported m
  | KSelect W512 m => select512_supported m
  | KPopcnt _ m => match m with PC_broadword | PC_builtin => true | _ => false end
  | _ => true
  end.

(** The array [sizes] of the source files satisfies this: 2^8 (or 2^9) .. 2^32. *)
Definition sizes_ok (p : kprog) (sizes : list Z) : Prop :=
  last sizes 0 < 2 ^ 64 /\ Forall (fun n => 256 <= n /\ bucket_bits p <= n <= last sizes 0) sizes.

(** Not a vector mode of perf_popcnt. *)
Definition not_vec (p : kprog) : Prop := match p with KPopcntVec _ => False | _ => True end.

(** Notation for the statements and two configurations for the examples. *)
Notation width_words w := (Z.of_nat (lanes w)).
Notation words_at arr o := {| w_arr := arr; w_off := o |} (only parsing).
Definition release_build : cfg := {| c_debug := false; c_avx2 := true; c_avx512 := true; c_trap := false |}.
Definition debug_build : cfg := {| c_debug := true; c_avx2 := true; c_avx512 := true; c_trap := false |}.
