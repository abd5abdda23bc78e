(** C52-C57: the micro-benchmarks src/perf_search*.cpp, perf_prefix_sum*.cpp,
    perf_popcnt*.cpp, perf_rank64.cpp, perf_rank256.cpp, perf_rank512.cpp,
    perf_select64.cpp, perf_select256.cpp, perf_select512.cpp. *)
From Verif Require Import Base Mem Tables Words Blocks Spec SpecRandom SpecIndex SpecPerf SpecKernel Random Bitmap Usage Kernels KernelFacts KernelFacts2.

(** ** C52: searching in 4 or 8 words *)

(** What is left of k after the words before the one that exceeds it; the static
    array keeps what the next call needs. *)
Theorem C52_search : forall c w m sums arr o k,
  words_ok arr -> 0 <= o -> o + width_words w <= zlen arr -> length sums = S (lanes w) -> zn 0 sums 0 = 0 ->
  let x := slice arr o (width_words w) in
  0 <= k < psum x (width_words w) -> k < 2 ^ 64 -> (m = SC_avx512 -> psum x (width_words w) < 2 ^ 63) ->
  exists i s sums', is_search x k (i, s) /\ search_kernel c w m sums (words_at arr o) k = Ok (k - s, sums') /\
    length sums' = S (lanes w) /\ zn 0 sums' 0 = 0.
Proof. exact k_search_in. Qed.
Print Assumptions C52_search.
Example C52_search_case :
  let x := slice [7; 3; 0; 5; 2 ^ 62; 1] 1 4 in
  words_ok [7; 3; 0; 5; 2 ^ 62; 1] /\ psum x 4 = 8 + 2 ^ 62 /\ is_search x 7 (2, 3) /\
  search_kernel debug_build W256 SC_avx512 [0; 9; 9; 9; 9] (words_at [7; 3; 0; 5; 2 ^ 62; 1] 1) 7 = Ok (4, [0; 3; 3; 8; 8 + 2 ^ 62]) /\
  search_kernel debug_build W256 SC_loop [0; 9; 9; 9; 9] (words_at [7; 3; 0; 5; 2 ^ 62; 1] 1) 7 = Ok (4, [0; 9; 9; 9; 9]).
Proof. split; [repeat constructor; cbn; lia|]. vm_compute. repeat split; discriminate. Qed.

(** Past the total: the rest is what remains after all words; the assertion of
    the loop compares it with the last word only. *)
Theorem C52_search_past : forall c w m sums arr o k,
  words_ok arr -> 0 <= o -> o + width_words w <= zlen arr -> length sums = S (lanes w) -> zn 0 sums 0 = 0 ->
  let T := psum (slice arr o (width_words w)) (width_words w) in T <= k < 2 ^ 64 ->
  match m with
  | SC_loop => search_kernel c w m sums (words_at arr o) k =
      if c_debug c && (zn 0 arr (o + width_words w - 1) <=? k - T) then AssertFail else Ok (k - T, sums)
  | SC_avx512 => k < 2 ^ 63 -> exists sums', search_kernel c w m sums (words_at arr o) k = Ok (k - T, sums') /\
      length sums' = S (lanes w) /\ zn 0 sums' 0 = 0
  end.
Proof. exact k_search_past. Qed.
Print Assumptions C52_search_past.
Example C52_search_past_case : words_ok [1; 1; 1; 9] /\ psum (slice [1; 1; 1; 9] 0 4) 4 = 12 /\ 12 <= 15 < 2 ^ 63.
Proof. split; [repeat constructor; cbn; lia|]. split; [reflexivity|lia]. Qed.

(** A debug build does not notice every k past the total. *)
Theorem C52_search_asserts_refuted : exists arr k, words_ok arr /\ zlen arr = 4 /\ psum arr 4 <= k /\
  search_kernel debug_build W256 SC_loop [0; 0; 0; 0; 0] (words_at arr 0) k = Ok (3, [0; 0; 0; 0; 0]).
Proof. exists [1; 1; 1; 9], 15. split; [repeat constructor; cbn; lia|]. vm_compute. repeat split; discriminate. Qed.
Print Assumptions C52_search_asserts_refuted.

(** With sums from 2^63 on the modes differ: the vector comparison is signed. *)
Theorem C52_search_modes_refuted : exists arr k, words_ok arr /\ zlen arr = 4 /\ 0 <= k < psum arr 4 /\ psum arr 4 < 2 ^ 64 /\
  search_kernel release_build W256 SC_loop [0; 0; 0; 0; 0] (words_at arr 0) k = Ok (0, [0; 0; 0; 0; 0]) /\
  search_kernel release_build W256 SC_avx512 [0; 0; 0; 0; 0] (words_at arr 0) k = Ok (2 ^ 63, [0; 2 ^ 63; 2 ^ 63; 2 ^ 63; 2 ^ 63]).
Proof. exists [2 ^ 63; 0; 0; 0], 0. split; [repeat constructor; cbn; lia|]. vm_compute. repeat split; discriminate. Qed.
Print Assumptions C52_search_modes_refuted.

(** ** C53: prefix sums of 4 or 8 words *)
Theorem C53_prefix_sum : forall w m sums arr o k,
  words_ok arr -> 0 <= o -> o + width_words w <= zlen arr -> length sums = lanes w -> 0 <= k < width_words w ->
  exists sums', prefix_kernel w m sums (words_at arr o) k = Ok (psum (slice arr o (width_words w)) (k + 1) mod 2 ^ 64, sums') /\ length sums' = lanes w.
Proof. exact k_prefix. Qed.
Print Assumptions C53_prefix_sum.
Example C53_prefix_sum_case :
  let arr := [5; 2 ^ 64 - 1; 3; 4; 5; 6; 7; 8; 9] in
  words_ok arr /\ psum (slice arr 1 8) 4 mod 2 ^ 64 = 11 /\
  prefix_kernel W512 PS_parallel (repeat 0 8) (words_at arr 1) 3 = Ok (11, [2 ^ 64 - 1; 2; 6; 11; 17; 24; 32; 41]) /\
  prefix_kernel W512 PS_loop (repeat 0 8) (words_at arr 1) 3 = Ok (11, repeat 0 8).
Proof. split; [repeat constructor; cbn; lia|]. vm_compute. repeat split; discriminate. Qed.

(** Beyond the last word: the loop reads on while the array lasts; the other
    modes read outside their static array. *)
Theorem C53_prefix_sum_past : forall w m sums arr o k,
  words_ok arr -> 0 <= o -> o + width_words w <= zlen arr -> length sums = lanes w -> width_words w <= k < 2 ^ 64 - 1 ->
  prefix_kernel w m sums (words_at arr o) k =
    match m with
    | PS_loop => if o + k <? zlen arr then Ok (psum (slice arr o (k + 1)) (k + 1) mod 2 ^ 64, sums) else Ub UB_bounds
    | _ => Ub UB_bounds
    end.
Proof. exact k_prefix_past. Qed.
Print Assumptions C53_prefix_sum_past.
Example C53_prefix_sum_past_case : words_ok [1; 2; 3; 4; 5] /\ prefix_kernel W256 PS_loop (repeat 0 4) (words_at [1; 2; 3; 4; 5] 0) 4 = Ok (15, repeat 0 4).
Proof. split; [repeat constructor; cbn; lia|reflexivity]. Qed.

(** ** C54: counting ones in 4 or 8 words *)
Theorem C54_popcount : forall c w m arr o, (m = PC_broadword \/ m = PC_builtin) ->
  words_ok arr -> 0 <= o -> o + width_words w <= zlen arr ->
  popcnt_kernel c w m (words_at arr o) = Ok (count_true (bits_of_words (slice arr o (width_words w)))).
Proof. exact k_popcnt. Qed.
Print Assumptions C54_popcount.
Example C54_popcount_case : words_ok [0; 2 ^ 64 - 1; 5; 0; 1] /\ popcnt_kernel release_build W256 PC_broadword (words_at [0; 2 ^ 64 - 1; 5; 0; 1] 1) = Ok 67.
Proof. split; [repeat constructor; cbn; lia|vm_compute; reflexivity]. Qed.

(** The vector modes: one count per word. *)
Theorem C54_popcount_vector : forall w arr o, words_ok arr -> 0 <= o -> o + width_words w <= zlen arr ->
  popcnt_vec_kernel w (words_at arr o) = Ok (map (fun v => count_true (bits_of_word v)) (slice arr o (width_words w))).
Proof. exact k_popcnt_vec. Qed.
Print Assumptions C54_popcount_vector.
Example C54_popcount_vector_case : words_ok [0; 2 ^ 64 - 1; 5; 0; 1] /\ popcnt_vec_kernel W256 (words_at [0; 2 ^ 64 - 1; 5; 0; 1] 1) = Ok [64; 2; 0; 1].
Proof. split; [repeat constructor; cbn; lia|vm_compute; reflexivity]. Qed.

(** perf_popcnt_for_avx_select: both modes, whatever the static array holds. *)
Theorem C54_popcount_for_select : forall w vec cnts arr o, words_ok arr -> 0 <= o -> o + width_words w <= zlen arr -> length cnts = lanes w ->
  exists cnts', popsel_kernel w vec cnts (words_at arr o) = Ok (map (fun v => count_true (bits_of_word v)) (slice arr o (width_words w)), cnts') /\ length cnts' = lanes w.
Proof. exact k_popsel. Qed.
Print Assumptions C54_popcount_for_select.
Example C54_popcount_for_select_case : words_ok [3; 0; 7; 1] /\ popsel_kernel W256 false [9; 9; 9; 9] (words_at [3; 0; 7; 1] 0) = Ok ([2; 0; 3; 1], [2; 0; 3; 1]).
Proof. split; [repeat constructor; cbn; lia|vm_compute; reflexivity]. Qed.

(** ** C55: the rank of perf_rank64.cpp *)

(** Ones before position k, but all ones for k = 0. *)
Theorem C55_rank64 : forall arr o k, words_ok arr -> 0 <= o < zlen arr -> 0 <= k < 64 ->
  rank64_kernel (words_at arr o) k =
    Ok (if k =? 0 then count_true (bits_of_word (zn 0 arr o)) else ones_before (bits_of_word (zn 0 arr o)) k).
Proof. exact k_rank64. Qed.
Print Assumptions C55_rank64.
(** So it is the rank of block64_type at k-1, cyclically. *)
Theorem C55_rank64_block : forall arr o k, words_ok arr -> 0 <= o < zlen arr -> 0 <= k < 64 ->
  rank64_kernel (words_at arr o) k = rank_b64 (words_at arr o) ((k - 1) mod 64).
Proof. exact k_rank64_block. Qed.
Print Assumptions C55_rank64_block.
Example C55_rank64_case : words_ok [0; 13] /\ map (rank64_kernel (words_at [0; 13] 1)) [0; 1; 2; 3; 4] = [Ok 3; Ok 1; Ok 1; Ok 2; Ok 3].
Proof. split; [repeat constructor; cbn; lia|vm_compute; reflexivity]. Qed.
Example C55_rank64_block_case : words_ok [0; 13] /\ map (rank_b64 (words_at [0; 13] 1)) [63; 0; 1; 2; 3] = [Ok 3; Ok 1; Ok 1; Ok 2; Ok 3].
Proof. split; [repeat constructor; cbn; lia|vm_compute; reflexivity]. Qed.
(** It is not the rank the library computes for the same argument. *)
Theorem C55_rank64_refuted : exists w k k', 0 <= w < 2 ^ 64 /\ 0 <= k < k' /\ k' < 64 /\
  rank64_kernel (words_at [w] 0) k' <> rank_b64 (words_at [w] 0) k' /\
  exists r r', rank64_kernel (words_at [w] 0) k = Ok r /\ rank64_kernel (words_at [w] 0) k' = Ok r' /\ r' < r.
Proof. exists 6, 0, 1. vm_compute. repeat split; try discriminate. exists 2, 0. auto. Qed.
Print Assumptions C55_rank64_refuted.

(** ** C56: what the benchmarks print *)

(** Runs times the sum of the answers to the queries drawn for each size. *)
Theorem C56_totals : forall c p junk t sizes nq runs measures qss,
  prog_ok p = true -> not_vec p -> sizes <> [] -> sizes_ok p sizes ->
  let B := micro_bits (64 * (last sizes 0 / 64)) t in
  Forall2 (fun n qs => asked (asks p) B n 0 nq qs) sizes qss ->
  exists F, forall fuel, (F <= fuel)%nat ->
    micro_bench c p junk t sizes fuel nq runs measures =
      Ok (count_true B, concat (map (fun qs => repeat ((Z.of_nat runs * total (answers (asks p) B qs)) mod 2 ^ 64) measures) qss)).
Proof. exact micro_prints. Qed.
Print Assumptions C56_totals.

(** The vector modes of perf_popcnt print the number of ones of the first word
    of the last query. *)
Theorem C56_vector_last : forall c w junk t sizes nq runs measures qss,
  sizes <> [] -> sizes_ok (KPopcntVec w) sizes ->
  let B := micro_bits (64 * (last sizes 0 / 64)) t in
  Forall2 (fun n qs => asked (asks (KPopcntVec w)) B n 0 nq qs) sizes qss -> (0 < runs)%nat ->
  exists F, forall fuel, (F <= fuel)%nat ->
    micro_bench c (KPopcntVec w) junk t sizes fuel nq runs measures =
      Ok (count_true B, concat (map (fun qs => repeat (last (answers (asks (KPopcntVec w)) B qs) junk) measures) qss)).
Proof. exact micro_vec. Qed.
Print Assumptions C56_vector_last.

(** Modes of one program print the same numbers, in all builds. *)
Theorem C56_modes_agree : forall c c' p p' junk junk' t sizes nq runs measures,
  prog_ok p = true -> prog_ok p' = true -> not_vec p -> not_vec p' -> asks p = asks p' -> sizes <> [] -> sizes_ok p sizes ->
  exists F, forall fuel, (F <= fuel)%nat ->
    micro_bench c p junk t sizes fuel nq runs measures = micro_bench c' p' junk' t sizes fuel nq runs measures.
Proof. exact micro_modes. Qed.
Print Assumptions C56_modes_agree.
Example C56_modes_agree_case :
  asks (KSelect W256 SM_builtin_loop_pdep) = asks (KSelect W256 SM_avx2_avx512_pdep) /\
  prog_ok (KSelect W256 SM_builtin_loop_pdep) = true /\ prog_ok (KSelect W256 SM_avx2_avx512_pdep) = true /\ sizes_ok (KSelect W256 SM_avx2_avx512_pdep) [256; 512] /\
  micro_bench release_build (KSelect W256 SM_builtin_loop_pdep) 0 (2 ^ 63) [256; 512] 10 3 2 2 = Ok (233, [826; 826; 576; 576]) /\
  micro_bench debug_build (KSelect W256 SM_avx2_avx512_pdep) 0 (2 ^ 63) [256; 512] 10 3 2 2 = Ok (233, [826; 826; 576; 576]).
Proof. split; [reflexivity|]. split; [reflexivity|]. split; [reflexivity|]. split; [split; [cbn; lia|repeat constructor; cbn; lia]|]. split; vm_compute; reflexivity. Qed.
Example C56_totals_case :
  prog_ok (KSearch W256 SC_avx512) = true /\ not_vec (KSearch W256 SC_avx512) /\ sizes_ok (KSearch W256 SC_avx512) [256; 512] /\
  micro_bench debug_build (KSearch W256 SC_avx512) 0 (2 ^ 63) [256; 512] 5 3 2 2 = Ok (233, [86; 86; 76; 76]).
Proof. split; [reflexivity|]. split; [exact I|]. split; [split; [cbn; lia|repeat constructor; cbn; lia]|]. vm_compute. reflexivity. Qed.
Example C56_vector_last_case :
  sizes_ok (KPopcntVec W256) [256; 512] /\
  micro_bench debug_build (KPopcntVec W256) 77 (2 ^ 63) [256; 512] 5 3 2 2 = Ok (233, [31; 31; 27; 27]).
Proof. split; [split; [cbn; lia|repeat constructor; cbn; lia]|]. vm_compute. reflexivity. Qed.

(** The vector modes do not agree with the others. *)
Theorem C56_vector_refuted : exists t sizes o o', sizes_ok (KPopcnt W256 PC_builtin) sizes /\
  micro_bench release_build (KPopcnt W256 PC_builtin) 0 t sizes 5 3 1 1 = Ok o /\
  micro_bench release_build (KPopcntVec W256) 0 t sizes 5 3 1 1 = Ok o' /\ o <> o'.
Proof. exists (2 ^ 63), [256], (123, [369]), (123, [31]). split; [split; [cbn; lia|repeat constructor; cbn; lia]|]. split; [vm_compute; reflexivity|]. split; [vm_compute; reflexivity|discriminate]. Qed.
Print Assumptions C56_vector_refuted.

(** ** C57: drawing the queries *)

(** All programs but perf_search: the loops end, for every density, and the list
    of queries is determined. *)
Theorem C57_queries_end : forall p t sizes nq, sizes <> [] -> sizes_ok p sizes -> (forall w m, p <> KSearch w m) ->
  exists qss, Forall2 (fun n qs => asked (asks p) (micro_bits (64 * (last sizes 0 / 64)) t) n 0 nq qs) sizes qss.
Proof. exact micro_asked. Qed.
Print Assumptions C57_queries_end.
Example C57_queries_end_case : sizes_ok (KSelect W256 SM_builtin_loop_pdep) [256; 512; 1024] /\
  micro_bench debug_build (KSelect W256 SM_builtin_loop_pdep) 0 0 [256; 512] 10 3 2 1 = Ok (1, [0; 0]).
Proof. split; [split; [cbn; lia|repeat constructor; cbn; lia]|]. vm_compute. reflexivity. Qed.

Theorem C57_queries_unique : forall q B n pos k qs, asked q B n pos k qs -> forall qs', asked q B n pos k qs' -> qs = qs'.
Proof. exact asked_unique. Qed.
Print Assumptions C57_queries_unique.

(** They stay inside the array and below what the functions accept. *)
Theorem C57_queries_in_range : forall p B n pos nq qs, asked (asks p) B n pos nq qs -> q_bits (asks p) <= n ->
  Forall (fun '(j, k) => 0 <= j /\ q_bits (asks p) * (j + 1) <= n /\
    match q_arg (asks p) with ANone => k = 0 | ABelow m => 0 <= k < m | AOnes _ => 0 <= k < count_true (bucket (asks p) B j) end) qs /\ length qs = nq.
Proof. exact asked_in_range. Qed.
Print Assumptions C57_queries_in_range.
Example C57_queries_case : exists k, asked ask_rank64 (repeat true 512) 512 0 1 [(1, k)].
Proof. exists (draw 71 1 mod 64). eapply (asked_below _ _ _ 0 0 [] 1 64); [reflexivity|vm_compute; reflexivity|constructor]. Qed.

(** perf_search: a division by zero exactly if a bucket without ones is drawn. *)
Theorem C57_search_division : forall c w m junk t sizes nq runs measures, sizes <> [] -> sizes_ok (KSearch w m) sizes ->
  let B := micro_bits (64 * (last sizes 0 / 64)) t in
  (Exists (empty_drawn (asks (KSearch w m)) B nq) sizes ->
     exists F, forall fuel, (F <= fuel)%nat -> micro_bench c (KSearch w m) junk t sizes fuel nq runs measures = Ub UB_div) /\
  (~ Exists (empty_drawn (asks (KSearch w m)) B nq) sizes ->
     exists qss, Forall2 (fun n qs => asked (asks (KSearch w m)) B n 0 nq qs) sizes qss).
Proof. exact micro_search_exact. Qed.
Print Assumptions C57_search_division.
Example C57_search_division_case : sizes_ok (KSearch W512 SC_loop) [512; 1024].
Proof. split; [cbn; lia|repeat constructor; cbn; lia]. Qed.
Theorem C57_search_refuted : exists t sizes, sizes_ok (KSearch W256 SC_loop) sizes /\
  micro_bench release_build (KSearch W256 SC_loop) 0 t sizes 5 3 1 1 = Ub UB_div.
Proof. exists 0, [256; 512]. split; [split; [cbn; lia|repeat constructor; cbn; lia]|]. vm_compute. reflexivity. Qed.
Print Assumptions C57_search_refuted.
