(** C49-C51: the poppy index of include/poppy, as the benchmark of immutable
    bitmaps uses it (src/perf_immutable_bitmap.cpp). *)
From Verif Require Import Base Spec SpecPoppy Poppy PoppyProps.

(** ** C49: building the index; rank *)

(** The constructor fails or succeeds according to the two counts of ones. *)
Theorem C49_build : forall junk ws, poppy_size_ok ws ->
  if cdiv (scanned_ones ws) 8192 =? cdiv (covered_ones ws) 8192
  then exists t, wrapper_build junk ws = Ok t else wrapper_build junk ws = Ub UB_bounds.
Proof. exact build_exact. Qed.
Print Assumptions C49_build.
Example C49_build_case : poppy_size_ok one_first /\ cdiv (scanned_ones one_first) 8192 = cdiv (covered_ones one_first) 8192.
Proof. split; [exact one_first_ok|vm_compute; reflexivity]. Qed.

(** Whole groups of 2048 bits: it succeeds. *)
Theorem C49_build_multiple : forall junk ws, poppy_size_ok ws -> zlen ws mod 32 = 0 -> exists t, wrapper_build junk ws = Ok t.
Proof. exact build_multiple. Qed.
Print Assumptions C49_build_multiple.
Example C49_build_multiple_case : poppy_size_ok one_first /\ zlen one_first mod 32 = 0.
Proof. split; [exact one_first_ok|reflexivity]. Qed.

(** Other sizes: the heap array of select hints can be overrun. *)
Theorem C49_build_refuted : exists ws, poppy_size_ok ws /\ forall junk, wrapper_build junk ws = Ub UB_bounds.
Proof. exact (ex_intro _ loc_overflow (conj loc_overflow_ok build_overflows)). Qed.
Print Assumptions C49_build_refuted.

(** Less than 2048 bits: always undefined. *)
Theorem C49_build_small : forall junk ws, 64 * zlen ws < 2048 -> wrapper_build junk ws = Ub UB_bounds.
Proof. exact build_small. Qed.
Print Assumptions C49_build_small.
Example C49_build_small_case : 64 * zlen (repeat 5 4) = 256.
Proof. reflexivity. Qed.

(** rank(pos) counts, most significant bit of each word first, the ones among
    the first pos bits; positions the directory does not cover are undefined. *)
Theorem C49_rank : forall junk dbg ws t pos, poppy_size_ok ws -> wrapper_build junk ws = Ok t -> 0 <= pos <= 64 * zlen ws ->
  poppy_rank dbg t pos = if pos <? rank_bits (64 * zlen ws) then Ok (ones_before (bits_msb ws) pos) else Ub UB_bounds.
Proof. exact rank_exact. Qed.
Print Assumptions C49_rank.
Example C49_rank_case : exists t, wrapper_build (fun i => i) (map (fun i => i * 0x9E3779B97F4A7C1) (zrange 1 32)) = Ok t /\
  poppy_rank true t 1000 = Ok 525 /\ poppy_rank true t 2048 = Ub UB_bounds.
Proof. eexists. split; [vm_compute; reflexivity|]. split; vm_compute; reflexivity. Qed.

(** The wrapper's rank(i), for every i; in particular rank(size - 1) is undefined. *)
Theorem C49_wrapper_rank : forall junk dbg ws t i, poppy_size_ok ws -> wrapper_build junk ws = Ok t -> 0 <= i < 64 * zlen ws ->
  wrapper_rank dbg t i = if i + 1 <? rank_bits (64 * zlen ws) then Ok (rank_spec (bits_msb ws) i) else Ub UB_bounds.
Proof. exact rank_wrapper. Qed.
Print Assumptions C49_wrapper_rank.
Example C49_wrapper_rank_case : 2047 + 1 <? rank_bits (64 * 32) = false /\ 2046 + 1 <? rank_bits (64 * 32) = true.
Proof. split; reflexivity. Qed.

(** The order of bits is visible inside a word only. *)
Theorem C49_rank_boundaries : forall ws i, words_ok ws -> 0 <= i < 64 * zlen ws -> (i + 1) mod 64 = 0 ->
  rank_spec (bits_msb ws) i = rank_spec (bits_of_words ws) i.
Proof. exact rank_boundaries. Qed.
Print Assumptions C49_rank_boundaries.
Example C49_rank_boundaries_case : rank_spec (bits_msb [1; 6]) 63 = 1 /\ rank_spec (bits_of_words [1; 6]) 63 = 1 /\
  rank_spec (bits_msb [1; 6]) 66 = 1 /\ rank_spec (bits_of_words [1; 6]) 66 = 3.
Proof. repeat split; reflexivity. Qed.

(** The library's bitmaps and poppy number bits differently. *)
Theorem C49_rank_refuted : forall junk dbg, exists ws t i, poppy_size_ok ws /\ wrapper_build junk ws = Ok t /\
  0 <= i < 64 * zlen ws - 1 /\ wrapper_rank dbg t i <> Ok (rank_spec (bits_of_words ws) i).
Proof. exact rank_wrong. Qed.
Print Assumptions C49_rank_refuted.

(** The number of ones, the size and the space. *)
Theorem C49_counts : forall junk ws t, poppy_size_ok ws -> wrapper_build junk ws = Ok t ->
  p_count t = covered_ones ws /\ wrapper_size t = 64 * zlen ws /\
  wrapper_bytes t = 8 * zlen ws + 8 * (zlen ws / 32) + 4 * cdiv (covered_ones ws) 8192 + 52.
Proof. exact count_exact. Qed.
Print Assumptions C49_counts.
Example C49_counts_case : exists t, wrapper_build (fun i => i) ones_1 = Ok t /\ p_count t = 2 /\ wrapper_bytes t = 320.
Proof. eexists. split; [vm_compute; reflexivity|]. split; vm_compute; reflexivity. Qed.

(** ** C50: select *)

(** select(k) gives not the (k+1)-th one at p but the next one of the same word,
    or the end of the word; undefined after the last bit of a full word. *)
Theorem C50_select : forall junk dbg ws t k p, poppy_size_ok ws -> 64 * zlen ws <= 2 ^ 32 -> wrapper_build junk ws = Ok t ->
  0 <= k < covered_ones ws -> is_select (bits_of_words ws) k p ->
  if (zn 0 ws (p / 64) =? 2 ^ 64 - 1) && (p mod 64 =? 63) then wrapper_select dbg t k = Ub UB_shift
  else exists q, wrapper_select dbg t k = Ok q /\ next_in_word ws k p q.
Proof. exact select_exact. Qed.
Print Assumptions C50_select.
Example C50_select_case : exists t, wrapper_build (fun i => i) (3 :: (2 ^ 64 - 1) :: repeat 0 30) = Ok t /\
  wrapper_select true t 0 = Ok 1 /\ wrapper_select true t 1 = Ok 64 /\ wrapper_select true t 2 = Ok 65 /\
  wrapper_select true t 65 = Ub UB_shift.
Proof. eexists. split; [vm_compute; reflexivity|]. repeat split; vm_compute; reflexivity. Qed.

(** It never gives the position of the (k+1)-th one. *)
Theorem C50_select_never : forall junk dbg ws t k p, poppy_size_ok ws -> 64 * zlen ws <= 2 ^ 32 -> wrapper_build junk ws = Ok t ->
  0 <= k < covered_ones ws -> is_select (bits_of_words ws) k p -> wrapper_select dbg t k <> Ok p.
Proof. exact select_never_right. Qed.
Print Assumptions C50_select_never.
Example C50_select_never_case : poppy_size_ok ones_1 /\ is_select (bits_of_words ones_1) 1 1.
Proof. split; [exact ones_1_ok|]. repeat split; vm_compute; congruence. Qed.

(** select(0) of the class reads outside an array. *)
Theorem C50_select_zero : forall junk dbg ws t, poppy_size_ok ws -> wrapper_build junk ws = Ok t -> poppy_select dbg t 0 = Ub UB_bounds.
Proof. exact select_zero. Qed.
Print Assumptions C50_select_zero.
Example C50_select_zero_case : poppy_size_ok ones_1 /\ exists t, wrapper_build (fun i => i) ones_1 = Ok t.
Proof. split; [exact ones_1_ok|]. apply C49_build_multiple; [exact ones_1_ok|reflexivity]. Qed.

(** With the call of select64_popcount_search that popcount.h line 191 leaves as
    a comment, select is the exact inverse of rank. *)
Theorem C50_select_other : forall junk dbg ws t k p, poppy_size_ok ws -> 64 * zlen ws <= 2 ^ 32 -> wrapper_build junk ws = Ok t ->
  0 <= k < covered_ones ws -> is_select (bits_msb ws) k p ->
  poppy_select_with (fun x k => Ok (select64_popcount_search x k)) dbg t (k + 1) = Ok p.
Proof. exact select_other. Qed.
Print Assumptions C50_select_other.
Example C50_select_other_case : exists t, wrapper_build (fun i => i) (3 :: (2 ^ 64 - 1) :: repeat 0 30) = Ok t /\
  poppy_select_with (fun x k => Ok (select64_popcount_search x k)) true t 2 = Ok 63 /\
  is_select (bits_msb (3 :: (2 ^ 64 - 1) :: repeat 0 30)) 1 63.
Proof. eexists. split; [vm_compute; reflexivity|]. repeat split; vm_compute; congruence. Qed.

(** ** C51: the functions on one word *)
Theorem C51_suxpopcount : forall x, 0 <= x < 2 ^ 64 -> suxpopcount x = count_true (bits_of_word x).
Proof. exact sux_spec. Qed.
Print Assumptions C51_suxpopcount.
Example C51_suxpopcount_case : suxpopcount 0xF0F0F0F0F0F0F0F7 = 35.
Proof. reflexivity. Qed.

Theorem C51_naive : forall x k, 0 <= x < 2 ^ 64 ->
  if (1 <=? k) && (k <=? count_true (bits_of_word x)) then is_select (word_msb x) (k - 1) (select64_naive x k)
  else select64_naive x k = -1.
Proof. exact naive_spec. Qed.
Print Assumptions C51_naive.
Example C51_naive_case : select64_naive 0x8001000000000003 3 = 62 /\ select64_naive 0x8001000000000003 5 = -1.
Proof. split; reflexivity. Qed.

Theorem C51_popcount_search : forall x k, 0 <= x < 2 ^ 64 -> 1 <= k <= count_true (bits_of_word x) ->
  is_select (word_msb x) (k - 1) (select64_popcount_search x k).
Proof. exact search_spec. Qed.
Print Assumptions C51_popcount_search.
Example C51_popcount_search_case : count_true (bits_of_word 0x8001000000000003) = 4 /\ select64_popcount_search 0x8001000000000003 3 = 62.
Proof. split; reflexivity. Qed.

Theorem C51_pdep : forall x k, 0 <= x < 2 ^ 64 -> 0 <= k ->
  if k <? count_true (bits_of_word x) then exists r, select64_pdep_tzcnt x k = Ok r /\ is_select (bits_of_word x) k r
  else select64_pdep_tzcnt x k = if k <? 64 then Ok 64 else Ub UB_shift.
Proof. exact pdep_spec. Qed.
Print Assumptions C51_pdep.
Example C51_pdep_case : select64_pdep_tzcnt 0x8001000000000003 2 = Ok 48 /\ select64_pdep_tzcnt 0x8001000000000003 4 = Ok 64.
Proof. split; reflexivity. Qed.

Theorem C51_broadword : forall x k, 0 <= x < 2 ^ 64 -> 0 <= k < count_true (bits_of_word x) ->
  exists r, select64_broadword x k = Ok r /\ is_select (bits_of_word x) k r.
Proof. exact broadword_spec. Qed.
Print Assumptions C51_broadword.
Example C51_broadword_case : select64_broadword 0x8001000000000003 2 = Ok 48.
Proof. reflexivity. Qed.
