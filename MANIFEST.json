{"claims": [
  {"property": "C01", "status": "proved", "theorems": ["C01_rank_after_any_history"], "note": "Within the limits of `history` (Usage.v): supported modes, 1..2^24 blocks, matching Height, index address accepted by the aligned load (C27), debug leaf assertion respected (C25), and no select of a rank lost to the height-4 avx2 root (exactly the ranks of C26)."},
  {"property": "C02", "status": "proved", "theorems": ["C02_select_after_any_history"], "note": "Within the limits of `history` (Usage.v): supported modes, 1..2^24 blocks, matching Height, index address accepted by the aligned load (C27), debug leaf assertion respected (C25), and no select of a rank lost to the height-4 avx2 root (exactly the ranks of C26)."},
  {"property": "C03", "status": "proved", "theorems": ["C03_access_after_any_history"], "note": "Within the limits of `history` (Usage.v): supported modes, 1..2^24 blocks, matching Height, index address accepted by the aligned load (C27), debug leaf assertion respected (C25), and no select of a rank lost to the height-4 avx2 root (exactly the ranks of C26)."},
  {"property": "C04", "status": "proved", "theorems": ["C04_flip_frame"], "note": "Within the limits of `history` (Usage.v): supported modes, 1..2^24 blocks, matching Height, index address accepted by the aligned load (C27), debug leaf assertion respected (C25), and no select of a rank lost to the height-4 avx2 root (exactly the ranks of C26)."},
  {"property": "C05", "status": "proved", "theorems": ["C05_build_contents"], "note": "Within the limits of `history` (Usage.v): supported modes, 1..2^24 blocks, matching Height, index address accepted by the aligned load (C27), debug leaf assertion respected (C25), and no select of a rank lost to the height-4 avx2 root (exactly the ranks of C26)."},
  {"property": "C06", "status": "proved", "theorems": ["C06_rank_of_select", "C06_select_of_rank"], "note": "Within the limits of `history` (Usage.v): supported modes, 1..2^24 blocks, matching Height, index address accepted by the aligned load (C27), debug leaf assertion respected (C25), and no select of a rank lost to the height-4 avx2 root (exactly the ranks of C26)."},
  {"property": "C07", "status": "proved", "theorems": ["C07_flip_twice"], "note": "Within the limits of `history` (Usage.v): supported modes, 1..2^24 blocks, matching Height, index address accepted by the aligned load (C27), debug leaf assertion respected (C25), and no select of a rank lost to the height-4 avx2 root (exactly the ranks of C26)."},
  {"property": "C08", "status": "proved", "theorems": ["C08_no_undefined_behaviour"], "note": "Within the limits of `history` (Usage.v): supported modes, 1..2^24 blocks, matching Height, index address accepted by the aligned load (C27), debug leaf assertion respected (C25), and no select of a rank lost to the height-4 avx2 root (exactly the ranks of C26)."},
  {"property": "C09", "status": "proved", "theorems": ["C09_no_assertion_failure"], "note": "Within the limits of `history` (Usage.v): supported modes, 1..2^24 blocks, matching Height, index address accepted by the aligned load (C27), debug leaf assertion respected (C25), and no select of a rank lost to the height-4 avx2 root (exactly the ranks of C26)."},
  {"property": "C10", "status": "proved", "theorems": ["C10_configurations_agree"], "note": "Within the limits of `history` (Usage.v): supported modes, 1..2^24 blocks, matching Height, index address accepted by the aligned load (C27), debug leaf assertion respected (C25), and no select of a rank lost to the height-4 avx2 root (exactly the ranks of C26)."},
  {"property": "C11", "status": "proved", "theorems": ["C11_types_agree"], "note": "Within the limits of `history` (Usage.v): supported modes, 1..2^24 blocks, matching Height, index address accepted by the aligned load (C27), debug leaf assertion respected (C25), and no select of a rank lost to the height-4 avx2 root (exactly the ranks of C26)."},
  {"property": "C12", "status": "proved", "theorems": ["C12_rank_256", "C12_rank_512", "C12_rank_64"], "note": "Every supported mode, every block, any earlier calls on the static arrays."},
  {"property": "C13", "status": "proved", "theorems": ["C13_select_word"], "note": "All five algorithms, every word."},
  {"property": "C14", "status": "proved", "theorems": ["C14_select_256", "C14_select_512", "C14_select_64"], "note": "Every supported mode, every block."},
  {"property": "C15", "status": "proved", "theorems": ["C15_popcounts_agree"], "note": "Vector popcounts are one model function for both widths, lane by lane."},
  {"property": "C16", "status": "proved", "theorems": ["C16_node_prefix_sums", "C16_search_past_total", "C16_update_past_end"], "note": "All six classes, vector and scalar paths."},
  {"property": "C17", "status": "proved", "theorems": ["C17_tree_prefix_sums"], "note": "Both families, every height and history; counters up to 512; exclusions of C26/C27 are hypotheses."},
  {"property": "C18", "status": "proved", "theorems": ["C18_height_exact", "C18_height_outside", "C18_levels", "C18_smaller_height", "C18_larger_height"], "note": "Smaller heights fail for every input; larger heights make the last counter unreadable, except for the inputs the statement names."},
  {"property": "C19", "status": "proved", "theorems": ["C19_statics_do_not_leak"], "note": "Within the limits of `history` (Usage.v): supported modes, 1..2^24 blocks, matching Height, index address accepted by the aligned load (C27), debug leaf assertion respected (C25), and no select of a rank lost to the height-4 avx2 root (exactly the ranks of C26)."},
  {"property": "C20", "status": "proved", "theorems": ["C20_threads_answer", "C20_readers_answer", "C20_race_exact", "C20_rank_race", "C20_mixed_rank", "C20_readers_refuted"], "note": "Exact condition for freedom from races, and the answers under it. The naive expectation is refuted. Interleaving semantics; a bitmap is read or written in one step, static arrays word by word."},
  {"property": "C21", "status": "proved", "theorems": ["C21_copy_answers", "C21_flip_leaks", "C21_source_destroyed", "C21_independence_refuted"], "note": "Heap model of several objects: input arrays do not alias bits(), buffers are placed at any admissible address. The naive expectation is refuted."},
  {"property": "C22", "status": "proved", "theorems": ["C22_move_construct", "C22_move_assign", "C22_source_reusable"], "note": "Heap model of several objects: input arrays do not alias bits(), buffers are placed at any admissible address."},
  {"property": "C23", "status": "proved", "theorems": ["C23_value_semantics", "C23_others_untouched", "C23_shared_indexes"], "note": "Heap model of several objects: input arrays do not alias bits(), buffers are placed at any admissible address."},
  {"property": "C24", "status": "proved", "theorems": ["C24_rebuild_answers", "C24_rebuilt_bits", "C24_zero_padding_iff", "C24_zero_padding_refuted"], "note": "Heap model of several objects: input arrays do not alias bits(), buffers are placed at any admissible address. The naive expectation is refuted."},
  {"property": "C25", "status": "proved", "theorems": ["C25_sparse_blocks_build", "C25_dense_block_asserts", "C25_never_otherwise", "C25_every_input_builds_refuted"], "note": "Exact: the naive expectation is refuted."},
  {"property": "C26", "status": "proved", "theorems": ["C26_select_exact", "C26_unsafe_select_fails", "C26_safe_cases", "C26_full_bitmap_refuted"], "note": "Exact for every k; the naive expectation is refuted for every full bitmap from 15*2^28 bits on."},
  {"property": "C27", "status": "proved", "theorems": ["C27_misaligned_flip_faults", "C27_aligned_or_no_load", "C27_malloc_address_refuted"], "note": "Exact; whether the compiler emits a trapping load is the configuration flag c_trap."},
  {"property": "C28", "status": "proved", "theorems": ["C28_unused_entries_invisible", "C17_tree_prefix_sums"], "note": "At node level for arbitrary leftovers; C17 covers whole trees built with them."},
  {"property": "C29", "status": "proved", "theorems": ["C29_rank_counts"], "note": "Within the limits of `history` (Usage.v): supported modes, 1..2^24 blocks, matching Height, index address accepted by the aligned load (C27), debug leaf assertion respected (C25), and no select of a rank lost to the height-4 avx2 root (exactly the ranks of C26)."},
  {"property": "C30", "status": "proved", "theorems": ["C30_select_enumerates"], "note": "Within the limits of `history` (Usage.v): supported modes, 1..2^24 blocks, matching Height, index address accepted by the aligned load (C27), debug leaf assertion respected (C25), and no select of a rank lost to the height-4 avx2 root (exactly the ranks of C26)."},
  {"property": "C31", "status": "proved", "theorems": ["C31_space", "C31_space_bound"], "note": "Buffer length exactly index_bytes after build and after any history; no out-of-bounds write is part of the Ok outcome."},
  {"property": "C32", "status": "proved", "theorems": ["C32_unsupported_rank", "C32_unsupported_select", "C32_never_wrong_refuted"], "note": "Exact in debug builds; in release builds the pdep select is UB when the block ends the array."},
  {"property": "C33", "status": "proved", "theorems": ["C33_contents", "C33_zero_array", "C33_count_exact", "C33_count_refuted", "C33_short_array", "C33_short_array_refuted"], "note": "Arrays below 2^58 words (the loop bound size()*64 does not wrap). The naive expectations are refuted."},
  {"property": "C34", "status": "proved", "theorems": ["C34_equal_contents_indistinguishable"], "note": "Within the limits of `history` (Usage.v): supported modes, 1..2^24 blocks, matching Height, index address accepted by the aligned load (C27), debug leaf assertion respected (C25), and no select of a rank lost to the height-4 avx2 root (exactly the ranks of C26)."},
  {"property": "C35", "status": "proved", "theorems": ["C35_flips_commute"], "note": "Within the limits of `history` (Usage.v): supported modes, 1..2^24 blocks, matching Height, index address accepted by the aligned load (C27), debug leaf assertion respected (C25), and no select of a rank lost to the height-4 avx2 root (exactly the ranks of C26)."},
  {"property": "C36", "status": "proved", "theorems": ["C36_out_of_range_asserts", "C36_out_of_range_stuck", "C36_select_past_stuck", "C36_select_past_refuted", "C36_empty_build_asserts", "C36_large_build_asserts", "C36_index_build_asserts", "C36_index_range_asserts", "C36_node_range_asserts", "C36_block_rank_range", "C36_block_select_refuted"], "note": "Detection of a select beyond the ones is proved up to two levels and refuted for three."},
  {"property": "C37", "status": "proved", "theorems": ["C37_nothing_leaks", "C23_value_semantics", "C23_shared_indexes"], "note": "Heap model of several objects: input arrays do not alias bits(), buffers are placed at any admissible address."},
  {"property": "C38", "status": "proved", "theorems": ["C38_release_agrees", "C38_release_never_asserts", "C38_processes_agree", "C38_processes_never_assert"], "note": "Holds for arbitrary programs, with undefined behaviour as a distinct outcome."},
  {"property": "C39", "status": "proved", "theorems": ["C39_full_period", "C39_calls", "C39_threshold_monotone", "C33_contents"], "note": "For every seed."},
  {"property": "C40", "status": "proved", "theorems": ["C40_answers"], "note": "Byte-level model of the classes; alignment is not modelled. Sizes up to 2^48. BitL under the processor's meaning of a shift by 64 (C43); TypeL searches at the sizes of C42."},
  {"property": "C41", "status": "proved", "theorems": ["C41_modulo"], "note": "Byte-level model of the classes; alignment is not modelled. Sizes up to 2^48."},
  {"property": "C42", "status": "proved", "theorems": ["C42_typel_search", "C42_search_refuted"], "note": "Byte-level model of the classes; alignment is not modelled. Sizes up to 2^48. Exact; the naive expectation is refuted."},
  {"property": "C43", "status": "proved", "theorems": ["C43_bitl_undefined", "C43_typel_unallocated", "C43_bitf_undefined", "C43_bitl_refuted"], "note": "Byte-level model of the classes; alignment is not modelled. Sizes up to 2^48."},
  {"property": "C44", "status": "proved", "theorems": ["C44_add_zero", "C44_empty_search", "C44_find_beyond", "C44_documented_zero_refuted"], "note": "Byte-level model of the classes; alignment is not modelled. Sizes up to 2^48."},
  {"property": "C45", "status": "proved", "theorems": ["C45_sum", "C45_search", "C45_build", "C45_update", "C45_update_leaves_bound", "C45_update_refuted"], "note": "The loops of measure(); queries and input are arbitrary in their ranges, random generation and timing are not modelled."},
  {"property": "C46", "status": "proved", "theorems": ["C46_answers", "C46_same", "C46_find_total", "C46_find_refuted"], "note": "Byte-level model of the classes; alignment is not modelled. Sizes up to 2^48. Bound times 2^CUT below 2^63. The naive expectation about find is refuted."},
  {"property": "C47", "status": "proved", "theorems": ["C47_sizes", "C47_rank", "C47_select", "C47_flip", "C47_flip_even", "C47_build"], "note": "The loops of measure() on the bitmap the random generator makes; the conversion of UINT64_MAX * density to an integer, timing and text output are not modelled."},
  {"property": "C48", "status": "proved", "theorems": ["C48_sum", "C48_search", "C48_build", "C48_update", "C48_update_refuted", "C48_update_leaves_range", "C48_update_wraps_refuted"], "note": "The loops of measure(); counters and queries are arbitrary in their ranges. The intention of the update loop is refuted."},
  {"property": "C49", "status": "proved", "theorems": ["C49_build", "C49_build_multiple", "C49_build_refuted", "C49_build_small", "C49_rank", "C49_wrapper_rank", "C49_rank_boundaries", "C49_rank_refuted", "C49_counts"], "note": "Exact below 2^33 bits. Agreement with the library's rank is refuted."},
  {"property": "C50", "status": "proved", "theorems": ["C50_select", "C50_select_never", "C50_select_zero", "C50_select_other"], "note": "Exact up to 2^32 bits; the expected meaning of select is false for every rank."},
  {"property": "C51", "status": "proved", "theorems": ["C51_suxpopcount", "C51_naive", "C51_popcount_search", "C51_pdep", "C51_broadword"], "note": "The asm statements are the instructions PDEP and TZCNT."},
  {"property": "C52", "status": "proved", "theorems": ["C52_search", "C52_search_past", "C52_search_asserts_refuted", "C52_search_modes_refuted"], "note": "Sums below 2^63 for the vector mode; agreement beyond is refuted."},
  {"property": "C53", "status": "proved", "theorems": ["C53_prefix_sum", "C53_prefix_sum_past"], "note": "All words, modulo 2^64."},
  {"property": "C54", "status": "proved", "theorems": ["C54_popcount", "C54_popcount_vector", "C54_popcount_for_select"], "note": "The functions and loops of the micro-benchmarks; timing, text output and the conversion of UINT64_MAX * density are not modelled."},
  {"property": "C55", "status": "proved", "theorems": ["C55_rank64", "C55_rank64_block", "C55_rank64_refuted"], "note": "Exact; agreement with the library's rank is refuted."},
  {"property": "C56", "status": "proved", "theorems": ["C56_totals", "C56_vector_last", "C56_modes_agree", "C56_vector_refuted"], "note": "The functions and loops of the micro-benchmarks; timing, text output and the conversion of UINT64_MAX * density are not modelled. Agreement of the vector modes of perf_popcnt with the others is refuted."},
  {"property": "C57", "status": "proved", "theorems": ["C57_queries_end", "C57_queries_unique", "C57_queries_in_range", "C57_search_division", "C57_search_refuted"], "note": "The functions and loops of the micro-benchmarks; timing, text output and the conversion of UINT64_MAX * density are not modelled. Exact; for perf_search termination without error is refuted for other densities."},
  {"property": "C58", "status": "proved", "theorems": ["C58_basic_rank", "C58_basic_rank_at_size", "C58_basic_rank_at_size_refuted"], "note": "The 64-bit Basic and CF classes of include/mranisz; the 32-bit variants are not modelled. rank at the size is refuted."},
  {"property": "C59", "status": "proved", "theorems": ["C59_bch_rank", "C59_bch_strict", "C59_bch_build_refuted"], "note": "The 64-bit Basic and CF classes of include/mranisz; the 32-bit variants are not modelled. Definedness of the build is refuted."},
  {"property": "C60", "status": "proved", "theorems": ["C60_cf_rank", "C60_cf_uniform", "C60_cf_rank_at_size", "C60_cf_build_refuted"], "note": "The 64-bit Basic and CF classes of include/mranisz; the 32-bit variants are not modelled."},
  {"property": "C61", "status": "proved", "theorems": ["C61_basic_sizes", "C61_bch_sizes", "C61_cf_sizes"], "note": "The 64-bit Basic and CF classes of include/mranisz; the 32-bit variants are not modelled."},
  {"property": "C62", "status": "proved", "theorems": ["C62_std_select", "C62_std_select_exact", "C62_answer_right", "C62_answer_wrong", "C62_std_select_refuted"], "note": "The 64-bit Basic and CF classes of include/mranisz; the 32-bit variants are not modelled. Exact; the naive expectation is refuted."},
  {"property": "C63", "status": "proved", "theorems": ["C63_bch_select", "C63_bch_select_exact"], "note": "The 64-bit Basic and CF classes of include/mranisz; the 32-bit variants are not modelled."},
  {"property": "C64", "status": "proved", "theorems": ["C64_std_overflow", "C64_bch_overflow", "C64_bch_no_ones", "C64_std_no_ones", "C64_build_refuted", "C64_no_ones_refuted"], "note": "The 64-bit Basic and CF classes of include/mranisz; the 32-bit variants are not modelled. Definedness of the build is refuted."},
  {"property": "C65", "status": "proved", "theorems": ["C65_std_sizes", "C65_bch_sizes", "C65_arguments"], "note": "The 64-bit Basic and CF classes of include/mranisz; the 32-bit variants are not modelled."},
  {"property": "C66", "status": "proved", "theorems": ["C66_basic_file", "C66_bch_file", "C66_cf_file"], "note": "The 64-bit Basic and CF classes of include/mranisz; the 32-bit variants are not modelled. A file is the list of its bytes."},
  {"property": "C67", "status": "proved", "theorems": ["C67_std_file", "C67_bch_file", "C67_std_lost", "C67_bch_lost", "C67_std_file_refuted", "C67_std_file_null_refuted"], "note": "The 64-bit Basic and CF classes of include/mranisz; the 32-bit variants are not modelled. Exact; the naive expectation is refuted."},
  {"property": "C68", "status": "proved", "theorems": ["C68_basic_any", "C68_cf_any", "C68_sel_any", "C68_basic_wraps", "C68_cf_wraps", "C68_sel_wraps", "C68_load_refuted", "C68_query_refuted"], "note": "The 64-bit Basic and CF classes of include/mranisz; the 32-bit variants are not modelled. Allocations of any size succeed in the model."},
  {"property": "C69", "status": "proved", "theorems": ["C69_rank_test", "C69_select_test", "C69_basic_self_test", "C69_bch_self_test", "C69_cf_self_test", "C69_std_select_self_test", "C69_bch_select_self_test", "C69_basic_self_test_refuted"], "note": "The 64-bit Basic and CF classes of include/mranisz; the 32-bit variants are not modelled. Silence of the self test on whole blocks is refuted."},
  {"property": "C70", "status": "proved", "theorems": ["C70_basic", "C70_bch", "C70_cf", "C70_cf_overflow", "C70_cf_refuted", "C70_select", "C70_select_bch", "C70_select_overflow", "C70_select_bch_overflow", "C70_select_refuted"], "note": "The loops of measure() on the bitmap the random generator makes, for the classes of include/mranisz that are modelled (not the MPE classes); timing, text output and the conversion of UINT64_MAX * density are not modelled."},
  {"property": "C71", "status": "proved", "theorems": ["C71_mranisz_order", "C71_bytes", "C71_poppy_order", "C71_rank_ends", "C71_rank_close", "C71_count", "C71_select_group", "C71_same_answers_refuted"], "note": "Equality of the answers is refuted."},
  {"property": "C72", "status": "proved", "theorems": ["C72_rank", "C72_rank_refuted", "C72_select", "C72_select_undefined", "C72_select_refuted", "C72_small", "C72_other"], "note": "The type poppy only: the sources of the other types are not in the repository. Definedness of the runs is refuted."},
  {"property": "C73", "status": "proved", "theorems": ["C73_mpe_rank"], "note": "RankMPE64 with MPE1, MPE2 and MPE3; the 32-bit variants are not modelled."},
  {"property": "C74", "status": "proved", "theorems": ["C74_mpe_empty", "C74_mpe_build", "C74_mpe_align", "C74_mpe_empty_refuted", "C74_mpe_build_refuted", "C74_mpe_align_refuted"], "note": "RankMPE64 with MPE1, MPE2 and MPE3; the 32-bit variants are not modelled. Exact; definedness is refuted."},
  {"property": "C75", "status": "proved", "theorems": ["C75_mpe_sizes", "C75_mpe_stored"], "note": "RankMPE64 with MPE1, MPE2 and MPE3; the 32-bit variants are not modelled."},
  {"property": "C76", "status": "proved", "theorems": ["C76_mpe_file", "C76_mpe_any", "C76_mpe_self_test"], "note": "RankMPE64 with MPE1, MPE2 and MPE3; the 32-bit variants are not modelled. A file is the list of its bytes."},
  {"property": "C77", "status": "proved", "theorems": ["C77_mpe_printed"], "note": "RankMPE64 with MPE1, MPE2 and MPE3; the 32-bit variants are not modelled."},
  {"property": "C78", "status": "proved", "theorems": ["C78_smpe_select", "C78_smpe_right", "C78_last_flag_refuted"], "note": "SelectMPE64 with MPE1, MPE2 and MPE3; the 32-bit variants are not modelled. Independence of uninitialised memory is refuted."},
  {"property": "C79", "status": "proved", "theorems": ["C79_smpe_undefined"], "note": "SelectMPE64 with MPE1, MPE2 and MPE3; the 32-bit variants are not modelled."},
  {"property": "C80", "status": "proved", "theorems": ["C80_fitting_accepted", "C80_mpe1_exact", "C80_accepted_exact", "C80_mpe2_fields_refuted"], "note": "SelectMPE64 with MPE1, MPE2 and MPE3; the 32-bit variants are not modelled. Sufficiency of the check is refuted for MPE2."},
  {"property": "C81", "status": "proved", "theorems": ["C81_smpe_sizes"], "note": "SelectMPE64 with MPE1, MPE2 and MPE3; the 32-bit variants are not modelled."},
  {"property": "C82", "status": "proved", "theorems": ["C82_smpe_file", "C82_lost_refuted", "C82_smpe_self_test"], "note": "SelectMPE64 with MPE1, MPE2 and MPE3; the 32-bit variants are not modelled. A file is the list of its bytes. The round trip is refuted for the lost texts."},
  {"property": "C83", "status": "proved", "theorems": ["C83_smpe_printed", "C83_smpe_overflow"], "note": "SelectMPE64 with MPE1, MPE2 and MPE3; the 32-bit variants are not modelled."},
  {"property": "C84", "status": "proved", "theorems": ["C84_std", "C84_bch", "C84_smpe", "C84_aligned_refuted"], "note": "SelectBasic64 and SelectMPE64; exact condition. That reads are always aligned is refuted."},
  {"property": "C85", "status": "proved", "theorems": ["C85_build", "C85_rank", "C85_wrapper_rank", "C85_counts", "C85_build_refuted"], "note": "Up to 2^48 bits, the rows of the location table. Exact; that every bitmap can be indexed is refuted."},
  {"property": "C86", "status": "proved", "theorems": ["C86_first", "C86_first_other", "C86_later", "C86_select_refuted"], "note": "Up to 2^48 bits, the rows of the location table. Later pieces: when the first has no one. Correctness is refuted."},
  {"property": "C87", "status": "proved", "theorems": ["C87_below", "C87_below_other", "C87_last_read", "C87_last_lost", "C87_select_refuted"], "note": "Independence of uninitialised memory is refuted."},
  {"property": "C88", "status": "proved", "theorems": ["C88_basic_rank32", "C88_basic_rank32_at_size", "C88_basic_rank32_at_size_refuted", "C88_basic_rank32_long", "C88_basic_rank32_long_refuted"], "note": "RankBasic32 and RankCF32. Exact; definedness at the size and for the longest texts is refuted."},
  {"property": "C89", "status": "proved", "theorems": ["C89_bch_rank32", "C89_bch_strict32", "C89_bch_build32_refuted", "C89_bch_rank32_long"], "note": "RankBasic32 and RankCF32. Definedness of the build is refuted."},
  {"property": "C90", "status": "proved", "theorems": ["C90_cf_rank32", "C90_cf_aligned32", "C90_cf_aligned32_refuted", "C90_cf_uniform32", "C90_cf_build32_refuted", "C90_cf_rank32_at_size", "C90_cf_rank32_long"], "note": "RankBasic32 and RankCF32. Alignment and definedness of the build are refuted."},
  {"property": "C91", "status": "proved", "theorems": ["C91_basic_sizes32", "C91_bch_sizes32", "C91_cf_sizes32", "C91_cf_size32_refuted"], "note": "RankBasic32 and RankCF32. Exact; that the size of RankCF32 is not reduced modulo 2^32 is refuted."},
  {"property": "C92", "status": "proved", "theorems": ["C92_basic_file32", "C92_bch_file32", "C92_cf_file32"], "note": "RankBasic32 and RankCF32. A file is the list of its bytes."},
  {"property": "C93", "status": "proved", "theorems": ["C93_basic_any32", "C93_cf_any32", "C93_basic_wraps32", "C93_basic_bits_wrap32", "C93_cf_wraps32", "C93_load32_refuted", "C93_query32_refuted"], "note": "RankBasic32 and RankCF32. Definedness of load and of queries after it is refuted."},
  {"property": "C94", "status": "proved", "theorems": ["C94_rank_test32", "C94_basic_self_test32", "C94_bch_self_test32", "C94_cf_self_test32", "C94_basic_long_test32", "C94_bch_long_test32", "C94_cf_long_test32", "C94_basic_self_test32_refuted", "C94_long_test32_refuted"], "note": "RankBasic32 and RankCF32. That a good structure passes its test is refuted in two ways."},
  {"property": "C95", "status": "proved", "theorems": ["C95_mpe_rank32", "C95_mpe_fits32"], "note": "RankMPE32, all three variants."},
  {"property": "C96", "status": "proved", "theorems": ["C96_mpe_build32", "C96_mpe_build32_refuted", "C96_mpe_build_iff32", "C96_mpe_long32_refuted", "C96_mpe_align32", "C96_mpe_align32_refuted"], "note": "RankMPE32, all three variants. Exact; definedness of the build and alignment are refuted."},
  {"property": "C97", "status": "proved", "theorems": ["C97_mpe_sizes32"], "note": "RankMPE32, all three variants."},
  {"property": "C98", "status": "proved", "theorems": ["C98_mpe_file32", "C98_mpe_any32", "C98_mpe_wraps32", "C98_mpe_bits_wrap32", "C98_mpe_load32_refuted", "C98_mpe_query32_refuted", "C98_mpe_self_test32", "C98_mpe_long_test32"], "note": "RankMPE32, all three variants. Definedness of load and of queries after it is refuted."},
  {"property": "C99", "status": "proved", "theorems": ["C99_std_select32", "C99_std_select32_exact", "C99_std_select32_refuted"], "note": "SelectBasic32; texts below 2^29 bytes. Exact; that every answer is right is refuted."},
  {"property": "C100", "status": "proved", "theorems": ["C100_bch_select32", "C100_bch_select32_exact"], "note": "SelectBasic32; texts below 2^29 bytes. Exact."},
  {"property": "C101", "status": "proved", "theorems": ["C101_std_overflow32", "C101_bch_overflow32", "C101_bch_no_ones32", "C101_std_no_ones32", "C101_build32_refuted", "C101_no_ones32_refuted", "C101_payload32_refuted"], "note": "SelectBasic32; texts below 2^29 bytes. Together with C99 and C100 exact. Definedness of the constructor is refuted in three ways."},
  {"property": "C102", "status": "proved", "theorems": ["C102_arguments32", "C102_std_sizes32", "C102_bch_sizes32"], "note": "SelectBasic32; texts below 2^29 bytes."},
  {"property": "C103", "status": "proved", "theorems": ["C103_std_file32", "C103_bch_file32", "C103_std_lost32", "C103_bch_lost32", "C103_file32_refuted"], "note": "SelectBasic32; texts below 2^29 bytes. A file is the list of its bytes. Exact (plain headers: for THRESHOLD below 2^30); the round trip in general is refuted."},
  {"property": "C104", "status": "proved", "theorems": ["C104_sel_any32", "C104_sel_wraps32", "C104_sel_bits_wrap32", "C104_load32_refuted", "C104_query32_refuted"], "note": "SelectBasic32. Definedness of load and of queries after it is refuted."},
  {"property": "C105", "status": "proved", "theorems": ["C105_select_test32", "C105_std_self_test32", "C105_bch_self_test32"], "note": "SelectBasic32; texts below 2^29 bytes."},
  {"property": "C106", "status": "proved", "theorems": ["C106_smpe_select32", "C106_smpe_right32", "C106_last_flag32_refuted"], "note": "SelectMPE32; texts below 2^29 bytes with fewer than 2^31-17 groups. Without the condition on the uninitialised flag it is refuted."},
  {"property": "C107", "status": "proved", "theorems": ["C107_smpe_undefined32"], "note": "SelectMPE32; texts below 2^29 bytes with fewer than 2^31-17 groups. Exact."},
  {"property": "C108", "status": "proved", "theorems": ["C108_fitting_accepted32", "C108_mpe12_exact32", "C108_accepted_exact32", "C108_mpe3_fits32"], "note": "SelectMPE32. That MPE3 answers wrongly between THRESHOLD 7762 and 8737 is not claimed."},
  {"property": "C109", "status": "proved", "theorems": ["C109_smpe_sizes32"], "note": "SelectMPE32; texts below 2^29 bytes with fewer than 2^31-17 groups."},
  {"property": "C110", "status": "proved", "theorems": ["C110_smpe_file32", "C110_lost32_refuted", "C110_query32_refuted", "C110_smpe_self_test32"], "note": "SelectMPE32; texts below 2^29 bytes with fewer than 2^31-17 groups. A file is the list of its bytes. Exact; the round trip in general and definedness of queries after load are refuted."},
  {"property": "C111", "status": "proved", "theorems": ["C111_answers", "C111_same"], "note": "include/hft, eight Fenwick tree classes. A stream is the list of its bytes and a failed state. operator>> of TypeF and TypeL does not compile, so six classes."},
  {"property": "C112", "status": "proved", "theorems": ["C112_format", "C112_size"], "note": "include/hft, eight Fenwick tree classes. A stream is the list of its bytes and a failed state."},
  {"property": "C113", "status": "proved", "theorems": ["C113_cut", "C113_silent_refuted"], "note": "include/hft, eight Fenwick tree classes. A stream is the list of its bytes and a failed state. That reading a cut file is noticed is refuted."},
  {"property": "C114", "status": "proved", "theorems": ["C114_write", "C114_read", "C114_keeps"], "note": "include/hft, eight Fenwick tree classes. A stream is the list of its bytes and a failed state. reserve() of a huge number is modelled as the loop that follows it; either way the call does not return."},
  {"property": "C115", "status": "proved", "theorems": ["C115_trees", "C115_hybrids", "C115_exact_refuted"], "note": "include/hft, eight Fenwick tree classes. A stream is the list of its bytes and a failed state. Exactness of bitCount is refuted."},
  {"property": "C116", "status": "proved", "theorems": ["C116_other", "C116_shipped", "C116_never", "C116_missing", "C116_missing_refuted", "C116_zero", "C116_beyond"], "note": "Arrays of fewer than 2^58 words. That a request that cannot be met is answered is refuted."},
  {"property": "C117", "status": "proved", "theorems": ["C117_std", "C117_bch", "C117_smpe", "C117_aligned_refuted"], "note": "SelectBasic32 and SelectMPE32, texts shorter than 2^29 bytes; exact condition. That reads are always aligned is refuted."},
  {"property": "C118", "status": "proved", "theorems": ["C118_misaligned", "C118_aligned", "C118_same", "C118_defined_refuted"], "note": "TypeF with bounds and sizes of C40; exact condition. That the constructor is always defined within its contract is refuted."},
  {"property": "C119", "status": "proved", "theorems": ["C119_read", "C119_extract", "C119_extract_bits", "C119_extract_refuted", "C119_write", "C119_write_bits", "C119_write_confined_refuted", "C119_mask", "C119_mask_empty"], "note": "All offsets below 64 and lengths 1 to 64. That bitextract returns the field, and that bitwrite never changes other bits, are refuted."},
  {"property": "C120", "status": "proved", "theorems": ["C120_round", "C120_round_none", "C120_multiple", "C120_root", "C120_select", "C120_select_past", "C120_select_haswell", "C120_select_haswell_past", "C120_select_haswell_shift"], "note": "select64 in both builds; without __haswell__ for arguments below 128."},
  {"property": "C121", "status": "proved", "theorems": ["C121_increment", "C121_exact", "C121_borrow"], "note": "Fields of up to 64 bits in two words, increments of 64 bits with sign whose result fits the field."},
  {"property": "C122", "status": "proved", "theorems": ["C122_pages", "C122_reach", "C122_null", "C122_pages_refuted", "C122_failed"], "note": "All lengths. That every array has memory for its length is refuted."},
  {"property": "C123", "status": "proved", "theorems": ["C123_values", "C123_never_freed", "C123_owners"], "note": "Programs of one thread; elements of at least one byte. C123_values for arrays whose mappings succeed."},
  {"property": "C124", "status": "proved", "theorems": ["C124_safe", "C124_owners", "C124_copy", "C124_assign", "C124_copy_refuted", "C124_leak_refuted"], "note": "All programs of one thread. That copies are safe is refuted."},
  {"property": "C125", "status": "proved", "theorems": ["C125_nodes", "C125_cost", "C125_same"], "note": "Positions and widths of all nodes in both builds; the operations on the tree are proved for the build without the option (C125_same)."},
  {"property": "C126", "status": "proved", "theorems": ["C126_safe", "C126_failed", "C126_large", "C126_copy"], "note": "All programs without copies, all error codes, one copy at the end of any of them."},
  {"property": "C127", "status": "proved", "theorems": ["C127_alone", "C127_same", "C127_bounds", "C127_near", "C127_refuted"], "note": "Interleavings of the steps of any number of calls, standard headers. That calls for different blocks are safe is refuted."},
  {"property": "C128", "status": "proved", "theorems": ["C128_alone", "C128_right", "C128_same_refuted", "C128_bounds_refuted"], "note": "Interleavings of the steps of any number of calls. That calls with the same argument are safe is refuted left of the border."}
]}
