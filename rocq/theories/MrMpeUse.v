(** RankMPE64 in use: save() and load() (include/mranisz/shared/rank.hpp lines
    4915-4976) and the types rank_mpe1, rank_mpe2 and rank_mpe3 of
    src/perf_compressed_bitmap.cpp.  Files as in MrFile.  testRank() (lines
    4998-5013) is [test_rank] of MrFile. *)
From Verif Require Import Base Trees Perf PerfBase MrRank MrFile MrMpe.

(** save, lines 4915-4928. *)
Definition save_mpe (t : rank_mpe) : res (list Z) :=
  let* a := if mp_ranks_len t >? 0 then out_words (mp_ranks t) (mp_ranks_len t) else Ok [] in
  let* b := if mp_bits_len t >? 0 then out_bytes (mp_bits t) (mp_bits_len t) else Ok [] in
  Ok (put64 (mp_text_len t) ++ put64 (mp_ranks_len t) ++ a ++ put64 (mp_bits_len t) ++ b).

(** load, lines 4930-4976. *)
Definition load_mpe (m : memory) (f : list Z) : res (loaded rank_mpe) :=
  andthen (get64 f) (fun text_len f =>
  andthen (get64 f) (fun ranks_len f =>
  let* x := get_words (m_junk_r m) (m_addr_r m) ranks_len f in
  andthen x (fun ranks f =>
  andthen (get64 f) (fun bits_len f =>
  let* y := get_bytes (fun k => u8 (m_junk_b m k)) (m_addr_b m) bits_len f in
  andthen y (fun bits f =>
  Ok (Loaded {| mp_ranks := ranks; mp_ranks_len := ranks_len; mp_bits := bits; mp_bits_len := bits_len; mp_text_len := text_len |} f)))))).

(** mranisz_rank_wrapper, src/perf_compressed_bitmap.cpp lines 156-190, with the
    types of lines 77-97. *)
Definition bench_mpe (T : mpe_type) (jf : Z -> Z) (m : memory) (dbg : bool) :=
  base_bench dbg (fun ws => build_mpe T false jf m (bytes_of_words ws)) (rank_of_mpe T false) (rank_of_mpe T false).
