(** SelectMPE64 in use: save(), load() and testSelect() (include/mranisz/shared/
    select.hpp lines 4414-4470 and 4494-4511) are those of SelectBasic64: [save_sel],
    [load_sel] and [test_select] of MrFile (load() first calls free(), which gives the
    structure a new buffer for the queries).  The types select_mpe1_128_4096,
    select_mpe2_128_4096 and select_mpe3_128_4096 of src/perf_compressed_bitmap.cpp. *)
From Verif Require Import Base Trees Perf PerfBase MrRank MrSelect MrFile MrMpe MrSmpe.

(** mranisz_select_wrapper, lines 192-226, with the types of lines 135-150; [buf i] is
    what the buffer holds before the query [i].  Simplified: the same at every query of
    the same [i]; C78 shows that the answers do not depend on it. *)
Definition bench_smpe (T : mpe_type) (el th : Z) (buf : Z -> list Z) (jf : Z -> Z) (m : memory) (dbg : bool) :=
  base_bench dbg (fun ws => build_smpe T el th false jf m (bytes_of_words ws)) (fun t i => select_smpe T el th t (buf i) i) (fun t i => select_smpe T el th t (buf i) i).
