(** C76, C77: files and self test of RankMPE64, and the benchmark that measures it. *)
From Verif Require Import Base Spec SpecText SpecFile SpecMpe SpecPerf SpecOrder Perf PerfBase MrRank MrRankProps MrFile MrMpe MrMpeUse MrMpeUseFacts.

(** ** C76: files and self test *)

(** The file has the stated size.  Followed by anything, loaded in any memory, it
    gives a structure with the same answers and leaves the rest.  Any part of it
    makes load() exit. *)
Theorem C76_mpe_file : forall T jf m m' t, addresses_ok m -> addresses_ok m' -> text_ok t -> zlen t < 2 ^ 58 -> t <> [] ->
  exists r f, build_mpe T false jf m t = Ok r /\ save_mpe r = Ok f /\ zlen f = 112 + 80 * (big_blocks t / 16) + stored_before T t (big_blocks t) /\
    (forall rest, text_ok rest -> exists r', load_mpe m' (f ++ rest) = Ok (Loaded r' rest) /\ mpe_text_size r' = zlen t /\
       forall i, 0 <= i <= 1024 * big_blocks t -> rank_of_mpe T false r' i = Ok (ones_before (text_bits t) i)) /\
    (forall k, 0 <= k < zlen f -> load_mpe m' (firstn (Z.to_nat k) f) = Ok Exits).
Proof. exact mpe_file. Qed.
Print Assumptions C76_mpe_file.
Example C76_mpe_file_case :
  let t := [1; 128; 3] in big_blocks t = 1 /\ stored_before MPE2 t 1 = 12 /\
  (let* r := build_mpe MPE2 false (fun _ => 0) (mem_of 99 32) t in let* f := save_mpe r in let* x := load_mpe (mem_of 7 48) (f ++ [5; 6]) in
   match x with Loaded r' rest => let* a := rank_of_mpe MPE2 false r' 9 in Ok (zlen f, rest, a) | Exits => Ok (0, [], 0) end) = Ok (124, [5; 6], 2).
Proof. vm_compute. auto. Qed.

(** What load() makes of any file of bytes. *)
Theorem C76_mpe_any : forall m f, addresses_ok m -> text_ok f -> let a := field f 8 in let b := field f (16 + 8 * a) in a < 2 ^ 64 - 16 -> b < 2 ^ 64 - 128 ->
  if zlen f <? 24 + 8 * a + b then load_mpe m f = Ok Exits
  else exists r, load_mpe m f = Ok (Loaded r (skipn (Z.to_nat (24 + 8 * a + b)) f)) /\ mpe_text_size r = field f 0 /\
    (forall k, 0 <= k < a -> zn 0 (mp_ranks r) k = field f (16 + 8 * k)) /\ (forall k, 0 <= k < b -> zn 0 (mp_bits r) k = zn 0 f (24 + 8 * a + k)).
Proof. exact mpe_any. Qed.
Print Assumptions C76_mpe_any.
Example C76_mpe_any_case :
  let f := put64 9 ++ put64 1 ++ put64 77 ++ put64 2 ++ [5; 6; 7] in field f 8 = 1 /\ field f 24 = 2 /\
  match load_mpe (mem_of 0 0) f with Ok (Loaded r rest) => (mpe_text_size r, zn 0 (mp_ranks r) 0, zn 0 (mp_bits r) 1, rest) = (9, 77, 6, [7]) | _ => False end.
Proof. vm_compute. auto. Qed.

(** testRank() prints nothing, also for texts of whole blocks (see C69). *)
Theorem C76_mpe_self_test : forall T jf m t, addresses_ok m -> text_ok t -> zlen t < 2 ^ 58 -> t <> [] ->
  exists r, build_mpe T false jf m t = Ok r /\ test_rank (rank_of_mpe T false r) t = Ok [].
Proof. exact mpe_self_test. Qed.
Print Assumptions C76_mpe_self_test.
Example C76_mpe_self_test_case : text_ok [0; 7] /\ [0; 7] <> [] /\
  (let* r := build_mpe MPE3 false (fun _ => 1) (mem_of 5 16) [0; 7] in test_rank (rank_of_mpe MPE3 false r) [0; 6]) = Ok [(16, 2, 3)].
Proof. split; [repeat constructor; lia|]. split; [congruence|]. vm_compute. auto. Qed.

(** ** C77: what src/perf_compressed_bitmap.cpp prints for rank_mpe1, 2 and 3 *)
Theorem C77_mpe_printed : forall T jf m dbg n t op k runs measures, addresses_ok m -> 193 <= n < 2 ^ 58 ->
  let B := bench_bits 64 n t in
  bench_mpe T jf m dbg n t op k runs measures = printed dbg (ones_before (reversed 8 B)) op n (count_true B) k runs measures.
Proof. exact bench_mpe_rank. Qed.
Print Assumptions C77_mpe_printed.
Example C77_mpe_printed_case :
  bench_mpe MPE1 (fun _ => 1) (mem_of 3 16) true 256 0 BRank 3 2 1 = Ok [6] /\ bench_mpe MPE1 (fun _ => 1) (mem_of 3 16) true 256 0 BOther 3 2 1 = AssertFail.
Proof. vm_compute. auto. Qed.
