(** Rank and select inside a block: include/rank_select_algorithms/rank.hpp,
    select.hpp (block part), include/types.hpp. *)
From Verif Require Import Base Mem Tables Words.

(** rank.hpp lines 12-44.  An enumerator exists only when the compiler enables
    the instruction set it needs, so a nameable mode has its specialisations. *)
Inductive rank_mode :=
| RM_broadword_loop | RM_broadword_unrolled
| RM_builtin | RM_builtin_loop | RM_builtin_unrolled
| RM_avx2_loop | RM_avx2_unrolled
| RM_builtin_parallel | RM_avx2_parallel
| RM_avx512_loop | RM_avx512_unrolled | RM_avx512_parallel.

(** Integer codes: popcount_modes (common.hpp 253-258) in bits 0-7,
    prefixsum_modes (common.hpp 310-314) in bits 8-15. *)
Definition rank_mode_code (m : rank_mode) : Z :=
  match m with
  | RM_broadword_loop => Z.lor 0 (Z.shiftl 0 8)
  | RM_broadword_unrolled => Z.lor 0 (Z.shiftl 1 8)
  | RM_builtin => 1
  | RM_builtin_loop => Z.lor 1 (Z.shiftl 0 8)
  | RM_builtin_unrolled => Z.lor 1 (Z.shiftl 1 8)
  | RM_avx2_loop => Z.lor 2 (Z.shiftl 0 8)
  | RM_avx2_unrolled => Z.lor 2 (Z.shiftl 1 8)
  | RM_builtin_parallel => Z.lor 1 (Z.shiftl 2 8)
  | RM_avx2_parallel => Z.lor 2 (Z.shiftl 2 8)
  | RM_avx512_loop => Z.lor 3 (Z.shiftl 0 8)
  | RM_avx512_unrolled => Z.lor 3 (Z.shiftl 1 8)
  | RM_avx512_parallel => Z.lor 3 (Z.shiftl 2 8)
  end.

Definition popcount_mode_of (z : Z) : popcount_mode :=
  if z =? 0 then PC_broadword else if z =? 1 then PC_builtin
  else if z =? 2 then PC_avx2 else PC_avx512.

Inductive prefixsum_mode := PS_loop | PS_unrolled | PS_parallel.
Definition prefixsum_mode_of (z : Z) : prefixsum_mode :=
  if z =? 0 then PS_loop else if z =? 1 then PS_unrolled else PS_parallel.

(** extract_popcount_mode, extract_prefixsum_mode: rank.hpp lines 46-51. *)
Definition rm_pcm (m : rank_mode) : popcount_mode := popcount_mode_of (Z.land (rank_mode_code m) 0xFF).
Definition rm_psm (m : rank_mode) : prefixsum_mode :=
  prefixsum_mode_of (Z.land (Z.shiftr (rank_mode_code m) 8) 0xFF).

(** A [uint64_t const*] into the word array: the array and an index. *)
Record wptr := { w_arr : list Z; w_off : Z }.
Definition ldw (x : wptr) (j : Z) : res Z := geti (w_arr x) (w_off x + j).
Fixpoint ldws (x : wptr) (j : Z) (n : nat) : res (list Z) :=
  match n with
  | O => Ok []
  | S n' => let* v := ldw x j in let* r := ldws x (j + 1) n' in Ok (v :: r)
  end.

(** Function-local static arrays of one rank or select instantiation:
    [st_c] = counts/cnts, [st_s] = sums. *)
Record stat := { st_c : list Z; st_s : list Z }.
(** C++ zero-initialises statics; sizes as declared for [n] words. *)
Definition stat_init (n : nat) : stat := {| st_c := repeat 0 n; st_s := repeat 0 (S n) |}.

(** [block], [offset], [mask] and [rank_in_block]: rank.hpp lines 88-91,
    114-118 and copies. *)
Definition rank_mask (i : Z) : Z :=
  let offset := Z.land (i + 1) 63 in
  u64 (b2z (negb (offset =? 0)) * 2 ^ offset - 1).
Definition rank_in_block (c : cfg) (pm : popcount_mode) (x : wptr) (i : Z) : res Z :=
  let* w := ldw x (i / 64) in
  popcount_u64 c pm (Z.land w (rank_mask i)).

(** [for (b = 0; b < block; ++b) sum += popcount(x[b])]: rank.hpp 94-95. *)
Fixpoint sum_loop (get : Z -> res Z) (b : Z) (fuel : nat) (acc : Z) : res Z :=
  match fuel with
  | O => Ok acc
  | S fuel' => let* v := get b in sum_loop get (b + 1) fuel' (u64 (acc + v))
  end.

(** [counts[0] = 0; counts[b] = counts[b-1] + get(b-1)] for b = 1..n-1:
    rank.hpp 99-102, 138-141, 210-217, 278-285 (written out in the source). *)
Definition fill_counts (get : Z -> res Z) (n : nat) (counts : list Z) : res (list Z) :=
  let* counts := seti counts 0 0 in
  foldM (fun counts b =>
      let* p := geti counts (b - 1) in
      let* v := get (b - 1) in
      seti counts b (u64 (p + v)))
    (zrange 1 (n - 1)) counts.

(** Store of a vector into an array of words ([_mm*_storeu] on [arr + o]). *)
Definition store_words (arr : list Z) (o : Z) (v : list Z) : res (list Z) :=
  foldM (fun arr '(j, y) => seti arr (o + j) y) (combine (zrange 0 (length v)) v) arr.

(** Generic template of rank_u256 / rank_u512 (rank.hpp 81-108, 192-223);
    [n] = number of words (4 or 8). *)
Definition rank_generic (c : cfg) (n : nat) (m : rank_mode) (st : stat) (x : wptr) (i : Z) : res (Z * stat) :=
  let* _ := massert (c_debug c) (i <? 64 * Z.of_nat n) in
  let pcm := rm_pcm m in
  let block := i / 64 in
  let* rib := rank_in_block c pcm x i in
  let get b := (let* w := ldw x b in popcount_u64 c pcm w) in
  match rm_psm m with
  | PS_loop =>
      let* s := sum_loop get 0 (Z.to_nat block) 0 in
      Ok (u64 (s + rib), st)
  | PS_unrolled =>
      let* counts := fill_counts get n (st_c st) in
      let* r := geti counts block in
      Ok (u64 (r + rib), {| st_c := counts; st_s := st_s st |})
  | PS_parallel => let* _ := massert (c_debug c) false in Ok (0, st)
  end.

(** rank_u256<avx2_loop> (rank.hpp 110-125), rank_u512<avx512_loop> (250-265). *)
Definition rank_vec_loop (c : cfg) (n : nat) (st : stat) (x : wptr) (i : Z) : res (Z * stat) :=
  let* _ := massert (c_debug c) (i <? 64 * Z.of_nat n) in
  let block := i / 64 in
  let* rib := rank_in_block c PC_builtin x i in
  let* ws := ldws x 0 n in
  let C := popcount_vec ws in
  let* s := sum_loop (geti C) 0 (Z.to_nat block) 0 in
  Ok (u64 (s + rib), st).

(** rank_u256<avx2_unrolled> (rank.hpp 126-143), rank_u512<avx512_unrolled> (266-287). *)
Definition rank_vec_unrolled (c : cfg) (n : nat) (st : stat) (x : wptr) (i : Z) : res (Z * stat) :=
  let* _ := massert (c_debug c) (i <? 64 * Z.of_nat n) in
  let block := i / 64 in
  let* rib := rank_in_block c PC_builtin x i in
  let* ws := ldws x 0 n in
  let C := popcount_vec ws in
  let* counts := fill_counts (geti C) n (st_c st) in
  let* r := geti counts block in
  Ok (u64 (r + rib), {| st_c := counts; st_s := st_s st |}).

(** rank_u256<avx2_parallel> (rank.hpp 169-186), rank_u512<avx512_parallel> (288-302). *)
Definition rank_vec_parallel (c : cfg) (n : nat) (psum : list Z -> list Z) (st : stat) (x : wptr) (i : Z) : res (Z * stat) :=
  let* _ := massert (c_debug c) (i <? 64 * Z.of_nat n) in
  let block := i / 64 in
  let* rib := rank_in_block c PC_builtin x i in
  let* ws := ldws x 0 n in
  let msums := psum (popcount_vec ws) in
  let* sums := store_words (st_s st) 1 msums in
  let* r := geti sums block in
  Ok (u64 (r + rib), {| st_c := st_c st; st_s := sums |}).

(** rank_u256<builtin_parallel> (rank.hpp 147-168). *)
Definition rank_u256_builtin_parallel (c : cfg) (st : stat) (x : wptr) (i : Z) : res (Z * stat) :=
  let* _ := massert (c_debug c) (i <? 256) in
  let* cnts := seti (st_c st) 0 0 in
  let* cnts := foldM (fun cnts j =>
      let* w := ldw x (j - 1) in seti cnts j (popcount w)) [1; 2; 3] cnts in
  let block := i / 64 in
  let* rib := rank_in_block c PC_builtin x i in
  let msums := prefixsum_m256i (firstn 4 cnts) in
  let* cnts := store_words cnts 0 msums in
  let* r := geti cnts block in
  Ok (u64 (r + rib), {| st_c := cnts; st_s := st_s st |}).

(** rank_u512<builtin_parallel> (rank.hpp 225-249). *)
Definition rank_u512_builtin_parallel (c : cfg) (st : stat) (x : wptr) (i : Z) : res (Z * stat) :=
  let* _ := massert (c_debug c) (i <? 512) in
  let* cnts := foldM (fun cnts j =>
      let* w := ldw x j in seti cnts j (popcount w)) [0; 1; 2; 3; 4; 5; 6; 7] (st_c st) in
  let block := i / 64 in
  let* rib := rank_in_block c PC_builtin x i in
  let msums := prefixsum_m512i (firstn 8 cnts) in
  let* sums := store_words (st_s st) 1 msums in
  let* r := geti sums block in
  Ok (u64 (r + rib), {| st_c := cnts; st_s := sums |}).

(** rank_u256: rank.hpp 78-187; specialisations before the primary template. *)
Definition rank_u256 (c : cfg) (m : rank_mode) (st : stat) (x : wptr) (i : Z) : res (Z * stat) :=
  match m with
  | RM_avx2_loop => rank_vec_loop c 4 st x i
  | RM_avx2_unrolled => rank_vec_unrolled c 4 st x i
  | RM_builtin_parallel => rank_u256_builtin_parallel c st x i
  | RM_avx2_parallel => rank_vec_parallel c 4 prefixsum_m256i st x i
  | _ => rank_generic c 4 m st x i
  end.

(** rank_u512: rank.hpp 189-303. *)
Definition rank_u512 (c : cfg) (m : rank_mode) (st : stat) (x : wptr) (i : Z) : res (Z * stat) :=
  match m with
  | RM_builtin_parallel => rank_u512_builtin_parallel c st x i
  | RM_avx512_loop => rank_vec_loop c 8 st x i
  | RM_avx512_unrolled => rank_vec_unrolled c 8 st x i
  | RM_avx512_parallel => rank_vec_parallel c 8 prefixsum_m512i st x i
  | _ => rank_generic c 8 m st x i
  end.

(** select.hpp lines 155-187. *)
Inductive select_mode :=
| SM_broadword_loop_sdsl | SM_broadword_loop_succinct
| SM_builtin_loop_sdsl | SM_builtin_loop_succinct
| SM_pdep | SM_builtin_loop_pdep
| SM_builtin_avx512_pdep | SM_avx2_avx512_pdep | SM_avx512_avx512_pdep.

(** Codes: popcount in bits 0-7, search_modes (145-148) in 8-15, select64_modes
    (12-18) in 16-23; [pdep] (line 171) is not shifted. *)
Definition select_mode_code (m : select_mode) : Z :=
  let code pc sc sw := Z.lor (Z.lor pc (Z.shiftl sc 8)) (Z.shiftl sw 16) in
  match m with
  | SM_broadword_loop_sdsl => code 0 0 0
  | SM_broadword_loop_succinct => code 0 0 1
  | SM_builtin_loop_sdsl => code 1 0 2
  | SM_builtin_loop_succinct => code 1 0 3
  | SM_pdep => 4
  | SM_builtin_loop_pdep => code 1 0 4
  | SM_builtin_avx512_pdep => code 1 1 4
  | SM_avx2_avx512_pdep => code 2 1 4
  | SM_avx512_avx512_pdep => code 3 1 4
  end.

Definition select64_mode_of (z : Z) : select64_mode :=
  if z =? 0 then S_broadword_sdsl else if z =? 1 then S_broadword_succinct
  else if z =? 2 then S_sse4_sdsl else if z =? 3 then S_sse4_succinct else S_pdep.

(** extract_*: select.hpp lines 189-197. *)
Definition sl_pcm (m : select_mode) : popcount_mode := popcount_mode_of (Z.land (select_mode_code m) 0xFF).
Definition sl_scm_loop (m : select_mode) : bool := Z.land (Z.shiftr (select_mode_code m) 8) 0xFF =? 0.
Definition sl_swm (m : select_mode) : select64_mode :=
  select64_mode_of (Z.land (Z.shiftr (select_mode_code m) 16) 0xFF).

(** popcount_u64 instantiated with an enum value outside the enumerators is the
    primary template too; [SM_pdep] has popcount code 4, read here as the last
    enumerator, which also is the primary template. *)

(** [while (i < n) { cnt = popcount(x[i]); if (k < cnt) break; k -= cnt; i++; }]:
    select.hpp 233-239, 301-307.  Returns (i, k, cnt). *)
Fixpoint select_loop (c : cfg) (pm : popcount_mode) (x : wptr) (fuel : nat) (i k cnt : Z) : res (Z * Z * Z) :=
  match fuel with
  | O => Ok (i, k, cnt)
  | S fuel' =>
      let* w := ldw x i in
      let* cnt := popcount_u64 c pm w in
      if k <? cnt then Ok (i, k, cnt)
      else select_loop c pm x fuel' (i + 1) (u64 (k - cnt)) cnt
  end.

(** Generic select_u256 / select_u512: select.hpp 224-246, 292-314. *)
Definition select_generic (c : cfg) (n : nat) (m : select_mode) (st : stat) (x : wptr) (k : Z) : res (Z * stat) :=
  if sl_scm_loop m then
    let* '(i, k, cnt) := select_loop c (sl_pcm m) x n 0 k 0 in
    let* _ := massert (c_debug c) (k <? cnt) in
    let* w := ldw x i in
    let* r := select_u64 c (sl_swm m) w k in
    Ok (u64 (i * 64 + r), st)
  else
    let* _ := massert (c_debug c) false in Ok (0, st).

(** Common end of the vector versions: select.hpp 262-269, 278-285, 334-341,
    350-357. *)
Definition select_vec_tail (c : cfg) (cnts : list Z) (msums : list Z) (st : stat) (x : wptr) (k : Z) : res (Z * stat) :=
  let mask := vcmple_mask msums (set1 64 (length msums) k) in
  let* i := geti lt_cnt mask in
  let* sums := store_words (st_s st) 1 msums in
  let* w := ldw x i in
  let* s := geti sums i in
  let* r := select_u64 c S_pdep w (u64 (k - s)) in
  Ok (u64 (i * 64 + r), {| st_c := cnts; st_s := sums |}).

(** select_u256<builtin_avx512_pdep> (select.hpp 248-270),
    select_u512<builtin_avx512_pdep> (316-342). *)
Definition select_vec_builtin (c : cfg) (n : nat) (psum : list Z -> list Z) (st : stat) (x : wptr) (k : Z) : res (Z * stat) :=
  let* cnts := foldM (fun cnts j =>
      let* w := ldw x j in seti cnts j (popcount w)) (zrange 0 n) (st_c st) in
  select_vec_tail c cnts (psum (firstn n cnts)) st x k.

(** select_u256<avx2_avx512_pdep> (select.hpp 271-286),
    select_u512<avx512_avx512_pdep> (343-358). *)
Definition select_vec_simd (c : cfg) (n : nat) (psum : list Z -> list Z) (st : stat) (x : wptr) (k : Z) : res (Z * stat) :=
  let* ws := ldws x 0 n in
  select_vec_tail c (st_c st) (psum (popcount_vec ws)) st x k.

Definition select_u256 (c : cfg) (m : select_mode) (st : stat) (x : wptr) (k : Z) : res (Z * stat) :=
  match m with
  | SM_builtin_avx512_pdep => select_vec_builtin c 4 prefixsum_m256i st x k
  | SM_avx2_avx512_pdep => select_vec_simd c 4 prefixsum_m256i st x k
  | _ => select_generic c 4 m st x k
  end.

Definition select_u512 (c : cfg) (m : select_mode) (st : stat) (x : wptr) (k : Z) : res (Z * stat) :=
  match m with
  | SM_builtin_avx512_pdep => select_vec_builtin c 8 prefixsum_m512i st x k
  | SM_avx512_avx512_pdep => select_vec_simd c 8 prefixsum_m512i st x k
  | _ => select_generic c 8 m st x k
  end.

(** include/types.hpp: the block types. *)
Inductive btype :=
| B64                                         (* lines 17-31 *)
| B256 (rm : rank_mode) (sm : select_mode)    (* lines 33-45 *)
| B512 (rm : rank_mode) (sm : select_mode).   (* lines 47-59 *)

(** types.hpp lines 61-82. *)
Definition block64_type_default := B64.
Definition block256_type_a := B256 RM_builtin_unrolled SM_builtin_loop_pdep.
Definition block256_type_b := B256 RM_builtin_loop SM_builtin_loop_pdep.
Definition block512_type_a := B512 RM_builtin_unrolled SM_builtin_loop_pdep.
Definition block512_type_b := B512 RM_builtin_loop SM_builtin_loop_pdep.
Definition block256_type_c := B256 RM_builtin_unrolled SM_avx2_avx512_pdep.

Definition block_size (b : btype) : Z := match b with B64 => 64 | B256 _ _ => 256 | B512 _ _ => 512 end.
Definition words_in_block (b : btype) : Z := block_size b / 64.

(** block64_type::rank: types.hpp lines 23-27. *)
Definition rank_b64 (x : wptr) (i : Z) : res Z :=
  let i := u64 (i + 1) in
  let* mask := (if i =? 64 then Ok (2 ^ 64 - 1)
                else let* t := shl64 1 i in Ok (u64 (b2z (negb (i =? 0)) * t - 1))) in
  let* w := ldw x 0 in
  Ok (popcount (Z.land w mask)).

(** Statics of the rank and of the select function of a block type. *)
Record statics := { s_rank : stat; s_select : stat }.
Definition nwords (b : btype) : nat := match b with B64 => 1 | B256 _ _ => 4 | B512 _ _ => 8 end.
Definition statics_init (b : btype) : statics :=
  {| s_rank := stat_init (nwords b); s_select := stat_init (nwords b) |}.

(** BlockType::rank / BlockType::select: types.hpp 23-30, 39-44, 53-58. *)
Definition block_rank (c : cfg) (b : btype) (s : statics) (x : wptr) (i : Z) : res (Z * statics) :=
  match b with
  | B64 => let* r := rank_b64 x i in Ok (r, s)
  | B256 rm _ => let* '(r, st) := rank_u256 c rm (s_rank s) x i in
                 Ok (r, {| s_rank := st; s_select := s_select s |})
  | B512 rm _ => let* '(r, st) := rank_u512 c rm (s_rank s) x i in
                 Ok (r, {| s_rank := st; s_select := s_select s |})
  end.

Definition block_select (c : cfg) (b : btype) (s : statics) (x : wptr) (k : Z) : res (Z * statics) :=
  match b with
  | B64 => let* w := ldw x 0 in let* r := select_u64 c S_pdep w k in Ok (r, s)
  | B256 _ sm => let* '(r, st) := select_u256 c sm (s_select s) x k in
                 Ok (r, {| s_rank := s_rank s; s_select := st |})
  | B512 _ sm => let* '(r, st) := select_u512 c sm (s_select s) x k in
                 Ok (r, {| s_rank := s_rank s; s_select := st |})
  end.
