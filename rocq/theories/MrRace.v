(** Model of RankBasic64 (standard headers) queried by several threads.  getRank_std,
    include/mranisz/shared/rank.hpp lines 659-719, keeps the place of the block in the
    member [pointer] (line 665) and reads it again for every word (lines 666-717). *)
From Verif Require Import Base Words MrRank.

(** One call of rank, lines 659-719: not begun; [j] words counted, with [i] the bit inside
    the block; done. *)
Inductive query := QStart (i : Z) | QRead (rank i j : Z) | QDone (v : Z).

(** One step of a call; [ptr] is the member, as an index of alignedBits.  Lines 660-665 are
    one step (the arrays read there do not change between builds), as is the read of [pointer]
    and of one word in lines 666-717.  Simplified: steps of threads interleave, although C++
    calls any two of them that are not ordered a data race. *)
Definition q_step (t : rank_basic) (ptr : Z) (q : query) : res (Z * query) :=
  match q with
  | QStart i =>
      let start := i / 512 in
      let* rank := geti (rb_ranks t) (2 * start) in
      let i := i mod 512 in
      let* next := geti (rb_ranks t) (2 * start + 2) in
      let diff := u64 (next - rank) in
      if Z.land diff 511 =? 0 then Ok (ptr, QDone (u64 (rank + u64 (i * Z.shiftr diff 9)))) else
      let* p := geti (rb_ranks t) (2 * start + 1) in
      Ok (p, QRead rank i 0)
  | QRead rank i j =>
      let* w := geti (rb_bits t) (ptr + j) in
      if j <? i / 64 then Ok (ptr, QRead (u64 (rank + popcount w)) i (j + 1)) else
      let* m := geti masks (i - 64 * (i / 64)) in
      Ok (ptr, QDone (u64 (rank + popcount (Z.land w m))))
  | QDone v => Ok (ptr, q)
  end.

(** Threads with one call of lines 659-719 each on one object; a schedule says whose turn it is. *)
Definition q_turn (t : rank_basic) (st : Z * list query) (k : nat) : res (Z * list query) :=
  match nth_error (snd st) k with
  | None => Ok st
  | Some q => let* '(ptr, q') := q_step t (fst st) q in Ok (ptr, upd_nat (snd st) k q')
  end.
(** A whole schedule of such turns (lines 659-719). *)
Definition q_run (t : rank_basic) (st : Z * list query) (ks : list nat) : res (Z * list query) := foldM (q_turn t) ks st.
