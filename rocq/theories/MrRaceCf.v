(** Model of RankCF64 queried by several threads.  rank, include/mranisz/shared/rank.hpp
    lines 1635-1709, keeps its place in the member [pointer]; left of the border it also reads
    the ranks through it (lines 1640-1644) and then increments it (line 1646). *)
From Verif Require Import Base Words MrRank.

(** One call of rank, lines 1635-1709: not begun; [pointer] set (line 1640); rank read
    (line 1641); about to increment [pointer] (line 1646); [j] words counted; done.  [i] is the
    bit inside the block, except in CStart. *)
Inductive cquery := CStart (i : Z) | CRank (i : Z) | CDiff (rank i : Z) | CInc (rank i : Z) | CRead (rank i j : Z) | CDone (v : Z).

(** One step of a call; [ptr] is the member, as an index of alignedBits.  Simplified: a line
    that reads or writes [pointer] is one step, line 1646 too; a
    pointer past the end is only noticed when it is read. *)
Definition c_step (t : rank_cf) (ptr : Z) (q : cquery) : res (Z * cquery) :=
  match q with
  | CStart i =>
      let start := i / 512 in
      if start <? cf_border t then Ok (start * 8 + start, CRank (i mod 512)) else
      let r := cf_block_border t + 2 * (start - cf_border t) in
      let* rank := geti (cf_bits t) r in
      let i := i mod 512 in
      let* next := geti (cf_bits t) (r + 2) in
      let diff := u64 (next - rank) in
      if Z.land diff 511 =? 0 then Ok (ptr, CDone (u64 (rank + u64 (i * Z.shiftr diff 9)))) else
      let* p := geti (cf_bits t) (r + 1) in
      Ok (p, CRead rank i 0)
  | CRank i => let* rank := geti (cf_bits t) ptr in Ok (ptr, CDiff rank i)
  | CDiff rank i =>
      let* next := geti (cf_bits t) (ptr + 9) in
      let diff := u64 (next - rank) in
      if Z.land diff 511 =? 0 then Ok (ptr, CDone (u64 (rank + u64 (i * Z.shiftr diff 9)))) else Ok (ptr, CInc rank i)
  | CInc rank i => Ok (ptr + 1, CRead rank i 0)
  | CRead rank i j =>
      let* w := geti (cf_bits t) (ptr + j) in
      if j <? i / 64 then Ok (ptr, CRead (u64 (rank + popcount w)) i (j + 1)) else
      let* m := geti masks (i - 64 * (i / 64)) in
      Ok (ptr, CDone (u64 (rank + popcount (Z.land w m))))
  | CDone v => Ok (ptr, q)
  end.

(** Threads with one call of lines 1635-1709 each on one object; a schedule says whose turn it is. *)
Definition c_turn (t : rank_cf) (st : Z * list cquery) (k : nat) : res (Z * list cquery) :=
  match nth_error (snd st) k with
  | None => Ok st
  | Some q => let* '(ptr, q') := c_step t (fst st) q in Ok (ptr, upd_nat (snd st) k q')
  end.
(** A whole schedule of such turns (lines 1635-1709). *)
Definition c_run (t : rank_cf) (st : Z * list cquery) (ks : list nat) : res (Z * list cquery) := foldM (c_turn t) ks st.
