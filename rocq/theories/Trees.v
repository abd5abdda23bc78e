(** The two segment trees: include/segment_tree/avx2/segment_tree.hpp,
    include/segment_tree/avx512/segment_tree.hpp and their macro files. *)
From Verif Require Import Base Mem Nodes.

(** Which SearchablePrefixSums class. *)
Inductive fam := F2 (* mrs::avx2::segment_tree *) | F5 (* mrs::avx512::segment_tree *).

(** [height] (avx2/segment_tree.hpp 16-22, avx512/segment_tree.hpp 16-21). *)
Definition tree_height (f : fam) (n : Z) : Z :=
  match f with
  | F2 => if n <=? 2 ^ 7 then 1 else if n <=? 2 ^ 13 then 2
          else if n <=? 2 ^ 19 then 3 else if n <=? 2 ^ 24 then 4 else 0
  | F5 => if n <=? 2 ^ 9 then 1 else if n <=? 2 ^ 17 then 2
          else if n <=? 2 ^ 24 then 3 else 0
  end.

(** [std::ceil(static_cast<double>(a) / b)]: exact, see DESIGN.md. *)
Definition cdiv (a b : Z) : Z := (a + b - 1) / b.

(** State of the level-sizing part of build: (m, total_bytes, h, num_nodes_per_level). *)
Definition lvl_state := (Z * Z * Z * list Z)%type.

(** One step [m = ceil(m/fanout); num_nodes_per_level[--h] = m; total_bytes += m*bytes]
    (avx2/segment_tree.hpp 36-38).  The array elements are [uint32_t]. *)
Definition lvl_step (n : node) (st : lvl_state) : res lvl_state :=
  let '(m, total, h, nn) := st in
  let m := cdiv m (nd_fanout (desc n)) in
  let h := h - 1 in
  let* nn := seti nn h (u32 m) in
  Ok (m, u64 (total + m * nd_bytes (desc n)), h, nn).

(** The same, guarded by [if (m > 1)]. *)
Definition lvl_step_if (n : node) (st : lvl_state) : res lvl_state :=
  let '(m, total, h, nn) := st in
  if 1 <? m then lvl_step n st else Ok st.

(** Level sizing: avx2/segment_tree.hpp 30-57, avx512/segment_tree.hpp 29-51. *)
Definition levels (c : cfg) (f : fam) (H : nat) (n : Z) : res lvl_state :=
  let st : lvl_state := (n, 0, Z.of_nat H, repeat 0 H) in
  let* '(m, total, h, nn) :=
    (match f with
     | F2 =>
         let* st := lvl_step A2_128 st in
         let* st := lvl_step_if A2_64 st in
         let* st := lvl_step_if A2_64 st in
         lvl_step_if A2_32 st
     | F5 =>
         let* st := lvl_step A5_512 st in
         let* st := lvl_step_if A5_256 st in
         lvl_step_if A5_128 st
     end) in
  let* _ := massert (c_debug c) (m =? 1) in
  Ok (m, u64 (total + Z.of_nat H * 4), h, nn).

(** Inner loop of the leaf level (avx2/segment_tree.hpp 77-82,
    avx512/segment_tree.hpp 71-76): overwrites a prefix of [tmp] only. *)
Fixpoint leaf_fill (c : cfg) (maxv : Z) (input : list Z) (base : Z) (js : list Z) (tmp : list Z) : res (list Z) :=
  match js with
  | [] => Ok tmp
  | j :: r =>
      if base + j <? zlen input then
        let* v := geti input (base + j) in
        let* _ := massert (c_debug c) (v <=? maxv) in
        let* tmp := seti tmp j v in
        leaf_fill c maxv input base r tmp
      else Ok tmp
  end.

(** Leaf level: avx2/segment_tree.hpp 71-85, avx512/segment_tree.hpp 65-79.
    [tmp] is not cleared between nodes.  Loop counters in closed form
    (base = i * fanout, out = begin + i * bytes). *)
Definition build_leaves (c : cfg) (n : node) (maxv : Z) (input : list Z) (nodes begin_ : Z) (m : list Z) : res (list Z) :=
  let d := desc n in
  let* '(_, m) := foldM (fun '(tmp, m) i =>
      let* tmp := leaf_fill c maxv input (i * nd_fanout d) (zrange 0 (Z.to_nat (nd_fanout d))) tmp in
      let* m := build_node d tmp m (begin_ + i * nd_bytes d) in
      Ok (tmp, m))
    (zrange 0 (Z.to_nat nodes)) (repeat 0 (Z.to_nat (nd_fanout d)), m) in
  Ok m.

(** [for (k = 0; k != step and base + k < n; ++k) sum += input[base + k]]
    with a [uint32_t] sum (avx2/segment_tree.hpp 97-100). *)
Fixpoint group_sum (input : list Z) (base : Z) (fuel : nat) (acc : Z) : res Z :=
  match fuel with
  | O => Ok acc
  | S fuel' =>
      if base <? zlen input then
        let* v := geti input base in
        group_sum input (base + 1) fuel' (u32 (acc + v))
      else Ok acc
  end.

Fixpoint mapM {A B} (f : A -> res B) (l : list A) : res (list B) :=
  match l with
  | [] => Ok []
  | a :: r => let* b := f a in let* bs := mapM f r in Ok (b :: bs)
  end.

(** An inner level: avx2/segment_tree.hpp 91-113, 119-141,
    avx512/segment_tree.hpp 84-106, 111-133.  [base] grows by [step] per child
    across all nodes, hence (i * fanout + t) * step; "shift right by 1" drops the
    last child and puts 0 first. *)
Definition build_inner (n : node) (step : Z) (input : list Z) (nodes begin_ : Z) (m : list Z) : res (list Z) :=
  let d := desc n in
  foldM (fun m i =>
      let* sums := mapM (fun t => group_sum input ((i * nd_fanout d + t) * step) (Z.to_nat step) 0)
                        (zrange 0 (Z.to_nat (nd_fanout d))) in
      let tmp := 0 :: removelast sums in
      build_node d tmp m (begin_ + i * nd_bytes d))
    (zrange 0 (Z.to_nat nodes)) m.

(** State while writing levels: (h, begin, step, buffer). *)
Definition bld_state := (Z * Z * Z * list Z)%type.

(** [if (h > 0) { nodes = num_nodes_per_level[--h]; begin -= nodes * bytes; ... step *= fanout; }]. *)
Definition inner_level (n : node) (nn : list Z) (input : list Z) (st : bld_state) : res bld_state :=
  let '(h, begin_, step, m) := st in
  if 0 <? h then
    let h := h - 1 in
    let* nodes := geti nn h in
    let begin_ := begin_ - nodes * nd_bytes (desc n) in
    let* m := build_inner n step input nodes begin_ m in
    Ok (h, begin_, step * nd_fanout (desc n), m)
  else Ok st.

(** [std::vector<uint8_t>::resize(total)]: keeps a prefix, zero-extends. *)
Definition resize (old : list Z) (total : Z) : list Z :=
  firstn (Z.to_nat total) old ++ repeat 0 (Z.to_nat total - length old).

(** [build] (avx2/segment_tree.hpp 27-145, avx512/segment_tree.hpp 26-137) on
    an object whose [m_data] currently holds [old]; returns the new contents of
    [m_data].  n = length of [input], as mutable_bitmap passes it.  The largest
    counter asserted is 512 (avx2 line 80) resp. 256 (avx512 line 74). *)
Definition tree_build (c : cfg) (f : fam) (H : nat) (input : list Z) (old : list Z) : res (list Z) :=
  let n := zlen input in
  let* _ := massert (c_debug c) ((0 <? n) && (n <=? 2 ^ 24)) in
  let* '(_, total, _, nn) := levels c f H n in
  let m := resize old total in
  let* m := foldM (fun m i => let* v := geti nn i in store 4 m (4 * i) v) (zrange 0 H) m in
  let h := Z.of_nat H - 1 in
  let* nodes := geti nn h in
  let* '(h, _, _, m) :=
    (match f with
     | F2 =>
         let begin_ := total - nodes * nd_bytes (desc A2_128) in
         let* m := build_leaves c A2_128 512 input nodes begin_ m in
         let* st := inner_level A2_64 nn input (h, begin_, 128, m) in
         let* st := inner_level A2_64 nn input st in
         inner_level A2_32 nn input st
     | F5 =>
         let begin_ := total - nodes * nd_bytes (desc A5_512) in
         let* m := build_leaves c A5_512 256 input nodes begin_ m in
         let* st := inner_level A5_256 nn input (h, begin_, 512, m) in
         inner_level A5_128 nn input st
     end) in
  let* _ := massert (c_debug c) (h =? 0) in
  Ok m.

(** What the query members see: [v_size] = m_size, [v_nn i] =
    m_num_nodes_per_level[i], the buffer m_ptr points into ([v_mem], first byte
    at address [v_base]) and the offset [v_ptr] of m_ptr in it. *)
Record tview := { v_size : Z; v_nn : Z -> res Z; v_base : Z; v_ptr : Z; v_mem : list Z }.

Notation bytes_of n := (nd_bytes (desc n)).

(** DYRS_AVX2_SUM_H1..H4 (avx2/segment_tree_macros.hpp 3-53) and
    DYRS_AVX512_SUM_H1..H3 (avx512/segment_tree_macros.hpp 3-30), with the
    [assert(i < size())] of segment_tree.hpp 161 / 153.  Other heights are
    excluded by static_assert.  The offset computed from the child numbers is
    [uint64_t] arithmetic and wraps. *)
Definition tree_sum (c : cfg) (f : fam) (H : nat) (v : tview) (i : Z) : res Z :=
  let* _ := massert (c_debug c) (i <? v_size v) in
  let m := v_mem v in let p := v_ptr v in
  match f, H with
  | F2, 1%nat => node_sum c A2_128 m p i
  | F2, 2%nat =>
      let child1 := i / 128 in
      let child2 := i mod 128 in
      let* s1 := node_sum c A2_64 m p child1 in
      let* s2 := node_sum c A2_128 m (p + bytes_of A2_64 + u64 (child1 * bytes_of A2_128)) child2 in
      Ok (u64 (s1 + s2))
  | F2, 3%nat =>
      let B1 := 128 * 64 in
      let child1 := i / B1 in
      let child2 := (i mod B1) / 128 in
      let child3 := (i mod B1) mod 128 in
      let* n1 := v_nn v 1 in
      let* s1 := node_sum c A2_64 m p child1 in
      let* s2 := node_sum c A2_64 m (p + u64 ((child1 + 1) * bytes_of A2_64)) child2 in
      let* s3 := node_sum c A2_128 m (p + u32 (1 + n1) * bytes_of A2_64
                                        + u64 ((child2 + child1 * 64) * bytes_of A2_128)) child3 in
      Ok (u64 (s1 + s2 + s3))
  | F2, 4%nat =>
      let B1 := 128 * 64 in
      let B2 := B1 * 64 in
      let child1 := i / B2 in
      let child2 := (i mod B2) / B1 in
      let child3 := (i mod B1) / 128 in
      let child4 := (i mod B1) mod 128 in
      let* n1 := v_nn v 1 in
      let* n2 := v_nn v 2 in
      let* s1 := node_sum c A2_32 m p child1 in
      let* s2 := node_sum c A2_64 m (p + bytes_of A2_32 + u64 (child1 * bytes_of A2_64)) child2 in
      let* s3 := node_sum c A2_64 m (p + bytes_of A2_32 + n1 * bytes_of A2_64
                                       + u64 ((child2 + child1 * 64) * bytes_of A2_64)) child3 in
      let* s4 := node_sum c A2_128 m (p + bytes_of A2_32 + u32 (n1 + n2) * bytes_of A2_64
                                        + u64 ((child3 + child2 * 64 + child1 * 64 * 64) * bytes_of A2_128)) child4 in
      Ok (u64 (s1 + s2 + s3 + s4))
  | F5, 1%nat => node_sum c A5_512 m p i
  | F5, 2%nat =>
      let child1 := i / 512 in
      let child2 := i mod 512 in
      let* s1 := node_sum c A5_256 m p child1 in
      let* s2 := node_sum c A5_512 m (p + bytes_of A5_256 + u64 (child1 * bytes_of A5_512)) child2 in
      Ok (u64 (s1 + s2))
  | F5, 3%nat =>
      let B1 := 512 * 256 in
      let child1 := i / B1 in
      let child2 := (i mod B1) / 512 in
      let child3 := (i mod B1) mod 512 in
      let* n1 := v_nn v 1 in
      let* s1 := node_sum c A5_128 m p child1 in
      let* s2 := node_sum c A5_256 m (p + bytes_of A5_128 + u64 (child1 * bytes_of A5_256)) child2 in
      let* s3 := node_sum c A5_512 m (p + bytes_of A5_128 + n1 * bytes_of A5_256
                                        + u64 ((child2 + child1 * 256) * bytes_of A5_512)) child3 in
      Ok (u64 (s1 + s2 + s3))
  | _, _ => Ub UB_noreturn
  end.

(** DYRS_AVX2_UPDATE_H1..H4 (avx2/segment_tree_macros.hpp 55-101) and
    DYRS_AVX512_UPDATE_H1..H3 (avx512/segment_tree_macros.hpp 32-56); returns
    the new contents of the buffer. *)
Definition tree_update (c : cfg) (f : fam) (H : nat) (v : tview) (i : Z) (sign : bool) : res (list Z) :=
  let* _ := massert (c_debug c) (i <? v_size v) in
  let m := v_mem v in let p := v_ptr v in let a := v_base v in
  match f, H with
  | F2, 1%nat => node_update c a A2_128 m p i sign
  | F2, 2%nat =>
      let child1 := i / 128 in
      let child2 := i mod 128 in
      let* m := node_update c a A2_64 m p (child1 + 1) sign in
      node_update c a A2_128 m (p + bytes_of A2_64 + u64 (child1 * bytes_of A2_128)) child2 sign
  | F2, 3%nat =>
      let B1 := 128 * 64 in
      let child1 := i / B1 in
      let child2 := (i mod B1) / 128 in
      let child3 := (i mod B1) mod 128 in
      let* n1 := v_nn v 1 in
      let* m := node_update c a A2_64 m p (child1 + 1) sign in
      let* m := node_update c a A2_64 m (p + u64 ((child1 + 1) * bytes_of A2_64)) (child2 + 1) sign in
      node_update c a A2_128 m (p + u32 (1 + n1) * bytes_of A2_64
                                  + u64 ((child2 + child1 * 64) * bytes_of A2_128)) child3 sign
  | F2, 4%nat =>
      let B1 := 128 * 64 in
      let B2 := B1 * 64 in
      let child1 := i / B2 in
      let child2 := (i mod B2) / B1 in
      let child3 := (i mod B1) / 128 in
      let child4 := (i mod B1) mod 128 in
      let* n1 := v_nn v 1 in
      let* n2 := v_nn v 2 in
      let* m := node_update c a A2_32 m p (child1 + 1) sign in
      let* m := node_update c a A2_64 m (p + bytes_of A2_32 + u64 (child1 * bytes_of A2_64)) (child2 + 1) sign in
      let* m := node_update c a A2_64 m (p + bytes_of A2_32 + n1 * bytes_of A2_64
                                           + u64 ((child2 + child1 * 64) * bytes_of A2_64)) (child3 + 1) sign in
      node_update c a A2_128 m (p + bytes_of A2_32 + u32 (n1 + n2) * bytes_of A2_64
                                  + u64 ((child3 + child2 * 64 + child1 * 64 * 64) * bytes_of A2_128)) child4 sign
  | F5, 1%nat => node_update c a A5_512 m p i sign
  | F5, 2%nat =>
      let child1 := i / 512 in
      let child2 := i mod 512 in
      let* m := node_update c a A5_256 m p (child1 + 1) sign in
      node_update c a A5_512 m (p + bytes_of A5_256 + u64 (child1 * bytes_of A5_512)) child2 sign
  | F5, 3%nat =>
      let B1 := 512 * 256 in
      let child1 := i / B1 in
      let child2 := (i mod B1) / 512 in
      let child3 := (i mod B1) mod 512 in
      let* n1 := v_nn v 1 in
      let* m := node_update c a A5_128 m p (child1 + 1) sign in
      let* m := node_update c a A5_256 m (p + bytes_of A5_128 + u64 (child1 * bytes_of A5_256)) (child2 + 1) sign in
      node_update c a A5_512 m (p + bytes_of A5_128 + n1 * bytes_of A5_256
                                  + u64 ((child2 + child1 * 256) * bytes_of A5_512)) child3 sign
  | _, _ => Ub UB_noreturn
  end.

(** DYRS_AVX2_SEARCH_H1..H4 (avx2/segment_tree_macros.hpp 103-158) and
    DYRS_AVX512_SEARCH_H1..H3 (avx512/segment_tree_macros.hpp 58-87). *)
Definition tree_search (c : cfg) (f : fam) (H : nat) (v : tview) (x : Z) : res (Z * Z) :=
  let m := v_mem v in let p := v_ptr v in
  match f, H with
  | F2, 1%nat => node_search c A2_128 m p x
  | F2, 2%nat =>
      let* '(q1, s1) := node_search c A2_64 m p x in
      let x := u64 (x - s1) in
      let i1 := u64 (q1 - 1) in
      let* '(q2, s2) := node_search c A2_128 m (p + bytes_of A2_64 + u64 (i1 * bytes_of A2_128)) x in
      Ok (u64 (i1 * 128 + q2), u64 (s1 + s2))
  | F2, 3%nat =>
      let* '(q1, s1) := node_search c A2_64 m p x in
      let x := u64 (x - s1) in
      let i1 := u64 (q1 - 1) in
      let* '(q2, s2) := node_search c A2_64 m (p + u64 ((i1 + 1) * bytes_of A2_64)) x in
      let x := u64 (x - s2) in
      let i2 := u64 (q2 - 1) in
      let* n1 := v_nn v 1 in
      let* '(q3, s3) := node_search c A2_128 m (p + u32 (1 + n1) * bytes_of A2_64
                                                  + u64 ((i2 + i1 * 64) * bytes_of A2_128)) x in
      Ok (u64 (i1 * 128 * 64 + i2 * 128 + q3), u64 (s1 + s2 + s3))
  | F2, 4%nat =>
      let* '(q1, s1) := node_search c A2_32 m p x in
      let x := u64 (x - s1) in
      let i1 := u64 (q1 - 1) in
      let* '(q2, s2) := node_search c A2_64 m (p + bytes_of A2_32 + u64 (i1 * bytes_of A2_64)) x in
      let x := u64 (x - s2) in
      let i2 := u64 (q2 - 1) in
      let* n1 := v_nn v 1 in
      let* '(q3, s3) := node_search c A2_64 m (p + bytes_of A2_32 + n1 * bytes_of A2_64
                                                 + u64 ((i2 + i1 * 64) * bytes_of A2_64)) x in
      let x := u64 (x - s3) in
      let i3 := u64 (q3 - 1) in
      let* n2 := v_nn v 2 in
      let* '(q4, s4) := node_search c A2_128 m (p + bytes_of A2_32 + u32 (n1 + n2) * bytes_of A2_64
                                                  + u64 ((i3 + i2 * 64 + i1 * 64 * 64) * bytes_of A2_128)) x in
      Ok (u64 (i1 * 128 * 64 * 64 + i2 * 128 * 64 + i3 * 128 + q4), u64 (s1 + s2 + s3 + s4))
  | F5, 1%nat => node_search c A5_512 m p x
  | F5, 2%nat =>
      let* '(q1, s1) := node_search c A5_256 m p x in
      let x := u64 (x - s1) in
      let i1 := u64 (q1 - 1) in
      let* '(q2, s2) := node_search c A5_512 m (p + bytes_of A5_256 + u64 (i1 * bytes_of A5_512)) x in
      Ok (u64 (i1 * 512 + q2), u64 (s1 + s2))
  | F5, 3%nat =>
      let* '(q1, s1) := node_search c A5_128 m p x in
      let x := u64 (x - s1) in
      let i1 := u64 (q1 - 1) in
      let* '(q2, s2) := node_search c A5_256 m (p + bytes_of A5_128 + u64 (i1 * bytes_of A5_256)) x in
      let x := u64 (x - s2) in
      let i2 := u64 (q2 - 1) in
      let* n1 := v_nn v 1 in
      let* '(q3, s3) := node_search c A5_512 m (p + bytes_of A5_128 + n1 * bytes_of A5_256
                                                  + u64 ((i2 + i1 * 256) * bytes_of A5_512)) x in
      Ok (u64 (i1 * 512 * 256 + i2 * 512 + q3), u64 (s1 + s2 + s3))
  | _, _ => Ub UB_noreturn
  end.
