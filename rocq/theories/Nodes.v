(** The six node classes of the two segment trees. *)
From Verif Require Import Base Mem Tables.

(** Static constants of a node class (node*.hpp lines 11-19): sizes in bytes of
    [key_type] and [summary_type], segment_size, num_segments, fanout. *)
Record ndesc := { nd_kb : nat; nd_sb : nat; nd_seg : Z; nd_nseg : Z; nd_fanout : Z }.

(** [bytes] (node*.hpp lines 17-19). *)
Definition nd_bytes (d : ndesc) : Z :=
  nd_fanout d * Z.of_nat (nd_kb d) + nd_nseg d * Z.of_nat (nd_sb d).

Inductive node :=
| A2_128  (* include/segment_tree/avx2/node128.hpp *)
| A2_64   (* include/segment_tree/avx2/node64.hpp *)
| A2_32   (* include/segment_tree/avx2/node32.hpp *)
| A5_512  (* include/segment_tree/avx512/node512.hpp *)
| A5_256  (* include/segment_tree/avx512/node256.hpp *)
| A5_128  (* include/segment_tree/avx512/node128.hpp *).

(** avx2/node128.hpp 13-19, avx2/node64.hpp 13-19, avx2/node32.hpp 13-19,
    avx512/node512.hpp 12-18, avx512/node256.hpp 12-18, avx512/node128.hpp 12-18. *)
Definition desc (n : node) : ndesc :=
  match n with
  | A2_128 => {| nd_kb := 2; nd_sb := 4; nd_seg := 16; nd_nseg := 8;  nd_fanout := 128 |}
  | A2_64  => {| nd_kb := 4; nd_sb := 4; nd_seg := 8;  nd_nseg := 8;  nd_fanout := 64 |}
  | A2_32  => {| nd_kb := 4; nd_sb := 8; nd_seg := 8;  nd_nseg := 4;  nd_fanout := 32 |}
  | A5_512 => {| nd_kb := 2; nd_sb := 4; nd_seg := 32; nd_nseg := 16; nd_fanout := 512 |}
  | A5_256 => {| nd_kb := 4; nd_sb := 4; nd_seg := 16; nd_nseg := 16; nd_fanout := 256 |}
  | A5_128 => {| nd_kb := 4; nd_sb := 8; nd_seg := 16; nd_nseg := 8;  nd_fanout := 128 |}
  end.

(** Addresses of [summary[j]] and [keys[i]] for a node at byte offset [p]
    ([at], node*.hpp lines 36-40 resp. 35-39). *)
Definition sm_addr (d : ndesc) (p j : Z) : Z := p + Z.of_nat (nd_sb d) * j.
Definition ky_addr (d : ndesc) (p i : Z) : Z :=
  p + nd_nseg d * Z.of_nat (nd_sb d) + Z.of_nat (nd_kb d) * i.

Definition load_sm (d : ndesc) (m : list Z) (p j : Z) : res Z := load (nd_sb d) m (sm_addr d p j).
Definition load_ky (d : ndesc) (m : list Z) (p i : Z) : res Z := load (nd_kb d) m (ky_addr d p i).
Definition store_sm (d : ndesc) (m : list Z) (p j v : Z) : res (list Z) := store (nd_sb d) m (sm_addr d p j) v.
Definition store_ky (d : ndesc) (m : list Z) (p i v : Z) : res (list Z) := store (nd_kb d) m (ky_addr d p i) v.

(** include/util.hpp lines 10-30, build_node_prefix_sums.  Stores truncate to
    the element size.  [input] is the caller's temporary array. *)
Definition build_node (d : ndesc) (input : list Z) (m : list Z) (out : Z) : res (list Z) :=
  let* m := storeu 1 m out (repeat 0 (Z.to_nat (nd_bytes d))) in
  let* m := store_sm d m out 0 0 in
  foldM (fun m i =>
    let base := i * nd_seg d in
    let* v := geti input base in
    let* m := store_ky d m out base v in
    let* m := foldM (fun m j =>
        let* a := load_ky d m out (base + (j - 1)) in
        let* b := geti input (base + j) in
        store_ky d m out (base + j) (a + b))
      (zrange 1 (Z.to_nat (nd_seg d - 1))) m in
    if i + 1 <? nd_nseg d then
      let* a := load_sm d m out i in
      let* b := load_ky d m out (base + (nd_seg d - 1)) in
      store_sm d m out (i + 1) (a + b)
    else Ok m)
    (zrange 0 (Z.to_nat (nd_nseg d))) m.

(** [sum] (avx2/node*.hpp lines 67-70, avx512/node*.hpp lines 66-69): the
    addition is done in [uint32_t] when summary_type is 32-bit, else in 64. *)
Definition node_sum (c : cfg) (n : node) (m : list Z) (p i : Z) : res Z :=
  let d := desc n in
  let* _ := massert (c_debug c) (i <? nd_fanout d) in
  let* s := load_sm d m p (i / nd_seg d) in
  let* k := load_ky d m p i in
  Ok (wrap (8 * Z.of_nat (nd_sb d)) (s + k)).

(** Scalar body of [update] (avx2/node*.hpp lines 48-52, avx512/node*.hpp
    lines 58-62).  [delta] is an [int8_t]; [+=] wraps in the element type.  For
    i > fanout the loop [z != num_segments] would run away. *)
Definition update_scalar (d : ndesc) (m : list Z) (p i : Z) (sign : bool) : res (list Z) :=
  if nd_fanout d <? i then Ub UB_bounds else
  let j := i / nd_seg d in
  let k := i mod nd_seg d in
  let delta := if sign then -1 else 1 in
  let* m := foldM (fun m z =>
      let* v := load_sm d m p z in store_sm d m p z (v + delta))
    (zrange (j + 1) (Z.to_nat (nd_nseg d - (j + 1)))) m in
  foldM (fun m z =>
      let* v := load_ky d m p (j * nd_seg d + z) in
      store_ky d m p (j * nd_seg d + z) (v + delta))
    (zrange k (Z.to_nat (nd_seg d - k))) m.

(** Vector body of [update] (avx2/node*.hpp lines 54-63, avx512/node*.hpp lines
    47-56): add table row [s1] to the summary vector and row [s2] to the
    segment's key vector.  [al]: the summary is read with the aligned load
    (avx2/node128.hpp lines 56-57 only).  [base]: address of the buffer. *)
Definition update_vector (c : cfg) (base : Z) (d : ndesc) (al : bool)
    (row1 row2 : res (list Z)) (m : list Z) (p j : Z) : res (list Z) :=
  let sbits := 8 * Z.of_nat (nd_sb d) in
  let kbits := 8 * Z.of_nat (nd_kb d) in
  let* s1 := row1 in
  let* v1 := (if al then load_aligned (c_trap c) base (nd_sb d) (Z.to_nat (nd_nseg d)) m (sm_addr d p 0)
              else loadu (nd_sb d) (Z.to_nat (nd_nseg d)) m (sm_addr d p 0)) in
  let* m := storeu (nd_sb d) m (sm_addr d p 0) (vadd sbits v1 s1) in
  let* s2 := row2 in
  let* v2 := loadu (nd_kb d) (Z.to_nat (nd_seg d)) m (ky_addr d p (j * nd_seg d)) in
  storeu (nd_kb d) m (ky_addr d p (j * nd_seg d)) (vadd kbits v2 s2).

(** [update] of the six classes: avx2/node128.hpp 42-65, avx2/node64.hpp 42-65,
    avx2/node32.hpp 42-65, avx512/node512.hpp 41-64, avx512/node256.hpp 41-64,
    avx512/node128.hpp 41-64. *)
Definition node_update (c : cfg) (base : Z) (n : node) (m : list Z) (p i : Z) (sign : bool) : res (list Z) :=
  let d := desc n in
  if i =? nd_fanout d then Ok m else
  let* _ := massert (c_debug c) (i <? nd_fanout d) in
  let j := i / nd_seg d in
  let k := i mod nd_seg d in
  let sg := b2z sign in
  match n with
  | A2_128 =>
      if c_avx2 c then
        update_vector c base d true
          (tbl_row 32 8 update_8_32 (j + 1 + sg * (nd_nseg d + 1)))
          (tbl_row 16 16 update_16_16 (k + sg * nd_seg d)) m p j
      else update_scalar d m p i sign
  | A2_64 =>
      if c_avx2 c then
        update_vector c base d false
          (tbl_row 32 8 update_8_32 (j + 1 + sg * (nd_nseg d + 1)))
          (tbl_row 32 8 update_8_32 (k + sg * (nd_seg d + 1))) m p j
      else update_scalar d m p i sign
  | A2_32 =>
      if c_avx2 c then
        update_vector c base d false
          (tbl_row 64 4 update_4_64 (j + sg * nd_nseg d))
          (tbl_row 32 8 update_8_32 (k + sg * (nd_seg d + 1))) m p j
      else update_scalar d m p i sign
  | A5_512 =>
      if c_avx512 c then
        update_vector c base d false
          (tbl_row 32 16 update_16_32 (j + 1 + sg * (nd_nseg d + 1)))
          (tbl_row 16 32 update_32_16 (k + sg * nd_seg d)) m p j
      else update_scalar d m p i sign
  | A5_256 =>
      if c_avx512 c then
        update_vector c base d false
          (tbl_row 32 16 update_16_32 (j + 1 + sg * (nd_nseg d + 1)))
          (tbl_row 32 16 update_16_32 (k + sg * (nd_seg d + 1))) m p j
      else update_scalar d m p i sign
  | A5_128 =>
      if c_avx512 c then
        update_vector c base d false
          (tbl_row 64 8 update_8_64 (j + sg * nd_nseg d))
          (tbl_row 32 16 update_16_32 (k + sg * (nd_seg d + 1))) m p j
      else update_scalar d m p i sign
  end.

(** avx2/search_common.hpp lines 21-27, index_fs (256-bit version): the vector
    reinterpreted as four 64-bit words. *)
Definition index_fs (bits : Z) (v : list Z) : Z :=
  let per := Z.to_nat (64 / bits) in
  let w q := pack bits (firstn per (skipn (q * per) v)) in
  (tzcnt64 (w 0%nat) + tzcnt64 (w 1%nat) + tzcnt64 (w 2%nat) + tzcnt64 (w 3%nat)) / bits.

(** A linear scan: first index of the list whose element exceeds [x]; [i]
    counts along.  The loops at avx2/node64.hpp 79-81 and 85-87 and their
    copies in the other node classes. *)
Fixpoint scan_gt (ld : Z -> res Z) (x : Z) (idx : list Z) (i : Z) : res Z :=
  match idx with
  | [] => Ok i
  | z :: r => let* v := ld z in if x <? v then Ok i else scan_gt ld x r (i + 1)
  end.

(** Scalar body of [search] (avx2/node128.hpp 78-86, avx2/node64.hpp 79-87,
    avx2/node32.hpp 78-86, avx512/node512.hpp 89-97, avx512/node256.hpp and
    node128.hpp 89-97). *)
Definition search_scalar (c : cfg) (d : ndesc) (m : list Z) (p x : Z) : res Z :=
  let* i := scan_gt (load_sm d m p) x (zrange 1 (Z.to_nat (nd_nseg d - 1))) 0 in
  let* _ := massert (c_debug c) (i <? nd_nseg d) in
  let* s := load_sm d m p i in
  let x := u64 (x - s) in
  let i := u64 (i * nd_seg d) in
  scan_gt (load_ky d m p) x (zrange i (Z.to_nat (nd_seg d))) i.

(** AVX2 body of [search] (avx2/node128.hpp 88-97, avx2/node64.hpp 89-98,
    avx2/node32.hpp 88-97). *)
Definition search_avx2 (c : cfg) (d : ndesc) (m : list Z) (p x : Z) : res Z :=
  let sbits := 8 * Z.of_nat (nd_sb d) in
  let kbits := 8 * Z.of_nat (nd_kb d) in
  let nsg := Z.to_nat (nd_nseg d) in
  let sg := Z.to_nat (nd_seg d) in
  let* v1 := loadu (nd_sb d) nsg m (sm_addr d p 0) in
  let cmp1 := vcmpgt sbits v1 (set1 sbits nsg x) in
  let i := u64 (index_fs sbits cmp1 - 1) in
  let* _ := massert (c_debug c) (i <? nd_nseg d) in
  let* s := load_sm d m p i in
  let x := u64 (x - s) in
  let i := u64 (i * nd_seg d) in
  let* v2 := loadu (nd_kb d) sg m (ky_addr d p i) in
  let cmp2 := vcmpgt kbits v2 (set1 kbits sg x) in
  Ok (u64 (i + index_fs kbits cmp2)).

(** AVX-512 body of [search] (avx512/node512.hpp 77-87, avx512/node256.hpp and
    node128.hpp 77-87). *)
Definition search_avx512 (c : cfg) (d : ndesc) (m : list Z) (p x : Z) : res Z :=
  let sbits := 8 * Z.of_nat (nd_sb d) in
  let kbits := 8 * Z.of_nat (nd_kb d) in
  let nsg := Z.to_nat (nd_nseg d) in
  let sg := Z.to_nat (nd_seg d) in
  let* v1 := loadu (nd_sb d) nsg m (sm_addr d p 0) in
  let cmp1 := vcmpgt_mask sbits v1 (set1 sbits nsg x) in
  let* i := (if negb (cmp1 =? 0) then (let* t := ctz cmp1 in Ok (u64 (t - 1)))
             else Ok (nd_nseg d - 1)) in
  let* _ := massert (c_debug c) (i <? nd_nseg d) in
  let* s := load_sm d m p i in
  let x := u64 (x - s) in
  let i := u64 (i * nd_seg d) in
  let* v2 := loadu (nd_kb d) sg m (ky_addr d p i) in
  let cmp2 := vcmpgt_mask kbits v2 (set1 kbits sg x) in
  let* _ := massert (c_debug c) (0 <? cmp2) in
  let* t := ctz cmp2 in
  Ok (u64 (i + t)).

(** Last line of every [search]: [return {i, i ? sum(i - 1) : 0}]. *)
Definition search_return (c : cfg) (n : node) (m : list Z) (p i : Z) : res (Z * Z) :=
  if i =? 0 then Ok (0, 0)
  else let* s := node_sum c n m p (i - 1) in Ok (i, s).

(** [search] of the six classes: avx2/node128.hpp 74-101, avx2/node64.hpp
    74-101, avx2/node32.hpp 74-100, avx512/node512.hpp 73-101,
    avx512/node256.hpp 73-100, avx512/node128.hpp 73-100.  Result =
    search_result{position, sum} (include/util.hpp 5-8). *)
Definition node_search (c : cfg) (n : node) (m : list Z) (p x : Z) : res (Z * Z) :=
  let d := desc n in
  match n with
  | A2_128 | A5_512 =>
      let* _ := (if c_debug c then
                   let* t := node_sum c n m p (nd_fanout d - 1) in massert true (x <? t)
                 else Ok tt) in
      let* i := (match n with
                 | A2_128 => if c_avx2 c then search_avx2 c d m p x else search_scalar c d m p x
                 | _ => if c_avx512 c then search_avx512 c d m p x else search_scalar c d m p x
                 end) in
      let* _ := massert (c_debug c) (i <? nd_fanout d) in
      search_return c n m p i
  | A2_64 | A2_32 =>
      let* i := (if c_avx2 c then search_avx2 c d m p x else search_scalar c d m p x) in
      search_return c n m p i
  | A5_256 | A5_128 =>
      let* t := node_sum c n m p (nd_fanout d - 1) in
      if t <=? x then Ok (nd_fanout d, t)
      else
        let* i := (if c_avx512 c then search_avx512 c d m p x else search_scalar c d m p x) in
        search_return c n m p i
  end.
