(** Properties of blocks, nodes and trees (C12-C18, C28, C31). *)
From Verif Require Import Base Mem Nodes Trees Words Blocks Spec SpecIndex Drivers Bitmap Usage IndexFacts PropFacts2 Demo Demo2.

(** ** C12: every supported rank mode counts the ones of the block *)
Theorem C12_rank_256 : forall c rm sm s x i,
  rank256_supported rm = true -> reachable_statics c (B256 rm sm) s -> block_ok (B256 rm sm) x -> 0 <= i < 256 ->
  exists s', block_rank c (B256 rm sm) s x i = Ok (rank_spec (block_bits (B256 rm sm) x) i, s').
Proof. exact rank_256. Qed.
Print Assumptions C12_rank_256.

Theorem C12_rank_512 : forall c rm sm s x i,
  rank512_supported rm = true -> reachable_statics c (B512 rm sm) s -> block_ok (B512 rm sm) x -> 0 <= i < 512 ->
  exists s', block_rank c (B512 rm sm) s x i = Ok (rank_spec (block_bits (B512 rm sm) x) i, s').
Proof. exact rank_512. Qed.
Print Assumptions C12_rank_512.

Theorem C12_rank_64 : forall c s x i, block_ok B64 x -> 0 <= i < 64 ->
  exists s', block_rank c B64 s x i = Ok (rank_spec (block_bits B64 x) i, s').
Proof. exact rank_64. Qed.
Print Assumptions C12_rank_64.

Example C12_case : forall rm sm,
  block_ok (B512 rm sm) demo_ptr /\ rank_spec (block_bits (B512 rm sm) demo_ptr) 511 = 232 /\
  rank_spec (block_bits (B256 rm sm) demo_ptr) 200 = 91 /\ rank_spec (block_bits B64 demo_ptr) 63 = 30.
Proof. intros. split; [apply demo_block|]. vm_compute. auto. Qed.

(** ** C13: every in-word select algorithm finds the (k+1)-th one *)
Theorem C13_select_word : forall c m x k, 0 <= x < 2 ^ 64 -> 0 <= k < count_true (bits_of_word x) ->
  exists p, select_u64 c m x k = Ok p /\ is_select (bits_of_word x) k p /\
    forall q, is_select (bits_of_word x) k q -> q = p.
Proof. exact select_u64_spec. Qed.
Print Assumptions C13_select_word.

Example C13_case : 0 <= 0x9E3779B97F4A7C15 < 2 ^ 64 /\ 0 <= 37 < count_true (bits_of_word 0x9E3779B97F4A7C15).
Proof. vm_compute. intuition congruence. Qed.

(** ** C14: every supported block select mode finds the (k+1)-th one *)
Theorem C14_select_256 : forall c rm sm s x k,
  select256_supported sm = true -> reachable_statics c (B256 rm sm) s -> block_ok (B256 rm sm) x ->
  0 <= k < count_true (block_bits (B256 rm sm) x) ->
  exists p s', block_select c (B256 rm sm) s x k = Ok (p, s') /\ is_select (block_bits (B256 rm sm) x) k p /\
    forall q, is_select (block_bits (B256 rm sm) x) k q -> q = p.
Proof. exact select_256. Qed.
Print Assumptions C14_select_256.

Theorem C14_select_512 : forall c rm sm s x k,
  select512_supported sm = true -> reachable_statics c (B512 rm sm) s -> block_ok (B512 rm sm) x ->
  0 <= k < count_true (block_bits (B512 rm sm) x) ->
  exists p s', block_select c (B512 rm sm) s x k = Ok (p, s') /\ is_select (block_bits (B512 rm sm) x) k p /\
    forall q, is_select (block_bits (B512 rm sm) x) k q -> q = p.
Proof. exact select_512. Qed.
Print Assumptions C14_select_512.

Theorem C14_select_64 : forall c s x k, reachable_statics c B64 s -> block_ok B64 x ->
  0 <= k < count_true (block_bits B64 x) ->
  exists p s', block_select c B64 s x k = Ok (p, s') /\ is_select (block_bits B64 x) k p /\
    forall q, is_select (block_bits B64 x) k q -> q = p.
Proof. exact select_64. Qed.
Print Assumptions C14_select_64.

Example C14_case : forall c rm sm,
  reachable_statics c (B512 rm sm) (statics_init (B512 rm sm)) /\ block_ok (B512 rm sm) demo_ptr /\
  0 <= 231 < count_true (block_bits (B512 rm sm) demo_ptr) /\ 0 <= 90 < count_true (block_bits (B256 rm sm) demo_ptr).
Proof. intros. split; [constructor|]. split; [apply demo_block|]. vm_compute. intuition congruence. Qed.

(** ** C15: all popcounts agree *)
Theorem C15_popcounts_agree : forall c x v, 0 <= x < 2 ^ 64 -> words_ok v ->
  popcount_u64 c PC_broadword x = Ok (count_true (bits_of_word x)) /\
  popcount_u64 c PC_builtin x = Ok (count_true (bits_of_word x)) /\
  popcount_vec v = map (fun w => count_true (bits_of_word w)) v.
Proof. exact popcounts_agree. Qed.
Print Assumptions C15_popcounts_agree.

Example C15_case : 0 <= 0x9E3779B97F4A7C15 < 2 ^ 64 /\ words_ok demo_input /\ count_true (bits_of_word 0x9E3779B97F4A7C15) = 38.
Proof. split; [vm_compute; intuition congruence|]. split; [exact demo_words|reflexivity]. Qed.

(** ** C16: index nodes implement prefix sums *)
Theorem C16_node_prefix_sums : forall c base n p m input ops,
  node_place_ok c base n p m -> node_fits c n input -> iops_valid (node_fits c n) input ops ->
  exists outs m', node_program c base n p m input ops = Ok (outs, m') /\ ianswers_ok input ops outs /\
    zlen m' = zlen m /\ forall k, 0 <= k -> k < p \/ p + nd_bytes (desc n) <= k -> zn 0 m' k = zn 0 m k.
Proof. exact node_program_ok. Qed.
Print Assumptions C16_node_prefix_sums.

(** Inner classes are also searched past their total: they return the fanout. *)
Theorem C16_search_past_total : forall c n p m input x,
  node_place_ok c 0 n p m -> node_fits c n input -> (n <> A2_128 /\ n <> A5_512) ->
  psum input (nd_fanout (desc n)) <= x < 2 ^ 64 ->
  (vector_paths c n = true -> x < 2 ^ (8 * Z.of_nat (nd_sb (desc n)) - 1) /\
    x - psum input ((nd_nseg (desc n) - 1) * nd_seg (desc n)) < 2 ^ (8 * Z.of_nat (nd_kb (desc n)) - 1)) ->
  exists m', build_node (desc n) input m p = Ok m' /\
    node_search c n m' p x = Ok (nd_fanout (desc n), psum input (nd_fanout (desc n))).
Proof. exact node_search_past. Qed.
Print Assumptions C16_search_past_total.

(** Updating one past the last entry does nothing. *)
Theorem C16_update_past_end : forall c base n p m sign,
  node_update c base n m p (nd_fanout (desc n)) sign = Ok m.
Proof. exact update_past_end. Qed.
Print Assumptions C16_update_past_end.

Example C16_case :
  node_place_ok demo_cfg 0 A2_128 32 (repeat 255 400) /\ node_fits demo_cfg A2_128 (demo_counters 128) /\
  iops_valid (node_fits demo_cfg A2_128) (demo_counters 128) demo_iops /\
  node_fits demo_avx512 A5_256 (demo_counters 256) /\ iops_valid (node_fits demo_avx512 A5_256) (demo_counters 256) demo_iops.
Proof.
  split; [vm_compute; intuition congruence|]. split; [apply node_fits_b_ok; vm_compute; reflexivity|].
  split; [apply (iops_valid_b_ok _ (node_fits_b demo_cfg A2_128)); [apply node_fits_b_ok|vm_compute; reflexivity]|].
  split; [apply node_fits_b_ok; vm_compute; reflexivity|].
  apply (iops_valid_b_ok _ (node_fits_b demo_avx512 A5_256)); [apply node_fits_b_ok|vm_compute; reflexivity].
Qed.

(** ** C17: index trees implement searchable prefix sums *)
Theorem C17_tree_prefix_sums : forall c f H addr old input ops mx,
  1 <= zlen input <= 2 ^ 24 -> Z.of_nat H = tree_height f (zlen input) ->
  0 <= mx <= 512 -> counters_in mx input -> (c_debug c = true -> counters_in (max_leaf f) input) ->
  (f = F2 -> c_avx2 c = true -> c_trap c = true -> (addr + Z.of_nat H * 4) mod 32 = 0) ->
  iops_valid (counters_in mx) input ops -> isearches_safe c f H input ops ->
  exists outs m, tree_program c f H addr old input ops = Ok (outs, m) /\ ianswers_ok input ops outs /\
    zlen m = index_bytes f (zlen input).
Proof. exact tree_program_bytes. Qed.
Print Assumptions C17_tree_prefix_sums.

Example C17_case : let A := demo_counters 1000 in
  Z.of_nat 2 = tree_height F2 (zlen A) /\ counters_in 256 A /\ counters_in (max_leaf F2) A /\
  (demo_addr + Z.of_nat 2 * 4) mod 32 = 0 /\
  iops_valid (counters_in 300) A (ISum 999 :: ISearch 100000 :: IUpdate 998 false :: demo_iops) /\
  isearches_safe demo_cfg F2 2 A (ISum 999 :: ISearch 100000 :: IUpdate 998 false :: demo_iops).
Proof.
  cbv zeta. split; [reflexivity|]. split; [apply counters_in_b_ok; vm_compute; reflexivity|].
  split; [apply counters_in_b_ok; vm_compute; reflexivity|]. split; [reflexivity|].
  split; [apply (iops_valid_b_ok _ (counters_in_b 300)); [apply counters_in_b_ok|vm_compute; reflexivity]|].
  unfold demo_iops. cbn [isearches_safe]. intuition discriminate.
Qed.

(** ** C18: height(n) is exactly the height that works *)

(** The smallest number of levels that holds [n] counters. *)
Theorem C18_height_exact : forall f n, 1 <= n <= 2 ^ 24 ->
  let h := tree_height f n in 1 <= h <= max_height f /\ capacity f (h - 1) < n <= capacity f h.
Proof. exact height_exact. Qed.
Print Assumptions C18_height_exact.

Theorem C18_height_outside : forall f n, tree_height f 0 = 1 /\ (2 ^ 24 < n -> tree_height f n = 0).
Proof. exact height_outside. Qed.
Print Assumptions C18_height_outside.

(** With that height build creates one root, and on every level exactly the nodes
    needed. *)
Theorem C18_levels : forall c f H input old mx,
  1 <= zlen input <= 2 ^ 24 -> Z.of_nat H = tree_height f (zlen input) ->
  0 <= mx <= 512 -> counters_in mx input -> (c_debug c = true -> counters_in (max_leaf f) input) ->
  exists m, tree_build c f H input old = Ok m /\ load 4 m 0 = Ok 1 /\
    forall k, 0 <= k < Z.of_nat H -> exists q, load 4 m (4 * k) = Ok q /\
      (q - 1) * capacity f (Z.of_nat H - k) < zlen input <= q * capacity f (Z.of_nat H - k).
Proof. exact build_levels. Qed.
Print Assumptions C18_levels.

(** With a smaller height build writes out of bounds, whatever the input. *)
Theorem C18_smaller_height : forall c f H input old,
  1 <= zlen input <= 2 ^ 24 -> 1 <= Z.of_nat H < tree_height f (zlen input) ->
  tree_build c f H input old = Ub UB_bounds.
Proof. exact small_height. Qed.
Print Assumptions C18_smaller_height.

(** With a larger one the leaves are looked for one root too far: the last
    counter is read past the end of the buffer and cannot be returned, in any
    configuration and for any contents.  Only the largest height spares a first
    part of the last leaf, [overhang] counters long. *)
Theorem C18_larger_height : forall c f H addr old input,
  1 <= zlen input <= 2 ^ 24 -> tree_height f (zlen input) < Z.of_nat H <= max_height f ->
  overhang f (Z.of_nat H) <= (zlen input - 1) mod capacity f 1 ->
  forall r, tree_program c f H addr old input [ISum (zlen input - 1)] <> Ok r.
Proof. exact taller_height. Qed.
Print Assumptions C18_larger_height.

Example C18_taller_case : let A := demo_counters (Z.to_nat 800) in
  1 <= zlen A <= 2 ^ 24 /\
  tree_height F2 (zlen A) < Z.of_nat 3 <= max_height F2 /\ overhang F2 3 <= (zlen A - 1) mod capacity F2 1 /\
  tree_height F5 (zlen A) < Z.of_nat 3 <= max_height F5 /\ overhang F5 3 <= (zlen A - 1) mod capacity F5 1.
Proof. vm_compute. intuition congruence. Qed.

Example C18_case : let A := demo_counters (Z.to_nat 8193) in
  Z.of_nat 3 = tree_height F2 (zlen A) /\ 1 <= Z.of_nat 2 < tree_height F2 (zlen A) /\ counters_in 256 A.
Proof. cbv zeta. split; [reflexivity|]. split; [vm_compute; intuition congruence|]. apply counters_in_b_ok. vm_compute. reflexivity. Qed.

(** ** C28: stale scratch in the last leaf is invisible *)

(** Two counter arrays that agree on the first [k] entries give the same answers
    to every sequence of calls that concerns those entries only. *)
Theorem C28_unused_entries_invisible : forall c base n p m A1 A2 k ops,
  node_place_ok c base n p m -> node_fits c n A1 -> node_fits c n A2 ->
  0 <= k <= nd_fanout (desc n) -> firstn (Z.to_nat k) A1 = firstn (Z.to_nat k) A2 ->
  iops_below k A1 ops -> iops_valid (node_fits c n) A1 ops -> iops_valid (node_fits c n) A2 ops ->
  exists outs m1 m2, node_program c base n p m A1 ops = Ok (outs, m1) /\ node_program c base n p m A2 ops = Ok (outs, m2).
Proof. exact node_stale. Qed.
Print Assumptions C28_unused_entries_invisible.

Example C28_case : let A := demo_counters 128 in let A2 := upd (upd A 127 9) 126 200 in
  node_place_ok demo_scalar 0 A2_128 0 (repeat 0 288) /\ node_fits demo_scalar A2_128 A /\ node_fits demo_scalar A2_128 A2 /\
  firstn 126 A = firstn 126 A2 /\ A <> A2 /\
  let ops := [IUpdate 125 false; ISearch 14000; ISum 125] in
  iops_below 126 A ops /\ iops_valid (node_fits demo_scalar A2_128) A ops /\ iops_valid (node_fits demo_scalar A2_128) A2 ops.
Proof.
  cbv zeta. split; [vm_compute; intuition congruence|]. split; [apply node_fits_b_ok; vm_compute; reflexivity|].
  split; [apply node_fits_b_ok; vm_compute; reflexivity|]. split; [vm_compute; reflexivity|]. split; [vm_compute; congruence|].
  split; [apply iops_below_b_ok; vm_compute; reflexivity|].
  split; apply (iops_valid_b_ok _ (node_fits_b demo_scalar A2_128)); try apply node_fits_b_ok; vm_compute; reflexivity.
Qed.

(** Stale entries do occur: the second leaf over 130 counters holds 128 of them,
    the last 126 left over from the first leaf (C17 shows no answer depends on
    them). *)
Example C28_stale_entries_exist :
  match tree_build demo_scalar F2 2 (demo_counters 130) [] with
  | Ok m => node_sum demo_scalar A2_128 m (8 + 288 + 288) 127
  | _ => Ok 0
  end = Ok (psum (demo_counters 130) 130 - psum (demo_counters 130) 128 + psum (demo_counters 128) 128 - psum (demo_counters 128) 2).
Proof. vm_compute. reflexivity. Qed.

(** ** C31: index space *)
Theorem C31_space : forall c ty addr s input ops, history c ty addr s input ops ->
  exists b outs b' s', new_bitmap c ty addr input = Ok b /\ run c ty (b, s) ops = Ok (outs, (b', s')) /\
    let n := blocks_of (ty_block ty) (zlen input) in
    zlen (b_data b) = index_bytes (ty_fam ty) n /\ zlen (b_data b') = index_bytes (ty_fam ty) n /\
    zlen (b_words b) = words_in_block (ty_block ty) * n /\ zlen (b_words b') = words_in_block (ty_block ty) * n /\
    b_addr b' = addr.
Proof. exact bitmap_space. Qed.
Print Assumptions C31_space.

Theorem C31_space_bound : forall f n, 1 <= n <= 2 ^ 24 ->
  0 < index_bytes f n /\ 1000 * index_bytes f n <= 2286 * n + 2764000.
Proof. exact index_bytes_bound. Qed.
Print Assumptions C31_space_bound.

Example C31_case :
  history demo_cfg demo_ty demo_addr (statics_init (ty_block demo_ty)) demo_input demo_ops /\
  blocks_of (ty_block demo_ty) (zlen demo_input) = 150 /\ index_bytes F2 150 = 8 + 3 * 288.
Proof. split; [exact demo_history|]. split; reflexivity. Qed.
