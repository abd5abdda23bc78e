(** Where the library leaves its documented behaviour, exactly (C25, C26, C27, C32). *)
From Verif Require Import Base Mem Nodes Trees Words Blocks Spec Bitmap Usage LimitFacts DenseFacts LimitProps Demo Demo2.

(** ** C25: which inputs trip the leaf assertion of a debug build *)

(** Up to the limit everything works. *)
Theorem C25_sparse_blocks_build : forall c ty addr s input ops,
  buildable ty input -> index_addr_ok c ty addr -> reachable_statics c (ty_block ty) s ->
  max_ones (block_size (ty_block ty)) (initial ty input) (match ty_fam ty with F2 => 512 | F5 => 256 end) ->
  valid_ops (initial ty input) ops -> selects_safe c ty (initial ty input) ops ->
  exists outs, program c ty addr s input ops = Ok outs /\ answers_ok (initial ty input) ops outs.
Proof. exact sparse_program. Qed.
Print Assumptions C25_sparse_blocks_build.

(** One block above the limit and a debug build stops in build; a release build
    does not notice. *)
Theorem C25_dense_block_asserts : forall c ty addr s input ops b,
  buildable ty input -> 0 <= b -> block_size (ty_block ty) * (b + 1) <= zlen (initial ty input) ->
  (match ty_fam ty with F2 => 512 | F5 => 256 end) <
    ones_before (initial ty input) (block_size (ty_block ty) * (b + 1)) - ones_before (initial ty input) (block_size (ty_block ty) * b) ->
  c_debug c = true ->
  program c ty addr s input ops = AssertFail.
Proof. exact dense_program. Qed.
Print Assumptions C25_dense_block_asserts.

(** The avx2 index, blocks of at most 256 bits and release builds never see it. *)
Theorem C25_never_otherwise : forall c ty addr s input ops,
  buildable ty input -> index_addr_ok c ty addr -> reachable_statics c (ty_block ty) s ->
  ty_fam ty = F2 \/ block_size (ty_block ty) <= 256 \/ c_debug c = false ->
  valid_ops (initial ty input) ops -> selects_safe c ty (initial ty input) ops ->
  exists outs, program c ty addr s input ops = Ok outs /\ answers_ok (initial ty input) ops outs.
Proof. exact never_trips. Qed.
Print Assumptions C25_never_otherwise.

(** "Any words can be built over the avx512 index" is false. *)
Theorem C25_every_input_builds_refuted : exists c ty addr input,
  buildable ty input /\ ty_fam ty = F5 /\ program c ty addr (statics_init (ty_block ty)) input [] = AssertFail.
Proof. exact dense_build_refuted. Qed.
Print Assumptions C25_every_input_builds_refuted.

Example C25_case :
  buildable dense_ty dense_input /\ index_addr_ok demo_cfg dense_ty 0x1000 /\
  ones_before (initial dense_ty dense_input) 512 = 257 /\ zlen (initial dense_ty dense_input) = 512 /\
  program demo_cfg dense_ty 0x1000 (statics_init (ty_block dense_ty)) dense_input [Size] = AssertFail /\
  program (release demo_cfg) dense_ty 0x1000 (statics_init (ty_block dense_ty)) dense_input [Rank 511] = Ok [ONum 257] /\
  max_ones 512 (initial dense_ty sparse_input) 256 /\ ones_before (initial dense_ty sparse_input) 512 = 256 /\
  program demo_cfg dense_ty 0x1000 (statics_init (ty_block dense_ty)) sparse_input [Rank 511] = Ok [ONum 256].
Proof. exact dense_case. Qed.

(** ** C26: which selects the height-4 avx2 index gets wrong *)

(** A select succeeds, with the right answer, exactly when it is safe. *)
Theorem C26_select_exact : forall c ty addr s input ops k,
  history c ty addr s input ops -> 0 <= k < count_true (current ty input ops) ->
  (select_safe c ty (current ty input ops) k <->
   exists outs p, program c ty addr s input (ops ++ [Select k]) = Ok (outs ++ [ONum p]) /\
     is_select (current ty input ops) k p).
Proof. exact select_exact. Qed.
Print Assumptions C26_select_exact.

(** An unsafe one stops at an assertion, or reads outside the index. *)
Theorem C26_unsafe_select_fails : forall c ty addr s input ops k rest,
  history c ty addr s input ops -> ty_fam ty = F2 -> ty_height ty = 4%nat -> c_avx2 c = true ->
  0 <= k < count_true (current ty input ops) -> select_lost (root_child_bits ty) (current ty input ops) k ->
  program c ty addr s input (ops ++ Select k :: rest) = if c_debug c then AssertFail else Ub UB_bounds.
Proof. exact select_lost_fails. Qed.
Print Assumptions C26_unsafe_select_fails.

(** No select is unsafe with blocks of 64 or 256 bits, below 2^31 ones, or below
    15 * 2^19 blocks. *)
Theorem C26_safe_cases : forall c ty addr s input ops k,
  history c ty addr s input ops -> 0 <= k < count_true (current ty input ops) ->
  block_size (ty_block ty) <= 256 \/ count_true (current ty input ops) < 2 ^ 31 \/
    zlen (current ty input ops) < 15 * 2 ^ 19 * block_size (ty_block ty) ->
  select_safe c ty (current ty input ops) k.
Proof. exact safe_cases. Qed.
Print Assumptions C26_safe_cases.

(** "Select works on every bitmap of up to 2^24 blocks" is false: a full bitmap
    from 15 * 2^28 bits on, every configuration with vector code. *)
Theorem C26_full_bitmap_refuted : forall c ty addr n k,
  ty_fam ty = F2 -> ty_height ty = 4%nat -> block_size (ty_block ty) = 512 -> supported (ty_block ty) = true ->
  c_avx2 c = true -> addr mod 32 = 16 ->
  15 * 2 ^ 22 <= n <= 2 ^ 27 -> n mod 8 = 0 -> 14 * 2 ^ 28 <= k < 15 * 2 ^ 28 ->
  history c ty addr (statics_init (ty_block ty)) (full_words n) [] /\
  is_select (initial ty (full_words n)) k k /\
  program c ty addr (statics_init (ty_block ty)) (full_words n) [Select k] = if c_debug c then AssertFail else Ub UB_bounds.
Proof. exact full_select_fails. Qed.
Print Assumptions C26_full_bitmap_refuted.

Example C26_case :
  let ty := {| ty_fam := F2; ty_height := 4; ty_block := block512_type_b |} in
  history demo_cfg ty 0x1010 (statics_init (ty_block ty)) (full_words (15 * 2 ^ 22)) [] /\
  0 <= 14 * 2 ^ 28 < count_true (current ty (full_words (15 * 2 ^ 22)) []) /\
  select_lost (root_child_bits ty) (current ty (full_words (15 * 2 ^ 22)) []) (14 * 2 ^ 28) /\
  0 <= 14 * 2 ^ 28 - 1 < count_true (current ty (full_words (15 * 2 ^ 22)) []) /\
  select_safe demo_cfg ty (current ty (full_words (15 * 2 ^ 22)) []) (14 * 2 ^ 28 - 1).
Proof. exact full_case. Qed.

(** ** C27: which buffer addresses flip accepts *)

(** With the aligned load, any other address faults on the first flip, whatever
    queries ran before; the queries themselves are right at every address. *)
Theorem C27_misaligned_flip_faults : forall c ty addr s input qs i rest,
  buildable ty input -> debug_counts_ok c ty (initial ty input) -> reachable_statics c (ty_block ty) s ->
  ty_fam ty = F2 -> c_avx2 c = true -> c_trap c = true -> (addr + Z.of_nat (ty_height ty) * 4) mod 32 <> 0 ->
  Forall no_flip qs -> valid_ops (initial ty input) qs -> selects_safe c ty (initial ty input) qs ->
  0 <= i < zlen (initial ty input) ->
  (exists outs, program c ty addr s input qs = Ok outs /\ answers_ok (initial ty input) qs outs) /\
  program c ty addr s input (qs ++ Flip i :: rest) = Ub UB_align.
Proof. exact misaligned_flip. Qed.
Print Assumptions C27_misaligned_flip_faults.

(** At the other addresses, and at every address without that load, everything
    works. *)
Theorem C27_aligned_or_no_load : forall c ty addr s input ops,
  buildable ty input -> debug_counts_ok c ty (initial ty input) -> reachable_statics c (ty_block ty) s ->
  ty_fam ty = F5 \/ c_avx2 c = false \/ c_trap c = false \/ (addr + Z.of_nat (ty_height ty) * 4) mod 32 = 0 ->
  valid_ops (initial ty input) ops -> selects_safe c ty (initial ty input) ops ->
  exists outs, program c ty addr s input ops = Ok outs /\ answers_ok (initial ty input) ops outs.
Proof. exact aligned_program. Qed.
Print Assumptions C27_aligned_or_no_load.

(** An allocator that returns multiples of 16 never returns a good address below
    height 4: every flip faults. *)
Theorem C27_malloc_address_refuted : forall c ty addr s input i rest,
  buildable ty input -> debug_counts_ok c ty (initial ty input) -> reachable_statics c (ty_block ty) s ->
  ty_fam ty = F2 -> c_avx2 c = true -> c_trap c = true -> ty_height ty <> 4%nat -> addr mod 16 = 0 ->
  0 <= i < zlen (initial ty input) ->
  program c ty addr s input (Flip i :: rest) = Ub UB_align.
Proof. exact malloc_flip. Qed.
Print Assumptions C27_malloc_address_refuted.

Example C27_case :
  buildable demo_ty demo_input /\ debug_counts_ok demo_cfg demo_ty (initial demo_ty demo_input) /\
  ty_fam demo_ty = F2 /\ c_avx2 demo_cfg = true /\ c_trap demo_cfg = true /\
  (0x5000010 + Z.of_nat (ty_height demo_ty) * 4) mod 32 <> 0 /\ 0x5000010 mod 16 = 0 /\
  Forall no_flip [Rank 38399; Select 9000; Access 3] /\
  valid_ops (initial demo_ty demo_input) [Rank 38399; Select 9000; Access 3] /\
  0 <= 7 < zlen (initial demo_ty demo_input).
Proof. exact misaligned_case. Qed.

(** ** C32: modes without an implementation for the block size *)

(** rank: a debug build stops, a release build answers 0 for every block. *)
Theorem C32_unsupported_rank : forall c b s x i,
  match b with B64 => False | B256 rm _ => rank256_supported rm = false | B512 rm _ => rank512_supported rm = false end ->
  reachable_statics c b s -> block_ok b x -> 0 <= i < block_size b ->
  if c_debug c then block_rank c b s x i = AssertFail else exists s', block_rank c b s x i = Ok (0, s').
Proof. exact rank_unsupported. Qed.
Print Assumptions C32_unsupported_rank.

(** select: the same, except that the pdep mode reads one word past the block. *)
Theorem C32_unsupported_select : forall c b s x k,
  match b with B64 => False | B256 _ sm => select256_supported sm = false | B512 _ sm => select512_supported sm = false end ->
  block_ok b x -> 0 <= k < 2 ^ 64 ->
  match b with
  | B256 _ SM_pdep | B512 _ SM_pdep =>
      if c_debug c then block_select c b s x k = AssertFail
      else w_off x + words_in_block b = zlen (w_arr x) -> block_select c b s x k = Ub UB_bounds
  | _ => block_select c b s x k = if c_debug c then AssertFail else Ok (0, s)
  end.
Proof. exact select_unsupported. Qed.
Print Assumptions C32_unsupported_select.

(** "Never silently wrong" is false in release builds. *)
Theorem C32_never_wrong_refuted : exists c b s x i r s',
  block_ok b x /\ 0 <= i < block_size b /\ block_rank c b s x i = Ok (r, s') /\ r <> rank_spec (block_bits b x) i.
Proof. exact unsupported_wrong. Qed.
Print Assumptions C32_never_wrong_refuted.

Example C32_case :
  rank512_supported RM_avx2_parallel = false /\ select256_supported SM_pdep = false /\
  block_ok (B512 RM_avx2_parallel SM_pdep) demo_ptr /\
  block_rank demo_cfg (B512 RM_avx2_parallel SM_pdep) (statics_init (B512 RM_avx2_parallel SM_pdep)) demo_ptr 511 = AssertFail /\
  match block_rank (release demo_cfg) (B512 RM_avx2_parallel SM_pdep) (statics_init (B512 RM_avx2_parallel SM_pdep)) demo_ptr 511 with
  | Ok (r, _) => r = 0 | _ => False end.
Proof. exact unsupported_case. Qed.
