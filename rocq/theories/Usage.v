(** What counts as using the library within its limits.  Statements only; the
    theorems take these as hypotheses, and the refutations show what happens
    outside them. *)
From Verif Require Import Base Mem Trees Words Blocks Spec Bitmap.

(** Modes that have a working implementation for the block size.  The others are
    offered by the enums but fall into a template that asserts and returns 0. *)
Definition rank256_supported (m : rank_mode) : bool :=
  match m with RM_avx512_loop | RM_avx512_unrolled | RM_avx512_parallel => false | _ => true end.
Definition rank512_supported (m : rank_mode) : bool :=
  match m with RM_avx2_loop | RM_avx2_unrolled | RM_avx2_parallel => false | _ => true end.
Definition select256_supported (m : select_mode) : bool :=
  match m with SM_pdep | SM_avx512_avx512_pdep => false | _ => true end.
Definition select512_supported (m : select_mode) : bool :=
  match m with SM_pdep | SM_avx2_avx512_pdep => false | _ => true end.
Definition supported (b : btype) : bool :=
  match b with
  | B64 => true
  | B256 rm sm => rank256_supported rm && select256_supported sm
  | B512 rm sm => rank512_supported rm && select512_supported sm
  end.

(** Number of blocks needed for an array of words. *)
Definition blocks_of (bt : btype) (nw : Z) : Z := cdiv nw (words_in_block bt).

(** The buffer address suits the aligned load in avx2 node128::update.  Nothing
    is required of builds without that load. *)
Definition index_addr_ok (c : cfg) (ty : btyp) (addr : Z) : Prop :=
  ty_fam ty = F2 -> c_avx2 c = true -> c_trap c = true -> (addr + Z.of_nat (ty_height ty) * 4) mod 32 = 0.

(** Every aligned group of [bs] bits has at most [mx] ones. *)
Definition max_ones (bs : Z) (B : list bool) (mx : Z) : Prop :=
  forall b, 0 <= b -> bs * (b + 1) <= zlen B -> ones_before B (bs * (b + 1)) - ones_before B (bs * b) <= mx.

(** The leaf assertion of build in a debug build: 512 for avx2, 256 for avx512. *)
Definition debug_counts_ok (c : cfg) (ty : btyp) (B : list bool) : Prop :=
  c_debug c = true ->
  max_ones (block_size (ty_block ty)) B (match ty_fam ty with F2 => 512 | F5 => 256 end).

(** The array can be given to build of this type. *)
Definition buildable (ty : btyp) (input : list Z) : Prop :=
  supported (ty_block ty) = true /\ words_ok input /\
  1 <= zlen input /\ 64 * zlen input <= 2 ^ 24 * block_size (ty_block ty) /\
  Z.of_nat (ty_height ty) = tree_height (ty_fam ty) (blocks_of (ty_block ty) (zlen input)).

(** A bitmap of type [ty] built from [input] with its index at [addr]. *)
Definition usable (c : cfg) (ty : btyp) (addr : Z) (input : list Z) : Prop :=
  buildable ty input /\ index_addr_ok c ty addr /\
  debug_counts_ok c ty (padded (block_size (ty_block ty)) (bits_of_words input)).

(** The contents right after build. *)
Definition initial (ty : btyp) (input : list Z) : list bool := padded (block_size (ty_block ty)) (bits_of_words input).

(** The selects that fall foul of the signed 32-bit comparisons in the root of the
    height-4 avx2 index.  A child of the root covers [g] bits.  Rank [k] is lost
    when it lies in the last child of a completely full group of eight children,
    or when 2^31 or more ones precede it among the last nine children.  Neither
    can happen with blocks of 64 or 256 bits. *)
Definition root_child_bits (ty : btyp) : Z := 2 ^ 19 * block_size (ty_block ty).
Definition select_lost (g : Z) (B : list bool) (k : Z) : Prop :=
  (exists s, 1 <= s <= 3 /\ 2 ^ 31 <= ones_before B ((8 * s + 7) * g) - ones_before B ((8 * s - 1) * g) /\
     ones_before B ((8 * s + 6) * g) <= k < ones_before B ((8 * s + 7) * g)) \/
  2 ^ 31 <= k - ones_before B (23 * g).
Definition select_safe (c : cfg) (ty : btyp) (B : list bool) (k : Z) : Prop :=
  ty_fam ty = F2 -> ty_height ty = 4%nat -> c_avx2 c = true -> ~ select_lost (root_child_bits ty) B k.

(** ... at every select of a sequence of calls. *)
Fixpoint selects_safe (c : cfg) (ty : btyp) (B : list bool) (ops : list op) : Prop :=
  match ops with
  | [] => True
  | o :: r =>
      (match o with Select k => select_safe c ty B k | _ => True end) /\ selects_safe c ty (contents_after B o) r
  end.

(** Function-local statics after any earlier calls that returned. *)
Inductive reachable_statics (c : cfg) (bt : btype) : statics -> Prop :=
| rs_init : reachable_statics c bt (statics_init bt)
| rs_rank s x i r s' : reachable_statics c bt s -> block_rank c bt s x i = Ok (r, s') -> reachable_statics c bt s'
| rs_select s x k r s' : reachable_statics c bt s -> block_select c bt s x k = Ok (r, s') -> reachable_statics c bt s'.

(** A program within the limits: build from [input], then [ops]. *)
Definition history (c : cfg) (ty : btyp) (addr : Z) (s : statics) (input : list Z) (ops : list op) : Prop :=
  usable c ty addr input /\ reachable_statics c (ty_block ty) s /\
  valid_ops (initial ty input) ops /\ selects_safe c ty (initial ty input) ops.

(** The bits after it. *)
Definition current (ty : btyp) (input : list Z) (ops : list op) : list bool := contents_after_all (initial ty input) ops.

(** Calls other than flip. *)
Definition no_flip (o : op) : Prop := match o with Flip _ => False | _ => True end.

(** How often position [i] was flipped. *)
Definition flips_of (ops : list op) (i : Z) : nat :=
  count_occ Z.eq_dec (flat_map (fun o => match o with Flip j => [j] | _ => [] end) ops) i.

(** ** Blocks *)

(** The block [x] points to: enough 64-bit words for block type [b]. *)
Definition block_ok (b : btype) (x : wptr) : Prop :=
  words_ok (w_arr x) /\ 0 <= w_off x /\ w_off x + words_in_block b <= zlen (w_arr x).
(** Its bits. *)
Definition block_bits (b : btype) (x : wptr) : list bool :=
  bits_of_words (firstn (Z.to_nat (words_in_block b)) (skipn (Z.to_nat (w_off x)) (w_arr x))).

(** ** Trees *)

(** Number of counters a tree with [h] levels can hold: product of the fanouts,
    leaf upwards. *)
Definition capacity (f : fam) (h : Z) : Z :=
  match f with
  | F2 => if h <=? 0 then 0 else if h =? 1 then 128 else if h =? 2 then 128 * 64 else if h =? 3 then 128 * 64 * 64 else 128 * 64 * 64 * 32
  | F5 => if h <=? 0 then 0 else if h =? 1 then 512 else if h =? 2 then 512 * 256 else 512 * 256 * 128
  end.
Definition max_height (f : fam) : Z := match f with F2 => 4 | F5 => 3 end.

(** Bytes of the index over [n] blocks: one 4-byte count per level, then the
    nodes of all levels. *)
Definition nodes_at (f : fam) (n k : Z) : Z := let cap := capacity f k in (n + cap - 1) / cap.
Definition node_bytes_at (f : fam) (k : Z) : Z :=
  match f with F2 => if k =? 4 then 160 else 288 | F5 => if k =? 3 then 576 else 1088 end.
Definition index_bytes (f : fam) (n : Z) : Z :=
  let h := tree_height f n in
  4 * h + fold_right Z.add 0 (map (fun k => nodes_at f n k * node_bytes_at f k) (zrange 1 (Z.to_nat h))).

(** A tree type with too many levels looks for the leaves one root further on
    than they are.  Entries of the last leaf below this one still lie inside the
    buffer then. *)
Definition overhang (f : fam) (H : Z) : Z :=
  match f with F2 => if H =? 4 then 48 else 0 | F5 => if H =? 3 then 224 else 0 end.
