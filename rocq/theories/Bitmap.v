(** include/mutable_bitmap.hpp. *)
From Verif Require Import Base Mem Nodes Trees Words Blocks Spec.

(** Which C++ type: mutable_bitmap<SearchablePrefixSums, BlockType>, with the
    tree's Height parameter. *)
Record btyp := { ty_fam : fam; ty_height : nat; ty_block : btype }.

(** [size()] (lines 46-48). *)
Definition bm_size (ws : list Z) : Z := zlen ws * 8 * 8.

(** [access] (lines 58-68); BT with register operands takes the bit offset
    modulo 64. *)
Definition bm_access (c : cfg) (ws : list Z) (i : Z) : res bool :=
  let* _ := massert (c_debug c) (i <? bm_size ws) in
  let* w := geti ws (i / 64) in
  Ok (Z.testbit w (i mod 64)).

(** [flip] (lines 70-78): new word array and new index buffer. *)
Definition bm_flip (c : cfg) (ty : btyp) (ws : list Z) (v : tview) (i : Z) : res (list Z * list Z) :=
  let* _ := massert (c_debug c) (i <? bm_size ws) in
  let* b := bm_access c ws i in
  let word := i / 64 in
  let offset := Z.land i 63 in
  let block := i / block_size (ty_block ty) in
  let* w := geti ws word in
  let* ws := seti ws word (Z.lxor w (2 ^ offset)) in
  let* m := tree_update c (ty_fam ty) (ty_height ty) v block b in
  Ok (ws, m).

(** [rank] (lines 80-86). *)
Definition bm_rank (c : cfg) (ty : btyp) (s : statics) (ws : list Z) (v : tview) (i : Z) : res (Z * statics) :=
  let bs := block_size (ty_block ty) in
  let* _ := massert (c_debug c) (i <? bm_size ws) in
  let block := i / bs in
  let offset := Z.land i (bs - 1) in
  let* a := (if block =? 0 then Ok 0 else tree_sum c (ty_fam ty) (ty_height ty) v (block - 1)) in
  let* '(r, s) := block_rank c (ty_block ty) s
      {| w_arr := ws; w_off := words_in_block (ty_block ty) * block |} offset in
  Ok (u64 (a + r), s).

(** [select] (lines 88-94). *)
Definition bm_select (c : cfg) (ty : btyp) (s : statics) (ws : list Z) (v : tview) (i : Z) : res (Z * statics) :=
  let bs := block_size (ty_block ty) in
  let* _ := massert (c_debug c) (i <? bm_size ws) in
  let* '(block, sum) := tree_search c (ty_fam ty) (ty_height ty) v i in
  let offset := u64 (i - sum) in
  let* '(r, s) := block_select c (ty_block ty) s
      {| w_arr := ws; w_off := words_in_block (ty_block ty) * block |} offset in
  Ok (u64 (bs * block + r), s).

(** The loop of lines 28-35: one [uint16_t] popcount per block. *)
Definition block_counts (c : cfg) (bt : btype) (ws : list Z) : res (list Z) :=
  let wib := words_in_block bt in
  mapM (fun b =>
      let* val := foldM (fun val j =>
          let* w := geti ws (b * wib + j) in
          Ok (u16 (val + popcount w)))
        (zrange 0 (Z.to_nat wib)) 0 in
      let* _ := massert (c_debug c) (val <=? block_size bt) in
      Ok val)
    (zrange 0 (Z.to_nat (zlen ws / wib))).

(** [build] (lines 19-37) on an object whose m_bits holds [oldw] and whose index
    buffer holds [oldm]: new words, new index buffer, new m_size.  The input array
    has exactly num_64bit_words elements. *)
Definition bm_build (c : cfg) (ty : btyp) (input : list Z) (oldw oldm : list Z) : res (list Z * list Z * Z) :=
  let bt := ty_block ty in
  let wib := words_in_block bt in
  let num := zlen input in
  let* _ := massert (c_debug c) (num * 64 <=? 2 ^ 24 * block_size bt) in
  let num_blocks := cdiv num wib in
  let ws := resize oldw (wib * num_blocks) in
  let ws := input ++ skipn (length input) ws in
  let* vals := block_counts c bt ws in
  let* m := tree_build c (ty_fam ty) (ty_height ty) vals oldm in
  Ok (ws, m, u32 (zlen vals)).

(** ** A single bitmap object that owns its index buffer *)

(** m_bits, m_index.m_data (contents and address), m_index.m_size. *)
Record bitmap := { b_words : list Z; b_data : list Z; b_addr : Z; b_n : Z }.

(** m_num_nodes_per_level = m_data.data(), m_ptr = m_data.data() + 4*Height
    (segment_tree.hpp lines 60-64 / 54-58). *)
Definition own_view (ty : btyp) (b : bitmap) : tview :=
  {| v_size := b_n b;
     v_nn := fun i => load 4 (b_data b) (4 * i);
     v_base := b_addr b;
     v_ptr := Z.of_nat (ty_height ty) * 4;
     v_mem := b_data b |}.

(** Default-constructed object followed by build; [addr] is the address the
    allocator returns for the index buffer. *)
Definition new_bitmap (c : cfg) (ty : btyp) (addr : Z) (input : list Z) : res bitmap :=
  let* '(ws, m, n) := bm_build c ty input [] [] in
  Ok {| b_words := ws; b_data := m; b_addr := addr; b_n := n |}.

(** One member function call; [statics] is process-wide state. *)
Definition step (c : cfg) (ty : btyp) (st : bitmap * statics) (o : op) : res (out * (bitmap * statics)) :=
  let '(b, s) := st in
  match o with
  | Flip i =>
      let* '(ws, m) := bm_flip c ty (b_words b) (own_view ty b) i in
      Ok (ONone, ({| b_words := ws; b_data := m; b_addr := b_addr b; b_n := b_n b |}, s))
  | Access i => let* r := bm_access c (b_words b) i in Ok (OBool r, (b, s))
  | Rank i => let* '(r, s) := bm_rank c ty s (b_words b) (own_view ty b) i in Ok (ONum r, (b, s))
  | Select k => let* '(r, s) := bm_select c ty s (b_words b) (own_view ty b) k in Ok (ONum r, (b, s))
  | Size => Ok (ONum (bm_size (b_words b)), (b, s))
  | Bits => Ok (OWords (b_words b), (b, s))
  end.

Fixpoint run (c : cfg) (ty : btyp) (st : bitmap * statics) (ops : list op) : res (list out * (bitmap * statics)) :=
  match ops with
  | [] => Ok ([], st)
  | o :: r =>
      let* '(a, st) := step c ty st o in
      let* '(l, st) := run c ty st r in
      Ok (a :: l, st)
  end.

(** A whole program: build, then a sequence of calls. *)
Definition program (c : cfg) (ty : btyp) (addr : Z) (s : statics) (input : list Z) (ops : list op) : res (list out) :=
  let* b := new_bitmap c ty addr input in
  let* '(l, _) := run c ty (b, s) ops in
  Ok l.
