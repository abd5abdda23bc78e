(** Several bitmaps in one process: special member functions of
    include/mutable_bitmap.hpp and of the two segment_tree classes, which are all
    implicit, on a heap of index buffers.  The index holds two raw pointers into
    a buffer (segment_tree.hpp lines 186-189 of avx2, 175-178 of avx512:
    m_size, m_num_nodes_per_level, m_ptr, m_data), which the implicit members
    copy as they are.  m_bits never has pointers into it, so it is a value here. *)
From Verif Require Import Base Mem Nodes Trees Words Blocks Spec Bitmap SpecSystem.

(** A heap buffer of a [std::vector<uint8_t>]: its address and its elements. *)
Record hblock := { hb_addr : Z; hb_bytes : list Z }.

(** An object: m_bits, m_size, m_num_nodes_per_level and m_ptr as (buffer,
    offset) or null, the buffer of m_data (none if it never allocated) and its
    capacity. *)
Record mobj := { x_ty : btyp; x_words : list Z; x_n : Z; x_nn : option (nat * Z); x_ptr : option (nat * Z);
                 x_data : option nat; x_cap : Z }.

(** Function-local statics of every instantiation of rank_u256, rank_u512 and
    select_u256, select_u512: by number of words and mode. *)
Record gstat := { gs_rank : nat -> rank_mode -> stat; gs_select : nat -> select_mode -> stat }.
(** Zero-initialised. *)
Definition gs_init : gstat := {| gs_rank := fun n _ => stat_init n; gs_select := fun n _ => stat_init n |}.

Record sys := { sy_objs : list (option mobj); sy_heap : list (option hblock); sy_stat : gstat }.
Definition sys_init : sys := {| sy_objs := []; sy_heap := []; sy_stat := gs_init |}.

Definition rank_mode_eqb (a b : rank_mode) : bool :=
  match a, b with
  | RM_broadword_loop, RM_broadword_loop | RM_broadword_unrolled, RM_broadword_unrolled
  | RM_builtin, RM_builtin | RM_builtin_loop, RM_builtin_loop | RM_builtin_unrolled, RM_builtin_unrolled
  | RM_avx2_loop, RM_avx2_loop | RM_avx2_unrolled, RM_avx2_unrolled
  | RM_builtin_parallel, RM_builtin_parallel | RM_avx2_parallel, RM_avx2_parallel
  | RM_avx512_loop, RM_avx512_loop | RM_avx512_unrolled, RM_avx512_unrolled
  | RM_avx512_parallel, RM_avx512_parallel => true
  | _, _ => false
  end.
Definition select_mode_eqb (a b : select_mode) : bool :=
  match a, b with
  | SM_broadword_loop_sdsl, SM_broadword_loop_sdsl | SM_broadword_loop_succinct, SM_broadword_loop_succinct
  | SM_builtin_loop_sdsl, SM_builtin_loop_sdsl | SM_builtin_loop_succinct, SM_builtin_loop_succinct
  | SM_pdep, SM_pdep | SM_builtin_loop_pdep, SM_builtin_loop_pdep
  | SM_builtin_avx512_pdep, SM_builtin_avx512_pdep | SM_avx2_avx512_pdep, SM_avx2_avx512_pdep
  | SM_avx512_avx512_pdep, SM_avx512_avx512_pdep => true
  | _, _ => false
  end.

(** The statics a block type's rank and select use (types.hpp 33-59); block64
    has none. *)
Definition statics_of (g : gstat) (b : btype) : statics :=
  match b with
  | B64 => statics_init B64
  | B256 rm sm => {| s_rank := gs_rank g 4 rm; s_select := gs_select g 4 sm |}
  | B512 rm sm => {| s_rank := gs_rank g 8 rm; s_select := gs_select g 8 sm |}
  end.
Definition put_stat (g : gstat) (n : nat) (rm : rank_mode) (sm : select_mode) (s : statics) : gstat :=
  {| gs_rank := fun k m => if Nat.eqb k n && rank_mode_eqb m rm then s_rank s else gs_rank g k m;
     gs_select := fun k m => if Nat.eqb k n && select_mode_eqb m sm then s_select s else gs_select g k m |}.
Definition put_statics (g : gstat) (b : btype) (s : statics) : gstat :=
  match b with
  | B64 => g
  | B256 rm sm => put_stat g 4 rm sm s
  | B512 rm sm => put_stat g 8 rm sm s
  end.

Definition obj_at (s : sys) (o : nat) : option mobj := nth o (sy_objs s) None.
Definition blk_at (s : sys) (id : nat) : option hblock := nth id (sy_heap s) None.
(** Use of an object that does not exist (any more). *)
Definition get_obj (s : sys) (o : nat) : res mobj :=
  match obj_at s o with Some x => Ok x | None => Ub UB_freed end.

(** What the members of the index see through m_num_nodes_per_level and m_ptr.
    A null pointer or one to a released buffer leads to no memory at all. *)
Definition sys_view (s : sys) (x : mobj) : tview :=
  {| v_size := x_n x;
     v_nn := fun i => match x_nn x with
                      | None => Ub UB_null
                      | Some (id, off) => match blk_at s id with
                                          | None => Ub UB_freed
                                          | Some h => load 4 (hb_bytes h) (off + 4 * i)
                                          end
                      end;
     v_base := match x_ptr x with
               | Some (id, _) => match blk_at s id with Some h => hb_addr h | None => 0 end
               | None => 0
               end;
     v_ptr := match x_ptr x with Some (_, off) => off | None => 0 end;
     v_mem := match x_ptr x with
              | Some (id, _) => match blk_at s id with Some h => hb_bytes h | None => [] end
              | None => []
              end |}.

Definition put_obj (s : sys) (o : nat) (x : option mobj) : sys :=
  {| sy_objs := upd_nat (sy_objs s) o x; sy_heap := sy_heap s; sy_stat := sy_stat s |}.
Definition push_obj (s : sys) (x : mobj) : sys :=
  {| sy_objs := sy_objs s ++ [Some x]; sy_heap := sy_heap s; sy_stat := sy_stat s |}.
Definition put_gstat (s : sys) (g : gstat) : sys :=
  {| sy_objs := sy_objs s; sy_heap := sy_heap s; sy_stat := g |}.
Definition put_heap (s : sys) (h : list (option hblock)) : sys :=
  {| sy_objs := sy_objs s; sy_heap := h; sy_stat := sy_stat s |}.

(** Release of a buffer; releasing twice is undefined. *)
Definition free_blk (s : sys) (d : option nat) : res sys :=
  match d with
  | None => Ok s
  | Some id => match blk_at s id with
               | Some _ => Ok (put_heap s (upd_nat (sy_heap s) id None))
               | None => Ub UB_freed
               end
  end.
(** Elements of m_data. *)
Definition data_of (s : sys) (d : option nat) : res (list Z) :=
  match d with
  | None => Ok []
  | Some id => match blk_at s id with Some h => Ok (hb_bytes h) | None => Ub UB_freed end
  end.
(** Overwrite the elements of a live buffer. *)
Definition write_blk (s : sys) (id : nat) (m : list Z) : res sys :=
  match blk_at s id with
  | Some h => Ok (put_heap s (upd_nat (sy_heap s) id (Some {| hb_addr := hb_addr h; hb_bytes := m |})))
  | None => Ub UB_freed
  end.

(** [std::vector<uint8_t>] gets the elements [m]: [resize] followed by writes
    (segment_tree.hpp line 58) or copy assignment.  In place if the capacity
    suffices, else in a new buffer, the old one being released. *)
Definition store_data (s : sys) (d : option nat) (cap : Z) (m : list Z) (a : alloc) : res (sys * option nat * Z) :=
  if zlen m <=? cap then
    match d with
    | Some id => let* s := write_blk s id m in Ok (s, d, cap)
    | None => Ok (s, None, cap)
    end
  else
    let* s := free_blk s d in
    Ok (put_heap s (sy_heap s ++ [Some {| hb_addr := al_addr a; hb_bytes := m |}]), Some (length (sy_heap s)), al_cap a).

(** A call of flip, access, rank, select, size or bits (mutable_bitmap.hpp
    46-94) on object [x]. *)
Definition sys_call (c : cfg) (s : sys) (o : nat) (x : mobj) (p : op) : res (out * sys) :=
  let v := sys_view s x in
  let st := statics_of (sy_stat s) (ty_block (x_ty x)) in
  match p with
  | Flip i =>
      let* '(ws, m) := bm_flip c (x_ty x) (x_words x) v i in
      let* s := (match x_ptr x with Some (id, _) => write_blk s id m | None => Ub UB_null end) in
      Ok (ONone, put_obj s o (Some {| x_ty := x_ty x; x_words := ws; x_n := x_n x; x_nn := x_nn x; x_ptr := x_ptr x;
                                      x_data := x_data x; x_cap := x_cap x |}))
  | Access i => let* r := bm_access c (x_words x) i in Ok (OBool r, s)
  | Rank i => let* '(r, st) := bm_rank c (x_ty x) st (x_words x) v i in
              Ok (ONum r, put_gstat s (put_statics (sy_stat s) (ty_block (x_ty x)) st))
  | Select k => let* '(r, st) := bm_select c (x_ty x) st (x_words x) v k in
                Ok (ONum r, put_gstat s (put_statics (sy_stat s) (ty_block (x_ty x)) st))
  | Size => Ok (ONum (bm_size (x_words x)), s)
  | Bits => Ok (OWords (x_words x), s)
  end.

(** A moved-from object: both vectors are empty, m_size and the pointers keep
    their values (implicit move of scalars). *)
Definition moved_from (x : mobj) : mobj :=
  {| x_ty := x_ty x; x_words := []; x_n := x_n x; x_nn := x_nn x; x_ptr := x_ptr x; x_data := None; x_cap := 0 |}.

Definition sys_step (c : cfg) (s : sys) (e : event) : res (out * sys) :=
  match e with
  | ENew ty => (* mutable_bitmap.hpp 17, segment_tree.hpp 24-25 / 23-24 *)
      Ok (ONone, push_obj s {| x_ty := ty; x_words := []; x_n := 0; x_nn := None; x_ptr := None; x_data := None; x_cap := 0 |})
  | EBuild o input a => (* mutable_bitmap.hpp 19-37; pointers: segment_tree.hpp 60-64 / 54-58 *)
      let* x := get_obj s o in
      let* old := data_of s (x_data x) in
      let* '(ws, m, n) := bm_build c (x_ty x) input (x_words x) old in
      let* '(s, d, cap) := store_data s (x_data x) (x_cap x) m a in
      let at_ off := match d with Some id => Some (id, off) | None => None end in
      Ok (ONone, put_obj s o (Some {| x_ty := x_ty x; x_words := ws; x_n := n; x_nn := at_ 0;
                                      x_ptr := at_ (Z.of_nat (ty_height (x_ty x)) * 4); x_data := d; x_cap := cap |}))
  | ECall o p => let* x := get_obj s o in sys_call c s o x p
  | ECopy o a => (* implicit: scalars and pointers as they are, vectors element by element *)
      let* x := get_obj s o in
      let* m := data_of s (x_data x) in
      let* '(s, d, cap) := store_data s None 0 m a in
      Ok (ONone, push_obj s {| x_ty := x_ty x; x_words := x_words x; x_n := x_n x; x_nn := x_nn x; x_ptr := x_ptr x; x_data := d; x_cap := cap |})
  | EMove o => (* implicit: vectors hand over their buffers *)
      let* x := get_obj s o in
      Ok (ONone, push_obj (put_obj s o (Some (moved_from x))) x)
  | EAssign d e a => (* implicit; assigning to itself changes nothing *)
      let* x := get_obj s d in
      let* y := get_obj s e in
      if Nat.eqb d e then Ok (ONone, s) else
      let* m := data_of s (x_data y) in
      let* '(s, dd, cap) := store_data s (x_data x) (x_cap x) m a in
      Ok (ONone, put_obj s d (Some {| x_ty := x_ty y; x_words := x_words y; x_n := x_n y; x_nn := x_nn y; x_ptr := x_ptr y; x_data := dd; x_cap := cap |}))
  | EMoveAssign d e => (* implicit; the target releases its own buffer *)
      let* x := get_obj s d in
      let* y := get_obj s e in
      let* s := free_blk s (x_data x) in
      Ok (ONone, put_obj (put_obj s d (Some y)) e (Some (moved_from y)))
  | EDestroy o => (* implicit *)
      let* x := get_obj s o in
      let* s := free_blk s (x_data x) in
      Ok (ONone, put_obj s o None)
  end.

Fixpoint sys_run (c : cfg) (s : sys) (es : list event) : res (list out * sys) :=
  match es with
  | [] => Ok ([], s)
  | e :: r =>
      let* '(a, s) := sys_step c s e in
      let* '(l, s) := sys_run c s r in
      Ok (a :: l, s)
  end.

(** A whole process: nothing exists at first. *)
Definition process (c : cfg) (es : list event) : res (list out) :=
  let* '(l, _) := sys_run c sys_init es in Ok l.
