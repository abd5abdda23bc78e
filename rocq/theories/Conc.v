(** Several threads calling member functions at once.  The function-local static
    arrays of rank_u256, rank_u512, select_u256 and select_u512 (rank.hpp, select.hpp
    in include/rank_select_algorithms) are shared by all threads; every access to one
    of their words is an action of its own here, in source order.  Bits and index of a
    bitmap are read in one action at the start of a call and written in one action at
    the end of flip (simplification: conflicting accesses to them are reported as a
    race, so it does not matter in which order they happen). *)
From Verif Require Import Base Mem Nodes Trees Words Blocks Spec Bitmap System.

(** An instantiation that owns static arrays: number of words and mode. *)
Inductive inst := IRank (n : nat) (m : rank_mode) | ISel (n : nat) (m : select_mode).
Definition inst_eqb (a b : inst) : bool :=
  match a, b with
  | IRank n m, IRank n' m' => Nat.eqb n n' && rank_mode_eqb m m'
  | ISel n m, ISel n' m' => Nat.eqb n n' && select_mode_eqb m m'
  | _, _ => false
  end.
Definition inst_words (i : inst) : nat := match i with IRank n _ | ISel n _ => n end.

(** A word of a static array: counts/cnts ([ce_sums] = false) or sums. *)
Record cell := { ce_inst : inst; ce_sums : bool; ce_idx : Z }.

(** What the threads share: statics and bitmaps. *)
Record shared := { sh_stat : inst -> stat; sh_objs : nat -> option (btyp * bitmap) }.

Definition cell_get (s : shared) (x : cell) : res Z :=
  let st := sh_stat s (ce_inst x) in geti (if ce_sums x then st_s st else st_c st) (ce_idx x).
Definition put_inst (s : shared) (i : inst) (st : stat) : shared :=
  {| sh_stat := fun j => if inst_eqb j i then st else sh_stat s j; sh_objs := sh_objs s |}.
Definition cell_put (s : shared) (x : cell) (v : Z) : res shared :=
  let st := sh_stat s (ce_inst x) in
  if ce_sums x then let* l := seti (st_s st) (ce_idx x) v in Ok (put_inst s (ce_inst x) {| st_c := st_c st; st_s := l |})
  else let* l := seti (st_c st) (ce_idx x) v in Ok (put_inst s (ce_inst x) {| st_c := l; st_s := st_s st |}).
Definition put_bitmap (s : shared) (o : nat) (x : btyp * bitmap) : shared :=
  {| sh_stat := sh_stat s; sh_objs := fun k => if Nat.eqb k o then Some x else sh_objs s k |}.

(** What a thread still has to do. *)
Inductive act (A : Type) :=
| Done (r : res A)                                 (* finished *)
| Get (x : cell) (k : Z -> act A)                  (* read a static word *)
| Put (x : cell) (v : Z) (k : act A)               (* write a static word *)
| Look (o : nat) (k : btyp * bitmap -> act A)      (* read bits and index of a bitmap *)
| Save (o : nat) (x : btyp * bitmap) (k : act A)   (* write bits and index of a bitmap *).
Arguments Done {A}. Arguments Get {A}. Arguments Put {A}. Arguments Look {A}. Arguments Save {A}.

Fixpoint abind {A B} (a : act A) (f : A -> act B) : act B :=
  match a with
  | Done (Ok x) => f x
  | Done (Ub k) => Done (Ub k)
  | Done AssertFail => Done AssertFail
  | Get x k => Get x (fun v => abind (k v) f)
  | Put x v k => Put x v (abind k f)
  | Look o k => Look o (fun b => abind (k b) f)
  | Save o x k => Save o x (abind k f)
  end.
Notation "'do*' x := e1 'in' e2" := (abind e1 (fun x => e2))
  (at level 200, x name, e1 at level 100, e2 at level 200, right associativity).
Notation "'do*' ' p := e1 'in' e2" := (abind e1 (fun p => e2))
  (at level 200, p strict pattern, e1 at level 100, e2 at level 200, right associativity).

Definition ret {A} (a : A) : act A := Done (Ok a).
(** A computation that touches neither statics nor shared bitmaps. *)
Definition pure {A} (r : res A) : act A := Done r.
Definition get_c (i : inst) (j : Z) : act Z := Get {| ce_inst := i; ce_sums := false; ce_idx := j |} ret.
Definition get_s (i : inst) (j : Z) : act Z := Get {| ce_inst := i; ce_sums := true; ce_idx := j |} ret.
Definition put_c (i : inst) (j v : Z) : act unit := Put {| ce_inst := i; ce_sums := false; ce_idx := j |} v (ret tt).
Definition put_s (i : inst) (j v : Z) : act unit := Put {| ce_inst := i; ce_sums := true; ce_idx := j |} v (ret tt).
Fixpoint aiter {X} (f : X -> act unit) (l : list X) : act unit :=
  match l with [] => ret tt | a :: r => do* _ := f a in aiter f r end.
Fixpoint amap {X} (f : X -> act Z) (l : list X) : act (list Z) :=
  match l with [] => ret [] | a :: r => do* v := f a in do* l := amap f r in ret (v :: l) end.

(** ** Rank and select inside a block; see Blocks.v for the sequential versions *)

(** counts[0] = 0; counts[b] = counts[b-1] + get(b-1): rank.hpp 99-102, 138-141,
    210-217, 278-285. *)
Definition fill_counts_act (i : inst) (get : Z -> res Z) (n : nat) : act unit :=
  do* _ := put_c i 0 0 in
  aiter (fun b =>
      do* p := get_c i (b - 1) in
      do* v := pure (get (b - 1)) in
      put_c i b (u64 (p + v)))
    (zrange 1 (n - 1)).

(** Store of a vector, word by word (simplification: one action per word). *)
Definition store_c_act (i : inst) (v : list Z) : act unit :=
  aiter (fun '(j, y) => put_c i j y) (combine (zrange 0 (length v)) v).
Definition store_s_act (i : inst) (v : list Z) : act unit :=
  aiter (fun '(j, y) => put_s i (1 + j) y) (combine (zrange 0 (length v)) v).
(** Load of the counts as a vector. *)
Definition load_c_act (i : inst) (n : nat) : act (list Z) := amap (get_c i) (zrange 0 n).

(** rank.hpp 81-108, 192-223. *)
Definition rank_generic_act (c : cfg) (n : nat) (m : rank_mode) (x : wptr) (i : Z) : act Z :=
  do* _ := pure (massert (c_debug c) (i <? 64 * Z.of_nat n)) in
  let pcm := rm_pcm m in
  let block := i / 64 in
  do* rib := pure (rank_in_block c pcm x i) in
  let get b := (let* w := ldw x b in popcount_u64 c pcm w) in
  match rm_psm m with
  | PS_loop => do* s := pure (sum_loop get 0 (Z.to_nat block) 0) in ret (u64 (s + rib))
  | PS_unrolled =>
      do* _ := fill_counts_act (IRank n m) get n in
      do* r := get_c (IRank n m) block in
      ret (u64 (r + rib))
  | PS_parallel => do* _ := pure (massert (c_debug c) false) in ret 0
  end.

(** rank.hpp 110-125, 250-265: the counts are local. *)
Definition rank_vec_loop_act (c : cfg) (n : nat) (x : wptr) (i : Z) : act Z :=
  do* _ := pure (massert (c_debug c) (i <? 64 * Z.of_nat n)) in
  do* rib := pure (rank_in_block c PC_builtin x i) in
  do* ws := pure (ldws x 0 n) in
  do* s := pure (sum_loop (geti (popcount_vec ws)) 0 (Z.to_nat (i / 64)) 0) in
  ret (u64 (s + rib)).

(** rank.hpp 126-143, 266-287. *)
Definition rank_vec_unrolled_act (c : cfg) (n : nat) (m : rank_mode) (x : wptr) (i : Z) : act Z :=
  do* _ := pure (massert (c_debug c) (i <? 64 * Z.of_nat n)) in
  do* rib := pure (rank_in_block c PC_builtin x i) in
  do* ws := pure (ldws x 0 n) in
  do* _ := fill_counts_act (IRank n m) (geti (popcount_vec ws)) n in
  do* r := get_c (IRank n m) (i / 64) in
  ret (u64 (r + rib)).

(** rank.hpp 169-186, 288-302. *)
Definition rank_vec_parallel_act (c : cfg) (n : nat) (m : rank_mode) (psum : list Z -> list Z) (x : wptr) (i : Z) : act Z :=
  do* _ := pure (massert (c_debug c) (i <? 64 * Z.of_nat n)) in
  do* rib := pure (rank_in_block c PC_builtin x i) in
  do* ws := pure (ldws x 0 n) in
  do* _ := store_s_act (IRank n m) (psum (popcount_vec ws)) in
  do* r := get_s (IRank n m) (i / 64) in
  ret (u64 (r + rib)).

(** rank.hpp 147-168. *)
Definition rank_u256_builtin_parallel_act (c : cfg) (x : wptr) (i : Z) : act Z :=
  let I := IRank 4 RM_builtin_parallel in
  do* _ := pure (massert (c_debug c) (i <? 256)) in
  do* _ := put_c I 0 0 in
  do* _ := aiter (fun j => do* w := pure (ldw x (j - 1)) in put_c I j (popcount w)) [1; 2; 3] in
  do* rib := pure (rank_in_block c PC_builtin x i) in
  do* cnts := load_c_act I 4 in
  do* _ := store_c_act I (prefixsum_m256i cnts) in
  do* r := get_c I (i / 64) in
  ret (u64 (r + rib)).

(** rank.hpp 225-249. *)
Definition rank_u512_builtin_parallel_act (c : cfg) (x : wptr) (i : Z) : act Z :=
  let I := IRank 8 RM_builtin_parallel in
  do* _ := pure (massert (c_debug c) (i <? 512)) in
  do* _ := aiter (fun j => do* w := pure (ldw x j) in put_c I j (popcount w)) [0; 1; 2; 3; 4; 5; 6; 7] in
  do* rib := pure (rank_in_block c PC_builtin x i) in
  do* cnts := load_c_act I 8 in
  do* _ := store_s_act I (prefixsum_m512i cnts) in
  do* r := get_s I (i / 64) in
  ret (u64 (r + rib)).

(** rank.hpp 78-187. *)
Definition rank_u256_act (c : cfg) (m : rank_mode) (x : wptr) (i : Z) : act Z :=
  match m with
  | RM_avx2_loop => rank_vec_loop_act c 4 x i
  | RM_avx2_unrolled => rank_vec_unrolled_act c 4 m x i
  | RM_builtin_parallel => rank_u256_builtin_parallel_act c x i
  | RM_avx2_parallel => rank_vec_parallel_act c 4 m prefixsum_m256i x i
  | _ => rank_generic_act c 4 m x i
  end.
(** rank.hpp 189-303. *)
Definition rank_u512_act (c : cfg) (m : rank_mode) (x : wptr) (i : Z) : act Z :=
  match m with
  | RM_builtin_parallel => rank_u512_builtin_parallel_act c x i
  | RM_avx512_loop => rank_vec_loop_act c 8 x i
  | RM_avx512_unrolled => rank_vec_unrolled_act c 8 m x i
  | RM_avx512_parallel => rank_vec_parallel_act c 8 m prefixsum_m512i x i
  | _ => rank_generic_act c 8 m x i
  end.

(** select.hpp 224-246, 292-314: no statics. *)
Definition select_generic_act (c : cfg) (n : nat) (m : select_mode) (x : wptr) (k : Z) : act Z :=
  if sl_scm_loop m then
    do* '(i, k, cnt) := pure (select_loop c (sl_pcm m) x n 0 k 0) in
    do* _ := pure (massert (c_debug c) (k <? cnt)) in
    do* w := pure (ldw x i) in
    do* r := pure (select_u64 c (sl_swm m) w k) in
    ret (u64 (i * 64 + r))
  else
    do* _ := pure (massert (c_debug c) false) in ret 0.

(** select.hpp 262-269, 278-285, 334-341, 350-357. *)
Definition select_vec_tail_act (c : cfg) (I : inst) (msums : list Z) (x : wptr) (k : Z) : act Z :=
  let mask := vcmple_mask msums (set1 64 (length msums) k) in
  do* i := pure (geti Tables.lt_cnt mask) in
  do* _ := store_s_act I msums in
  do* w := pure (ldw x i) in
  do* s := get_s I i in
  do* r := pure (select_u64 c S_pdep w (u64 (k - s))) in
  ret (u64 (i * 64 + r)).

(** select.hpp 248-270, 316-342. *)
Definition select_vec_builtin_act (c : cfg) (n : nat) (m : select_mode) (psum : list Z -> list Z) (x : wptr) (k : Z) : act Z :=
  do* _ := aiter (fun j => do* w := pure (ldw x j) in put_c (ISel n m) j (popcount w)) (zrange 0 n) in
  do* cnts := load_c_act (ISel n m) n in
  select_vec_tail_act c (ISel n m) (psum cnts) x k.

(** select.hpp 271-286, 343-358. *)
Definition select_vec_simd_act (c : cfg) (n : nat) (m : select_mode) (psum : list Z -> list Z) (x : wptr) (k : Z) : act Z :=
  do* ws := pure (ldws x 0 n) in
  select_vec_tail_act c (ISel n m) (psum (popcount_vec ws)) x k.

(** select.hpp 224-290, 292-359. *)
Definition select_u256_act (c : cfg) (m : select_mode) (x : wptr) (k : Z) : act Z :=
  match m with
  | SM_builtin_avx512_pdep => select_vec_builtin_act c 4 m prefixsum_m256i x k
  | SM_avx2_avx512_pdep => select_vec_simd_act c 4 m prefixsum_m256i x k
  | _ => select_generic_act c 4 m x k
  end.
Definition select_u512_act (c : cfg) (m : select_mode) (x : wptr) (k : Z) : act Z :=
  match m with
  | SM_builtin_avx512_pdep => select_vec_builtin_act c 8 m prefixsum_m512i x k
  | SM_avx512_avx512_pdep => select_vec_simd_act c 8 m prefixsum_m512i x k
  | _ => select_generic_act c 8 m x k
  end.

(** types.hpp 23-30, 39-44, 53-58. *)
Definition block_rank_act (c : cfg) (b : btype) (x : wptr) (i : Z) : act Z :=
  match b with
  | B64 => pure (rank_b64 x i)
  | B256 rm _ => rank_u256_act c rm x i
  | B512 rm _ => rank_u512_act c rm x i
  end.
Definition block_select_act (c : cfg) (b : btype) (x : wptr) (k : Z) : act Z :=
  match b with
  | B64 => do* w := pure (ldw x 0) in pure (select_u64 c S_pdep w k)
  | B256 _ sm => select_u256_act c sm x k
  | B512 _ sm => select_u512_act c sm x k
  end.

(** ** Member functions (mutable_bitmap.hpp 46-94) on bitmap [o] *)
Definition rank_act (c : cfg) (ty : btyp) (b : bitmap) (i : Z) : act Z :=
  let bs := block_size (ty_block ty) in
  do* _ := pure (massert (c_debug c) (i <? bm_size (b_words b))) in
  let block := i / bs in
  let offset := Z.land i (bs - 1) in
  do* a := pure (if block =? 0 then Ok 0 else tree_sum c (ty_fam ty) (ty_height ty) (own_view ty b) (block - 1)) in
  do* r := block_rank_act c (ty_block ty) {| w_arr := b_words b; w_off := words_in_block (ty_block ty) * block |} offset in
  ret (u64 (a + r)).

Definition select_act (c : cfg) (ty : btyp) (b : bitmap) (i : Z) : act Z :=
  let bs := block_size (ty_block ty) in
  do* _ := pure (massert (c_debug c) (i <? bm_size (b_words b))) in
  do* '(block, sum) := pure (tree_search c (ty_fam ty) (ty_height ty) (own_view ty b) i) in
  let offset := u64 (i - sum) in
  do* r := block_select_act c (ty_block ty) {| w_arr := b_words b; w_off := words_in_block (ty_block ty) * block |} offset in
  ret (u64 (bs * block + r)).

Definition call_act (c : cfg) (o : nat) (p : op) : act out :=
  Look o (fun '(ty, b) =>
    match p with
    | Flip i =>
        do* '(ws, m) := pure (bm_flip c ty (b_words b) (own_view ty b) i) in
        Save o (ty, {| b_words := ws; b_data := m; b_addr := b_addr b; b_n := b_n b |}) (ret ONone)
    | Access i => do* r := pure (bm_access c (b_words b) i) in ret (OBool r)
    | Rank i => do* r := rank_act c ty b i in ret (ONum r)
    | Select k => do* r := select_act c ty b k in ret (ONum r)
    | Size => ret (ONum (bm_size (b_words b)))
    | Bits => ret (OWords (b_words b))
    end).

(** A thread: calls one after the other. *)
Fixpoint thread_act (c : cfg) (cs : list (nat * op)) : act (list out) :=
  match cs with
  | [] => ret []
  | (o, p) :: r => do* a := call_act c o p in do* l := thread_act c r in ret (a :: l)
  end.

(** ** Execution *)

(** One action of a thread; [None] if it has finished. *)
Definition astep {A} (a : act A) (s : shared) : option (act A * shared) :=
  match a with
  | Done _ => None
  | Get x k => Some (match cell_get s x with Ok v => (k v, s) | Ub e => (Done (Ub e), s) | AssertFail => (Done AssertFail, s) end)
  | Put x v k => Some (match cell_put s x v with Ok s' => (k, s') | Ub e => (Done (Ub e), s) | AssertFail => (Done AssertFail, s) end)
  | Look o k => Some (match sh_objs s o with Some b => (k b, s) | None => (Done (Ub UB_freed), s) end)
  | Save o x k => Some (k, put_bitmap s o x)
  end.

(** All threads; a schedule is the list of thread numbers that take the next
    action, a number of no runnable thread does nothing. *)
Record cstate := { cs_sh : shared; cs_thr : list (act (list out)) }.
Definition cstep (st : cstate) (t : nat) : cstate :=
  match nth_error (cs_thr st) t with
  | Some a => match astep a (cs_sh st) with
              | Some (a', s') => {| cs_sh := s'; cs_thr := upd_nat (cs_thr st) t a' |}
              | None => st
              end
  | None => st
  end.
Definition exec (st : cstate) (sched : list nat) : cstate := fold_left cstep sched st.
Definition start (c : cfg) (s : shared) (ts : list (list (nat * op))) : cstate :=
  {| cs_sh := s; cs_thr := map (thread_act c) ts |}.

(** Data race: two threads about to access the same word or bitmap, one of them
    to write.  Undefined behaviour in C++. *)
Definition conflict {A} (a b : act A) : Prop :=
  match a, b with
  | Get x _, Put y _ _ | Put x _ _, Get y _ | Put x _ _, Put y _ _ => x = y
  | Look o _, Save o' _ _ | Save o _ _, Look o' _ | Save o _ _, Save o' _ _ => o = o'
  | _, _ => False
  end.
Definition race (st : cstate) : Prop :=
  exists t u a b, t <> u /\ nth_error (cs_thr st) t = Some a /\ nth_error (cs_thr st) u = Some b /\ conflict a b.
