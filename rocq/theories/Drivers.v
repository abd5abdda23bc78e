(** Programs over a single node and over a single tree, as the unit tests use
    them (test/test_node.hpp, test/test_nodes.cpp, test/test_tree.hpp, test/test_segment_tree.cpp): build, then calls.
    Not code of the library. *)
From Verif Require Import Base Mem Nodes Trees Spec SpecIndex.

(** A node of class [n] at offset [p] of a buffer at address [base]. *)
Definition node_step (c : cfg) (base : Z) (n : node) (p : Z) (m : list Z) (o : iop) : res (iout * list Z) :=
  match o with
  | ISum i => let* r := node_sum c n m p i in Ok (INum r, m)
  | IUpdate i sign => let* m := node_update c base n m p i sign in Ok (INone, m)
  | ISearch x => let* '(i, s) := node_search c n m p x in Ok (IPair i s, m)
  end.

Fixpoint node_run (c : cfg) (base : Z) (n : node) (p : Z) (m : list Z) (ops : list iop) : res (list iout * list Z) :=
  match ops with
  | [] => Ok ([], m)
  | o :: r =>
      let* '(a, m) := node_step c base n p m o in
      let* '(l, m) := node_run c base n p m r in
      Ok (a :: l, m)
  end.

Definition node_program (c : cfg) (base : Z) (n : node) (p : Z) (m input : list Z) (ops : list iop) : res (list iout * list Z) :=
  let* m := build_node (desc n) input m p in node_run c base n p m ops.

(** Members of a built segment_tree<Height> whose buffer [m] is at [addr]
    (segment_tree.hpp 60-64 resp. 54-58). *)
Definition tree_view (H : nat) (addr n : Z) (m : list Z) : tview :=
  {| v_size := n; v_nn := fun i => load 4 m (4 * i); v_base := addr; v_ptr := Z.of_nat H * 4; v_mem := m |}.

Definition tree_step (c : cfg) (f : fam) (H : nat) (addr n : Z) (m : list Z) (o : iop) : res (iout * list Z) :=
  match o with
  | ISum i => let* r := tree_sum c f H (tree_view H addr n m) i in Ok (INum r, m)
  | IUpdate i sign => let* m := tree_update c f H (tree_view H addr n m) i sign in Ok (INone, m)
  | ISearch x => let* '(i, s) := tree_search c f H (tree_view H addr n m) x in Ok (IPair i s, m)
  end.

Fixpoint tree_run (c : cfg) (f : fam) (H : nat) (addr n : Z) (m : list Z) (ops : list iop) : res (list iout * list Z) :=
  match ops with
  | [] => Ok ([], m)
  | o :: r =>
      let* '(a, m) := tree_step c f H addr n m o in
      let* '(l, m) := tree_run c f H addr n m r in
      Ok (a :: l, m)
  end.

(** Build into an object whose buffer holds [old], then the calls.  Returns the
    answers and the final buffer. *)
Definition tree_program (c : cfg) (f : fam) (H : nat) (addr : Z) (old input : list Z) (ops : list iop) : res (list iout * list Z) :=
  let* m := tree_build c f H input old in tree_run c f H addr (u32 (zlen input)) m ops.

(** ** What a node and a tree can hold *)

(** Does this build run the vector body of this class? *)
Definition vector_paths (c : cfg) (n : node) : bool :=
  match n with A2_128 | A2_64 | A2_32 => c_avx2 c | _ => c_avx512 c end.

(** [fanout] counters whose segment sums fit key_type and whose total fits
    summary_type; vector searches compare signed, so they lose one bit. *)
Definition node_fits (c : cfg) (n : node) (A : list Z) : Prop :=
  let d := desc n in
  let e := b2z (vector_paths c n) in
  zlen A = nd_fanout d /\ Forall (fun v => 0 <= v) A /\
  (forall j, 0 <= j < nd_nseg d -> psum A ((j + 1) * nd_seg d) - psum A (j * nd_seg d) < 2 ^ (8 * Z.of_nat (nd_kb d) - e)) /\
  psum A (nd_fanout d) < 2 ^ (8 * Z.of_nat (nd_sb d) - e).

(** The node lies inside the buffer, at an address the aligned load accepts. *)
Definition node_place_ok (c : cfg) (base : Z) (n : node) (p : Z) (m : list Z) : Prop :=
  0 <= p /\ p + nd_bytes (desc n) <= zlen m /\
  (n = A2_128 -> c_avx2 c = true -> c_trap c = true -> (base + p) mod 32 = 0).

(** The searches that fall foul of the signed comparisons in the height-4 avx2
    root, see [select_lost]. *)
Definition search_lost (A : list Z) (x : Z) : Prop :=
  (exists s, 1 <= s <= 3 /\ 2 ^ 31 <= psum A ((8 * s + 7) * 2 ^ 19) - psum A ((8 * s - 1) * 2 ^ 19) /\
     psum A ((8 * s + 6) * 2 ^ 19) <= x < psum A ((8 * s + 7) * 2 ^ 19)) \/
  2 ^ 31 <= x - psum A (23 * 2 ^ 19).
Definition search_safe (c : cfg) (f : fam) (H : nat) (A : list Z) (x : Z) : Prop :=
  f = F2 -> H = 4%nat -> c_avx2 c = true -> ~ search_lost A x.

Fixpoint isearches_safe (c : cfg) (f : fam) (H : nat) (A : list Z) (ops : list iop) : Prop :=
  match ops with
  | [] => True
  | o :: r =>
      (match o with ISearch x => search_safe c f H A x | _ => True end) /\ isearches_safe c f H (counters_after A o) r
  end.

(** Largest counter build accepts in a debug build. *)
Definition max_leaf (f : fam) : Z := match f with F2 => 512 | F5 => 256 end.
