(** TypeF of include/hft/fenwick/typef.hpp with the language's rule that the address of an
    access through a cast pointer is a multiple of the size accessed.  Tree starts at a
    page (mmap, darray.hpp lines 43-62), so the offset decides.  auint16_t and auint64_t
    (common.hpp lines 49-52) may alias other types but have the alignment of uint16_t and
    uint64_t.  Everything else is as in Hft.  All line numbers refer to typef.hpp. *)
From Verif Require Import Base Mem SpecHft Hft.

Definition cast_load (n : nat) (m : list Z) (p : Z) : res Z :=
  if p mod Z.of_nat n =? 0 then load n m p else Ub UB_align.
Definition cast_store (n : nat) (m : list Z) (p v : Z) : res (list Z) :=
  if p mod Z.of_nat n =? 0 then store n m p v else Ub UB_align.

(** Lines 85-96, 132-144, 165-176. *)
Definition tf_get (t : ftree) (idx : Z) : res Z :=
  let bs := bound_size (ft_bound t) in
  let* h := rho idx in cast_load (type_width (bs + h)) (arr t 0) (typef_pos bs idx).

(** Lines 106-117. *)
Definition tf_bump (t : ftree) (idx inc : Z) : res ftree :=
  let bs := bound_size (ft_bound t) in
  let* h := rho idx in
  let w := type_width (bs + h) in
  let* v := cast_load w (arr t 0) (typef_pos bs idx) in
  let* m := cast_store w (arr t 0) (typef_pos bs idx) (wrap (8 * Z.of_nat w) (v + inc)) in Ok (with_arr t 0 m).

(** Lines 26-39. *)
Definition tf_leaf (t : ftree) (idx v : Z) : res ftree :=
  let bs := bound_size (ft_bound t) in
  let* h := rho idx in
  let* m := cast_store (type_width (bs + h)) (arr t 0) (typef_pos bs idx) v in Ok (with_arr t 0 m).

(** Lines 43-76. *)
Definition tf_combine (t : ftree) (idx other : Z) : res ftree :=
  let* right := tf_get t other in tf_bump t idx right.
Definition tf_round (size e : Z) (t : ftree) : res ftree :=
  foldM (fun t k => let idx := (k + 1) * 2 ^ e in tf_combine t idx (idx - 2 ^ e / 2))
    (zrange 0 (Z.to_nat (size / 2 ^ e))) t.

(** The constructor, lines 25-79. *)
Definition tf_build (B : Z) (seq : list Z) (size : Z) : res ftree :=
  let t := {| ft_lay := TypeF; ft_bound := B; ft_size := size; ft_level := []; ft_arr := [darray 1 (f_bytes TypeF B size)] |} in
  let* t := foldM (fun t j => let* v := geti seq (j - 1) in tf_leaf t j v) (zrange 1 (Z.to_nat size)) t in
  foldM (fun t e => tf_round size e t) (zrange 1 (Z.to_nat (Z.log2 size))) t.

(** prefix, lines 81-102. *)
Fixpoint tf_prefix (fuel : nat) (t : ftree) (idx sum : Z) : res Z :=
  match fuel with
  | O => Ub UB_loop
  | S f => if idx =? 0 then Ok sum
           else let* v := tf_get t idx in tf_prefix f t (clear_rho idx) (u64 (sum + v))
  end.

(** add, lines 104-121. *)
Fixpoint tf_add (fuel : nat) (t : ftree) (idx inc : Z) : res ftree :=
  match fuel with
  | O => Ub UB_loop
  | S f => if idx <=? ft_size t
           then let* t := tf_bump t idx inc in tf_add f t (u64 (idx + mask_rho idx)) inc
           else Ok t
  end.

(** find and compFind, lines 123-186. *)
Fixpoint tf_find (fuel : nat) (comp : bool) (t : ftree) (m node val : Z) : res (Z * Z) :=
  match fuel with
  | O => Ub UB_loop
  | S f =>
      if m =? 0 then Ok (node, val)
      else if ft_size t <? u64 (node + m) then tf_find f comp t (Z.shiftr m 1) node val
      else
        let* v := tf_get t (u64 (node + m)) in
        let* value := if comp then let* h := rho (u64 (node + m)) in complement true (ft_bound t) h v else Ok v in
        if value <=? val then tf_find f comp t (Z.shiftr m 1) (u64 (node + m)) (val - value)
        else tf_find f comp t (Z.shiftr m 1) node val
  end.
Definition tf_search (comp : bool) (t : ftree) (val : Z) : res (Z * Z) :=
  let* m := mask_lambda (ft_size t) in tf_find 65 comp t m 0 val.

(** A client: build, then a list of calls. *)
Definition tf_step (t : ftree) (p : fop) : res (fout * ftree) :=
  match p with
  | FPrefix i => let* x := tf_prefix 65 t i 0 in Ok (FNum x, t)
  | FAdd i inc => let* t := tf_add 65 t i inc in Ok (FDone, t)
  | FFind v => let* '(k, r) := tf_search false t v in Ok (FPair k r, t)
  | FCompFind v => let* '(k, r) := tf_search true t v in Ok (FPair k r, t)
  | FSize => Ok (FNum (ft_size t), t)
  end.
Fixpoint tf_run (t : ftree) (ops : list fop) : res (list fout) :=
  match ops with
  | [] => Ok []
  | p :: r => let* '(o, t) := tf_step t p in let* l := tf_run t r in Ok (o :: l)
  end.
Definition tf_client (B : Z) (seq : list Z) (ops : list fop) : res (list fout) :=
  let* t := tf_build B seq (zlen seq) in tf_run t ops.
