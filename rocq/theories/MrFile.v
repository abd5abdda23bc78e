(** include/mranisz/shared: save(), load(), testRank() and testSelect() of the
    structures of MrRank and MrSelect.  A FILE is the list of the bytes after its
    position; writing never fails; the number of bytes requested in one fwrite or
    fread does not wrap.  free() before loading only releases memory.  Allocations of any
    size succeed, except that the number of elements wraps as the code computes it
    (in reality a number from 2^60 on throws). *)
From Verif Require Import Base Mem Trees MrRank MrSelect.

(** What an uninitialised unsigned char (new unsigned char[], select.hpp lines 755,
    939 and 1321) may hold. *)
Definition bytes_ok (m : memory) : Prop := forall k, 0 <= m_junk_b m k < 256.

(** fwrite of one unsigned long long. *)
Definition put64 (v : Z) : list Z := map (fun j => (v / 2 ^ (8 * j)) mod 256) (zrange 0 8).

(** fwrite of [n] elements of an array. *)
Definition out_words (a : list Z) (n : Z) : res (list Z) :=
  let* ws := mapM (geti a) (zrange 0 (Z.to_nat n)) in Ok (flat_map put64 ws).
Definition out_bytes (a : list Z) (n : Z) : res (list Z) := mapM (geti a) (zrange 0 (Z.to_nat n)).

(** What load() does: load the structure, leaving the rest of the file, or exit(1). *)
Inductive loaded (A : Type) : Type := Loaded (a : A) (rest : list Z) | Exits.
Arguments Loaded {A}. Arguments Exits {A}.
Definition andthen {A B} (x : loaded A) (f : A -> list Z -> res (loaded B)) : res (loaded B) :=
  match x with Loaded a rest => f a rest | Exits => Ok Exits end.

(** fread of one unsigned long long and the test of the result. *)
Definition get64 (f : list Z) : loaded Z :=
  if 8 <=? zlen f then Loaded (rd 8 f 0) (skipn 8 f) else Exits.

(** new unsigned long long[len + 16], alignment, fread of [len] words into it and
    the test of the result, rank.hpp lines 983-995 and 1002-1014, 1752-1764,
    select.hpp lines 1301-1313; only if [len] > 0.  The bytes read before the end
    of the file are stored first. *)
Definition get_words (junk : Z -> Z) (addr len : Z) (f : list Z) : res (loaded (list Z)) :=
  if len >? 0 then
    let mem := fresh junk (u64 (len + 16) - ((- addr) mod 128) / 8) in
    if Z.min (8 * len) (zlen f) >? Z.max 0 (8 * (u64 (len + 16) - ((- addr) mod 128) / 8)) then Ub UB_bounds
    else if zlen f <? 8 * len then Ok Exits
    else Ok (Loaded (map (fun k => rd 8 f (8 * k)) (zrange 0 (Z.to_nat len)) ++ skipn (Z.to_nat len) mem) (skipn (Z.to_nat (8 * len)) f))
  else Ok (Loaded [] f).

(** The same for bytes, select.hpp lines 1320-1331. *)
Definition get_bytes (junk : Z -> Z) (addr len : Z) (f : list Z) : res (loaded (list Z)) :=
  if len >? 0 then
    let mem := fresh junk (u64 (len + 128) - (- addr) mod 128) in
    if Z.min len (zlen f) >? Z.max 0 (u64 (len + 128) - (- addr) mod 128) then Ub UB_bounds
    else if zlen f <? len then Ok Exits
    else Ok (Loaded (firstn (Z.to_nat len) f ++ skipn (Z.to_nat len) mem) (skipn (Z.to_nat len) f))
  else Ok (Loaded [] f).

(** ** RankBasic64: rank.hpp lines 953-966 and 968-1015 *)
Definition save_basic (t : rank_basic) : res (list Z) :=
  let* a := if rb_ranks_len t >? 0 then out_words (rb_ranks t) (rb_ranks_len t) else Ok [] in
  let* b := if rb_bits_len t >? 0 then out_words (rb_bits t) (rb_bits_len t) else Ok [] in
  Ok (put64 (rb_text_len t) ++ put64 (rb_ranks_len t) ++ a ++ put64 (rb_bits_len t) ++ b).

Definition load_basic (m : memory) (f : list Z) : res (loaded rank_basic) :=
  andthen (get64 f) (fun text_len f =>
  andthen (get64 f) (fun ranks_len f =>
  let* x := get_words (m_junk_r m) (m_addr_r m) ranks_len f in
  andthen x (fun ranks f =>
  andthen (get64 f) (fun bits_len f =>
  let* y := get_words (m_junk_b m) (m_addr_b m) bits_len f in
  andthen y (fun bits f =>
  Ok (Loaded {| rb_ranks := ranks; rb_ranks_len := ranks_len; rb_bits := bits; rb_bits_len := bits_len; rb_text_len := text_len |} f)))))).

(** ** RankCF64: rank.hpp lines 1711-1723 and 1725-1765 *)
Definition save_cf (t : rank_cf) : res (list Z) :=
  let* b := if cf_bits_len t >? 0 then out_words (cf_bits t) (cf_bits_len t) else Ok [] in
  Ok (put64 (cf_text_len t) ++ put64 (cf_border t) ++ put64 (cf_block_border t) ++ put64 (cf_bits_len t) ++ b).

Definition load_cf (m : memory) (f : list Z) : res (loaded rank_cf) :=
  andthen (get64 f) (fun text_len f =>
  andthen (get64 f) (fun border f =>
  andthen (get64 f) (fun block_border f =>
  andthen (get64 f) (fun bits_len f =>
  let* y := get_words (m_junk_b m) (m_addr_b m) bits_len f in
  andthen y (fun bits f =>
  Ok (Loaded {| cf_bits := bits; cf_bits_len := bits_len; cf_text_len := text_len; cf_border := border; cf_block_border := block_border |} f)))))).

(** ** SelectBasic64: select.hpp lines 1271-1284 and 1286-1332 *)
Definition save_sel (t : select_basic) : res (list Z) :=
  let* a := if sb_selects_len t >? 0 then out_words (sb_selects t) (sb_selects_len t) else Ok [] in
  let* b := if sb_bits_len t >? 0 then out_bytes (sb_bits t) (sb_bits_len t) else Ok [] in
  Ok (put64 (sb_text_len t) ++ put64 (sb_selects_len t) ++ a ++ put64 (sb_bits_len t) ++ b).

Definition load_sel (m : memory) (f : list Z) : res (loaded select_basic) :=
  andthen (get64 f) (fun text_len f =>
  andthen (get64 f) (fun selects_len f =>
  let* x := get_words (m_junk_r m) (m_addr_r m) selects_len f in
  andthen x (fun selects f =>
  andthen (get64 f) (fun bits_len f =>
  let* y := get_bytes (m_junk_b m) (m_addr_b m) bits_len f in
  andthen y (fun bits f =>
  Ok (Loaded {| sb_selects := selects; sb_selects_len := selects_len; sb_bits := bits; sb_bits_len := bits_len; sb_text_len := text_len |} f)))))).

(** ** Self tests *)

(** testRank, rank.hpp lines 1037-1051 and 1786-1800: the lines printed
    (position, expected, rank).  One loop over the bits. *)
Definition test_rank (rank : Z -> res Z) (text : list Z) : res (list (Z * Z * Z)) :=
  let* '(_, out) := foldM (fun '(n, out) q =>
      let* b := text_bit text q in
      let n := if b then u64 (n + 1) else n in
      let* r := rank (q + 1) in
      Ok (n, if n =? r then out else out ++ [(q + 1, n, r)]))
    (zrange 0 (Z.to_nat (8 * zlen text))) (0, []) in
  Ok out.

(** testSelect, select.hpp lines 1355-1371. *)
Definition test_select (select : Z -> res Z) (text : list Z) : res (list (Z * Z * Z)) :=
  let* '(_, out) := foldM (fun '(n, out) q =>
      let* b := text_bit text q in
      if b then
        let n := u64 (n + 1) in
        let* r := select n in
        Ok (n, if q =? r then out else out ++ [(n, q, r)])
      else Ok (n, out))
    (zrange 0 (Z.to_nat (8 * zlen text))) (0, []) in
  Ok out.
