(** include/mranisz/shared/select.hpp: SelectBasic32, save(), load() and testSelect(), and
    those of SelectMPE32, which are the same (lines 2771-2784, 2786-2831, 2856-2871; its free()
    also gives it a new buffer for the queries).  A file is the list of its bytes (MrFile); [put32], [get32] and the arrays of MrRank32 and
    MrMpe32. *)
From Verif Require Import Base Mem Words Trees MrRank MrSelect MrFile MrMpe MrRank32 MrMpe32 MrSelect32.

(** save, lines 566-579. *)
Definition save_sel32 (t : select_basic) : res (list Z) :=
  let* a := if sb_selects_len t >? 0 then out_ints (sb_selects t) (sb_selects_len t) else Ok [] in
  let* b := if sb_bits_len t >? 0 then out_bytes (sb_bits t) (sb_bits_len t) else Ok [] in
  Ok (put32 (sb_text_len t) ++ put32 (sb_selects_len t) ++ a ++ put32 (sb_bits_len t) ++ b).

(** load, lines 581-624. *)
Definition load_sel32 (m : memory) (f : list Z) : res (loaded select_basic) :=
  andthen (get32 f) (fun text_len f =>
  andthen (get32 f) (fun selects_len f =>
  let* x := get_ints (m_junk_r m) (m_addr_r m) selects_len f in
  andthen x (fun selects f =>
  andthen (get32 f) (fun bits_len f =>
  let* y := get_bytes32 (m_junk_b m) (m_addr_b m) bits_len f in
  andthen y (fun bits f =>
  Ok (Loaded {| sb_selects := selects; sb_selects_len := selects_len; sb_bits := bits; sb_bits_len := bits_len; sb_text_len := text_len |} f)))))).

(** testSelect, lines 647-663: the lines printed (number, expected, select).  8 i + j is an
    unsigned int. *)
Definition test_select32 (select : Z -> res Z) (text : list Z) : res (list (Z * Z * Z)) :=
  let* '(_, out) := foldM (fun '(n, out) q =>
      let* b := text_bit text q in
      if b then
        let n := u32 (n + 1) in
        let* r := select n in
        Ok (n, if u32 q =? r then out else out ++ [(n, u32 q, r)])
      else Ok (n, out))
    (zrange 0 (Z.to_nat (8 * zlen text))) (0, []) in
  Ok out.
