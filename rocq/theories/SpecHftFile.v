(** What the files of the Fenwick trees of include/hft contain, and how much memory a
    tree takes.  Nothing here mentions the byte order of the machine. *)
From Verif Require Import Base SpecHft.

(** The [w] low bytes of a number, the most significant first. *)
Fixpoint be (w : nat) (v : Z) : list Z :=
  match w with O => [] | S k => (v / 256 ^ Z.of_nat k) mod 256 :: be k v end.

(** The same bytes as a little-endian machine keeps them. *)
Fixpoint le (w : nat) (v : Z) : list Z := match w with O => [] | S k => v mod 256 :: le k (v / 256) end.

(** The widths in bytes of the elements of the arrays of a class. *)
Definition elem_widths (lay : layout) : list nat :=
  match lay with FixedF | FixedL => [8] | TypeL => [1; 2; 8] | _ => [1] end%nat.

(** An array of numbers: how many, then the numbers. *)
Definition array_file (w : nat) (xs : list Z) : list Z := be 8 (zlen xs) ++ flat_map (be w) xs.
Fixpoint arrays_file (ws : list nat) (arrays : list (list Z)) : list Z :=
  match ws, arrays with w :: ws, a :: arrays => array_file w a ++ arrays_file ws arrays | _, _ => [] end.

(** A tree: its size, the starts of its levels if it has them, its arrays. *)
Definition tree_file (lay : layout) (size : Z) (levels : list Z) (arrays : list (list Z)) : list Z :=
  be 8 size ++ (if is_l lay then array_file 8 levels else []) ++ arrays_file (elem_widths lay) arrays.

(** The bytes of the file before the first element of its (first) array. *)
Definition header_bytes (lay : layout) (levels : nat) : nat := 16 + (if is_l lay then 8 + 8 * levels else 0).

(** The size of an object of the class: the pointer to the virtual functions, Size,
    for the L classes Levels and Level, and two words per array. *)
Definition object_bytes (lay : layout) : Z :=
  16 + (if is_l lay then 16 else 0) + 16 * zlen (elem_widths lay).

(** Whole pages for [bytes] bytes. *)
Definition page_bytes (bytes : Z) : Z := 4096 * ((bytes + 4095) / 4096).

(** The memory of a tree in bits: object, levels, arrays of the given numbers of
    bytes. *)
Definition tree_bits (lay : layout) (levels : Z) (arrays : list Z) : Z :=
  8 * (object_bytes lay + 8 * levels + fold_right Z.add 0 (map page_bytes arrays)).

(** The same for a hybrid: its own members, then its trees, of which the vector holds
    no more than it needs. *)
Definition hybrid_bits (top : Z) (bots : list Z) : Z := 8 * 48 + top + fold_right Z.add 0 bots.
