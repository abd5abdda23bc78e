(** Specification of the order in which include/poppy numbers the bits of an
    array of words: most significant bit of each word first. *)
From Verif Require Import Base Spec.

Definition word_msb (w : Z) : list bool := rev (bits_of_word w).
Definition bits_msb (ws : list Z) : list bool := flat_map word_msb ws.

(** Numerator over denominator, rounded up. *)
Definition cdiv (a b : Z) : Z := (a + b - 1) / b.

(** Position of a one and of the next one, in the ordinary numbering (least
    significant bit first), as used by the library's own bitmaps. *)
Definition next_in_word (ws : list Z) (k p q : Z) : Prop :=
  is_select (bits_of_words ws) k p /\
  ((is_select (bits_of_words ws) (k + 1) q /\ q / 64 = p / 64) \/
   ((forall q', is_select (bits_of_words ws) (k + 1) q' -> q' / 64 <> p / 64) /\ q = 64 * (p / 64 + 1))).

(** Bits of an n-bit bitmap that the rank directory covers, and bits the select
    directory is built from. *)
Definition rank_bits (n : Z) : Z := Z.min (2 ^ 32) (2048 * (n / 2048)).
Definition select_bits (n : Z) : Z := Z.min (2 ^ 32) (512 * (n / 512)).

(** Number of ones the rank directory covers. *)
Definition covered_ones (ws : list Z) : Z := ones_before (bits_msb ws) (rank_bits (64 * zlen ws)).
(** Number of ones the select directory is built from. *)
Definition scanned_ones (ws : list Z) : Z := ones_before (bits_msb ws) (select_bits (64 * zlen ws)).
(** Sizes for which the index is meant: at least one entry, less than 2^33 bits,
    and the 32-bit counter of ones (plus 8191) does not wrap. *)
Definition poppy_size_ok (ws : list Z) : Prop :=
  words_ok ws /\ 2048 <= 64 * zlen ws < 2 ^ 33 /\ covered_ones ws + 8191 < 2 ^ 32.
