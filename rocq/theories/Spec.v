(** Specification vocabulary.  Nothing here mentions the implementation. *)
From Verif Require Import Base.

(** A bit vector is a list of booleans. *)
Fixpoint count_true (l : list bool) : Z :=
  match l with [] => 0 | b :: r => b2z b + count_true r end.

Definition bit (B : list bool) (i : Z) : bool := zn false B i.

(** Ones at positions 0..i-1. *)
Definition ones_before (B : list bool) (i : Z) : Z := count_true (firstn (Z.to_nat i) B).

(** rank(i): ones at positions 0..i. *)
Definition rank_spec (B : list bool) (i : Z) : Z := ones_before B (i + 1).

(** p is the position of the (k+1)-th one. *)
Definition is_select (B : list bool) (k p : Z) : Prop :=
  0 <= p < zlen B /\ bit B p = true /\ ones_before B p = k.

(** B with the bit at i toggled. *)
Definition flip_bit (B : list bool) (i : Z) : list bool := upd B i (negb (bit B i)).

(** Bits of an array of 64-bit words, least significant bit first. *)
Definition bits_of_word (w : Z) : list bool := map (Z.testbit w) (zrange 0 64).
Definition bits_of_words (ws : list Z) : list bool := flat_map bits_of_word ws.

(** [B] followed by zeros up to a multiple of [bs]. *)
Definition padded (bs : Z) (B : list bool) : list bool :=
  B ++ repeat false (Z.to_nat ((- zlen B) mod bs)).

(** A valid array of 64-bit words. *)
Definition words_ok (ws : list Z) : Prop := Forall (fun w => 0 <= w < 2 ^ 64) ws.

(** Operations of a bitmap and what they return. *)
Inductive op := Flip (i : Z) | Access (i : Z) | Rank (i : Z) | Select (k : Z) | Size | Bits.
Inductive out := ONone | OBool (b : bool) | ONum (z : Z) | OWords (ws : list Z).

(** Calls a user may make when the contents are [B]. *)
Definition valid_op (B : list bool) (o : op) : Prop :=
  match o with
  | Flip i | Access i | Rank i => 0 <= i < zlen B
  | Select k => 0 <= k < count_true B
  | Size | Bits => True
  end.

(** Allowed answer of an operation on contents [B]. *)
Definition answer_ok (B : list bool) (o : op) (r : out) : Prop :=
  match o, r with
  | Flip _, ONone => True
  | Access i, OBool b => b = bit B i
  | Rank i, ONum z => z = rank_spec B i
  | Select k, ONum p => is_select B k p
  | Size, ONum z => z = zlen B
  | Bits, OWords ws => words_ok ws /\ bits_of_words ws = B
  | _, _ => False
  end.

(** Contents after an operation. *)
Definition contents_after (B : list bool) (o : op) : list bool :=
  match o with Flip i => flip_bit B i | _ => B end.

Fixpoint contents_after_all (B : list bool) (ops : list op) : list bool :=
  match ops with [] => B | o :: r => contents_after_all (contents_after B o) r end.

(** Every operation of the sequence is valid when it is executed. *)
Fixpoint valid_ops (B : list bool) (ops : list op) : Prop :=
  match ops with
  | [] => True
  | o :: r => valid_op B o /\ valid_ops (contents_after B o) r
  end.

(** The answers are right, operation by operation. *)
Fixpoint answers_ok (B : list bool) (ops : list op) (outs : list out) : Prop :=
  match ops, outs with
  | [], [] => True
  | o :: r, a :: s => answer_ok B o a /\ answers_ok (contents_after B o) r s
  | _, _ => False
  end.

(** Prefix sums of an array of counters. *)
Definition psum (A : list Z) (i : Z) : Z := fold_right Z.add 0 (firstn (Z.to_nat i) A).

(** Result of search(x): the first position whose inclusive prefix sum exceeds
    x, and the sum of the counters before it. *)
Definition is_search (A : list Z) (x : Z) (r : Z * Z) : Prop :=
  let '(i, s) := r in
  0 <= i < zlen A /\ s = psum A i /\ s <= x < psum A (i + 1).
