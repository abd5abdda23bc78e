(** C119, C120: the helpers of include/hft/common.hpp on bit fields and words. *)
From Verif Require Import Base Spec Hft SpecHftWord HftWord HftWordFacts HftWordFacts2.

(** ** C119: bit fields *)
(** bitread returns the bits asked for, also across two words. *)
Theorem C119_read : forall m p from L, bytes_of m -> 0 <= p -> p + span from L <= zlen m -> 0 <= from < 64 -> 1 <= L <= 64 ->
  exists r, bitread m p from L = Ok r /\ is_field (mem_bit m) (8 * p + from) L r.
Proof. exact bitread_field. Qed.
Print Assumptions C119_read.
Example C119_read_case :
  let m := [1; 2; 3; 4; 5; 6; 7; 0xA0; 5; 0; 0; 0; 0; 0; 0; 0x80] in
  bytes_of m /\ 0 + span 60 8 <= zlen m /\ bitread m 0 60 8 = Ok 0x5A /\ bitread m 0 8 16 = Ok 0x302 /\ bitread m 0 63 64 = Ok 0xB.
Proof. cbv zeta. split; [repeat constructor; vm_compute; congruence|]. vm_compute. intuition congruence. Qed.

(** bitextract, meant to do the same on an array of words, is right for every content
    exactly when the field lies in one word or starts at the bit that equals its length. *)
Theorem C119_extract : forall from L, 0 <= from < 64 -> 1 <= L <= 64 ->
  (forall ws, words_of ws -> zlen ws = 2 -> exists r, bitextract ws from L = Ok r /\ is_field (word_bit ws) from L r) <-> from + L <= 64 \/ from = L.
Proof. exact bitextract_right_iff. Qed.
Print Assumptions C119_extract.
(** What it returns otherwise: the part in the second word ends up 64-L places up, where it
    overlaps the first part or leaves a gap, and loses the bits beyond place [from]. *)
Theorem C119_extract_bits : forall ws from L, words_of ws -> span from L <= 8 * zlen ws -> 0 <= from < 64 -> 1 <= L <= 64 ->
  exists r, bitextract ws from L = Ok r /\ 0 <= r < 2 ^ 64 /\
  forall j, 0 <= j < 64 -> Z.testbit r j = if from + L <=? 64 then (j <? L) && word_bit ws (from + j) else ((j <? 64 - from) && word_bit ws (from + j)) || ((64 - L <=? j) && (j <? from) && word_bit ws (64 + (j - (64 - L)))).
Proof. exact bitextract_bits. Qed.
Print Assumptions C119_extract_bits.
Theorem C119_extract_refuted : exists ws m r s, words_of ws /\ bytes_of m /\ (forall k, 0 <= k < 128 -> word_bit ws k = mem_bit m k) /\
  bitextract ws 60 8 = Ok r /\ bitread m 0 60 8 = Ok s /\ s = 0x5A /\ r <> s.
Proof. exact bitextract_differs. Qed.
Print Assumptions C119_extract_refuted.
Example C119_extract_case :
  let ws := [0xA000000000000123; 5] in
  words_of ws /\ span 60 8 <= 8 * zlen ws /\ bitextract ws 60 8 = Ok 0x50000000000000A /\ bitextract ws 4 8 = Ok 0x12 /\ bitextract ws 40 40 = Ok 0x5A00000.
Proof. cbv zeta. split; [repeat constructor; vm_compute; congruence|]. vm_compute. intuition congruence. Qed.

(** bitwrite replaces the field and nothing else when the value fits the field ... *)
Theorem C119_write : forall m p from L v, bytes_of m -> 0 <= p -> p + span from L <= zlen m -> 0 <= from < 64 -> 1 <= L <= 64 -> 0 <= v < 2 ^ L ->
  exists m', bitwrite m p from L v = Ok m' /\ zlen m' = zlen m /\
  forall k, 0 <= k < 8 * zlen m -> mem_bit m' k = if (8 * p + from <=? k) && (k <? 8 * p + from + L) then Z.testbit v (k - (8 * p + from)) else mem_bit m k.
Proof. exact bitwrite_clean. Qed.
Print Assumptions C119_write.
(** ... and otherwise also adds the excess bits of the value to the rest of the words. *)
Theorem C119_write_bits : forall m p from L v, bytes_of m -> 0 <= p -> p + span from L <= zlen m -> 0 <= from < 64 -> 1 <= L <= 64 -> 0 <= v < 2 ^ 64 ->
  exists m', bitwrite m p from L v = Ok m' /\ zlen m' = zlen m /\
  forall k, 0 <= k < 8 * zlen m -> mem_bit m' k =
    if (8 * p + from <=? k) && (k <? 8 * p + from + L) then Z.testbit v (k - (8 * p + from))
    else mem_bit m k || ((8 * p + from + L <=? k) && (k <? 8 * (p + span from L)) && Z.testbit v (k - (8 * p + from))).
Proof. exact bitwrite_bits. Qed.
Print Assumptions C119_write_bits.
Theorem C119_write_confined_refuted : exists m v, bytes_of m /\ zlen m = 8 /\ 0 <= v < 2 ^ 64 /\ mem_bit m 4 = false /\ exists m', bitwrite m 0 0 4 v = Ok m' /\ mem_bit m' 4 = true.
Proof. exact bitwrite_spill. Qed.
Print Assumptions C119_write_confined_refuted.
Example C119_write_case :
  let m := [1; 2; 3; 4; 5; 6; 7; 0xFF; 0xFF; 0; 0; 0; 0; 0; 0; 9] in
  bytes_of m /\ 0 + span 60 8 <= zlen m /\ bitwrite m 0 60 8 0x5A = Ok [1; 2; 3; 4; 5; 6; 7; 0xAF; 0xF5; 0; 0; 0; 0; 0; 0; 9] /\
  bitwrite m 0 4 8 0xAB = Ok [0xB1; 0x0A; 3; 4; 5; 6; 7; 0xFF; 0xFF; 0; 0; 0; 0; 0; 0; 9].
Proof. cbv zeta. split; [repeat constructor; vm_compute; congruence|]. vm_compute. intuition congruence. Qed.

(** compact_bitmask sets exactly the bits [pos, pos + count) of a word; the empty mask is
    undefined although the code means to treat it. *)
Theorem C119_mask : forall count pos, 1 <= count <= 64 -> 0 <= pos < 64 ->
  exists r, compact_bitmask count pos = Ok r /\ 0 <= r < 2 ^ 64 /\ forall j, 0 <= j < 64 -> Z.testbit r j = (pos <=? j) && (j <? pos + count).
Proof. exact compact_bitmask_ok. Qed.
Print Assumptions C119_mask.
Theorem C119_mask_empty : forall pos, compact_bitmask 0 pos = Ub UB_shift.
Proof. exact compact_bitmask_0. Qed.
Print Assumptions C119_mask_empty.
Example C119_mask_case : compact_bitmask 8 4 = Ok 0xFF0 /\ compact_bitmask 64 60 = Ok 0xF000000000000000.
Proof. split; reflexivity. Qed.

(** ** C120: single words *)
(** round_pow2 rounds up to the next power of two, and gives 0 if there is none. *)
Theorem C120_round : forall v, 1 <= v <= 2 ^ 63 -> least_power v (round_pow2 v).
Proof. exact round_pow2_least. Qed.
Print Assumptions C120_round.
Theorem C120_round_none : forall v, v = 0 \/ 2 ^ 63 < v < 2 ^ 64 -> round_pow2 v = 0.
Proof. exact round_pow2_none. Qed.
Print Assumptions C120_round_none.
Example C120_round_case : round_pow2 1 = 1 /\ round_pow2 64 = 64 /\ round_pow2 65 = 128 /\ round_pow2 (2 ^ 62 + 1) = 2 ^ 63.
Proof. vm_compute. intuition congruence. Qed.

(** mround rounds up to a multiple of a power of two, modulo 2^64. *)
Theorem C120_multiple : forall n k, 0 <= n < 2 ^ 64 -> 0 <= k < 64 -> exists r, least_multiple n (2 ^ k) r /\ mround n (2 ^ k) = r mod 2 ^ 64.
Proof. exact mround_least. Qed.
Print Assumptions C120_multiple.
Example C120_multiple_case : mround 0 8 = 0 /\ mround 1 8 = 8 /\ mround 16 8 = 16 /\ mround 17 8 = 24 /\ mround (2 ^ 64 - 1) 8 = 0.
Proof. vm_compute. intuition congruence. Qed.

(** updroot returns the last node inside the tree that an update of a node visits. *)
Theorem C120_root : forall j n, 0 < j <= n -> n < 2 ^ 64 -> exists r, updroot j n = Ok r /\ last_visited j n r.
Proof. exact updroot_last. Qed.
Print Assumptions C120_root.
Example C120_root_case : updroot 5 13 = Ok 8 /\ updroot 9 13 = Ok 12 /\ updroot 13 13 = Ok 13 /\ updroot 12 13 = Ok 12.
Proof. vm_compute. intuition congruence. Qed.

(** select64 (build without __haswell__) returns the position of a one, counted from 0; with
    no such one, and an argument below 128, it shifts by 64. *)
Theorem C120_select : forall x k, 0 <= x < 2 ^ 64 -> 0 <= k < count_true (bits_of_word x) -> exists p, select64_hft x k = Ok p /\ is_select (bits_of_word x) k p.
Proof. exact select64_hft_spec. Qed.
Print Assumptions C120_select.
Theorem C120_select_past : forall x k, 0 <= x < 2 ^ 64 -> count_true (bits_of_word x) <= k < 128 -> select64_hft x k = Ub UB_shift.
Proof. exact select64_hft_none. Qed.
Print Assumptions C120_select_past.
Example C120_select_case : select64_hft 0x8000000000010104 2 = Ok 16 /\ select64_hft 0x8000000000010104 3 = Ok 63 /\ count_true (bits_of_word 0x8000000000010104) = 4 /\ select64_hft 0x8000000000010104 4 = Ub UB_shift.
Proof. vm_compute. intuition congruence. Qed.

(** With __haswell__ the answer is the same while there is such a one; otherwise it is 64,
    and the shift is undefined from 64 on. *)
Theorem C120_select_haswell : forall x k, 0 <= x < 2 ^ 64 -> 0 <= k < count_true (bits_of_word x) -> exists p, select64_haswell x k = Ok p /\ is_select (bits_of_word x) k p.
Proof. exact select64_haswell_spec. Qed.
Print Assumptions C120_select_haswell.
Theorem C120_select_haswell_past : forall x k, 0 <= x < 2 ^ 64 -> count_true (bits_of_word x) <= k < 64 -> select64_haswell x k = Ok 64.
Proof. exact select64_haswell_past. Qed.
Print Assumptions C120_select_haswell_past.
Theorem C120_select_haswell_shift : forall x k, 64 <= k -> select64_haswell x k = Ub UB_shift.
Proof. exact select64_haswell_shift. Qed.
Print Assumptions C120_select_haswell_shift.
Example C120_select_haswell_case : select64_haswell 0x8000000000010104 2 = Ok 16 /\ select64_haswell 0x8000000000010104 3 = Ok 63 /\ select64_haswell 0x8000000000010104 4 = Ok 64 /\ select64_haswell 1 64 = Ub UB_shift.
Proof. vm_compute. intuition congruence. Qed.
