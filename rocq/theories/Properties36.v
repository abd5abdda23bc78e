(** C121: increments of bit fields that lie in two words. *)
From Verif Require Import Base Hft SpecHftWord HftIncFacts.

(** A field of [L] bits from bit [from] on, with value [f] and the part [v] in the first
    word, is increased by [d].  If the first part does not become negative, the field gets
    its new value and no other bit changes. *)
Theorem C121_increment : forall sh m p from L d f v, bytes_of m -> 0 <= p -> p + 16 <= zlen m -> 1 <= from < 64 -> 1 <= L <= 64 -> 64 < from + L -> - 2 ^ 63 <= d < 2 ^ 63 ->
  is_field (mem_bit m) (8 * p + from) L f -> is_field (mem_bit m) (8 * p + from) (64 - from) v -> 0 <= f + d < 2 ^ L -> 0 <= v + d ->
  exists m', bitwrite_inc sh m p from L (u64 d) = Ok m' /\ zlen m' = zlen m /\ is_field (mem_bit m') (8 * p + from) L (f + d) /\
    forall k, 0 <= k < 8 * zlen m -> k < 8 * p + from \/ 8 * p + from + L <= k -> mem_bit m' k = mem_bit m k.
Proof. exact inc_good. Qed.
Print Assumptions C121_increment.
Example C121_increment_case :
  let m := [0; 0; 0; 0; 0; 0; 0; 255; 1; 0; 0; 0; 0; 0; 0; 7] in
  bytes_of m /\ bitread m 0 7 60 = Ok (2 ^ 57 + 255 * 2 ^ 49) /\ bitread m 0 7 57 = Ok (255 * 2 ^ 49) /\
  bitwrite_inc false m 0 7 60 (u64 (2 ^ 56)) = Ok [0; 0; 0; 0; 0; 0; 0; 127; 2; 0; 0; 0; 0; 0; 0; 7] /\
  bitwrite_inc false m 0 7 60 (u64 (-1)) = Ok [128; 255; 255; 255; 255; 255; 255; 254; 1; 0; 0; 0; 0; 0; 0; 7].
Proof. cbv zeta. split; [repeat constructor; vm_compute; congruence|]. vm_compute. intuition congruence. Qed.

(** Otherwise the field still gets its new value, but the bits above it, up to the end of
    the second word, are increased as a number by 2^(64-L). *)
Theorem C121_exact : forall sh m p from L d f v H, bytes_of m -> 0 <= p -> p + 16 <= zlen m -> 1 <= from < 64 -> 1 <= L <= 64 -> 64 < from + L -> - 2 ^ 63 <= d < 2 ^ 63 ->
  is_field (mem_bit m) (8 * p + from) L f -> is_field (mem_bit m) (8 * p + from) (64 - from) v -> is_field (mem_bit m) (8 * p + from + L) (128 - (from + L)) H -> 0 <= f + d < 2 ^ L ->
  exists m', bitwrite_inc sh m p from L (u64 d) = Ok m' /\ zlen m' = zlen m /\
    is_field (mem_bit m') (8 * p + from) L (f + d) /\
    is_field (mem_bit m') (8 * p + from + L) (128 - (from + L)) (if v + d <? 0 then (H + 2 ^ (64 - L)) mod 2 ^ (128 - (from + L)) else H) /\
    (forall k, 0 <= k < 8 * zlen m -> k < 8 * p + from \/ 8 * (p + 16) <= k -> mem_bit m' k = mem_bit m k).
Proof. exact inc_bits. Qed.
Print Assumptions C121_exact.
(** So a bit that does not belong to the field always changes. *)
Theorem C121_borrow : forall sh m p from L d f v, bytes_of m -> 0 <= p -> p + 16 <= zlen m -> 1 <= from < 64 -> 1 <= L <= 64 -> 64 < from + L -> - 2 ^ 63 <= d < 2 ^ 63 ->
  is_field (mem_bit m) (8 * p + from) L f -> is_field (mem_bit m) (8 * p + from) (64 - from) v -> 0 <= f + d < 2 ^ L -> v + d < 0 ->
  exists m' k, bitwrite_inc sh m p from L (u64 d) = Ok m' /\ 8 * p + from + L <= k < 8 * (p + 16) /\ mem_bit m' k <> mem_bit m k.
Proof. exact inc_bad. Qed.
Print Assumptions C121_borrow.
Example C121_borrow_case :
  let m := [0; 0; 0; 0; 0; 0; 0; 0; 1; 0; 0; 0; 0; 0; 0; 0] in
  bytes_of m /\ bitread m 0 7 58 = Ok (2 ^ 57) /\ bitread m 0 7 57 = Ok 0 /\
  bitwrite_inc false m 0 7 58 (u64 (-1)) = Ok [128; 255; 255; 255; 255; 255; 255; 255; 128; 0; 0; 0; 0; 0; 0; 0].
Proof. cbv zeta. split; [repeat constructor; vm_compute; congruence|]. vm_compute. intuition congruence. Qed.
