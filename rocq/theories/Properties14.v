(** C58-C61: the rank structures of include/mranisz/shared/rank.hpp that
    src/perf_compressed_bitmap.cpp measures. *)
From Verif Require Import Base Spec SpecText MrRank MrRankProps.

(** ** C58: RankBasic64, standard headers *)

(** rank(i) is the number of ones before i, also in the unused end of the last block. *)
Theorem C58_basic_rank : forall m t, addresses_ok m -> text_ok t -> zlen t < 2 ^ 58 ->
  exists r, build_std m t = Ok r /\ forall i, 0 <= i < 512 * text_blocks t -> rank_std r i = Ok (ones_before (text_bits t) i).
Proof. exact basic_rank. Qed.
Print Assumptions C58_basic_rank.
Example C58_basic_rank_case :
  let t := repeat 255 64 ++ [1; 128; 3] in
  addresses_ok (mem_of 99 32) /\ text_blocks t = 2 /\
  (let* r := build_std (mem_of 99 32) t in rank_std r 300) = Ok 300 /\ (let* r := build_std (mem_of 99 32) t in rank_std r 521) = Ok 514.
Proof. split; [apply mem_of_ok; [lia|reflexivity]|]. vm_compute. auto. Qed.

(** At the size of a text of whole blocks: two words that were never written decide. *)
Theorem C58_basic_rank_at_size : forall m t, addresses_ok m -> text_ok t -> zlen t < 2 ^ 58 -> zlen t mod 64 = 0 ->
  exists r, build_std m t = Ok r /\
    rank_std r (zlen (text_bits t)) =
      let n := text_blocks t in let total := ones_before (text_bits t) (zlen (text_bits t)) in
      let next := m_junk_r m (2 * n + 2) in let off := m_junk_r m (2 * n + 1) in
      if (Z.land (u64 (next - total)) 511 =? 0) || ((0 <=? off) && (off <? 8 * kept_blocks t + 16 - (- m_addr_b m) mod 128 / 8))
      then Ok total else Ub UB_bounds.
Proof. exact basic_rank_size. Qed.
Print Assumptions C58_basic_rank_at_size.
Example C58_basic_rank_at_size_case :
  let t := repeat 15 64 in addresses_ok (mem_of 0 0) /\ text_ok t /\ zlen t mod 64 = 0 /\ kept_blocks t = 1 /\ ones_before (text_bits t) 512 = 256.
Proof. split; [apply mem_of_ok; [lia|reflexivity]|]. split; [|vm_compute; auto]. repeat constructor; lia. Qed.

Theorem C58_basic_rank_at_size_refuted : exists m t r, addresses_ok m /\ text_ok t /\ build_std m t = Ok r /\ rank_std r (zlen (text_bits t)) = Ub UB_bounds.
Proof. exact basic_rank_size_bad. Qed.
Print Assumptions C58_basic_rank_at_size_refuted.

(** ** C59: RankBasic64, compressed headers *)

(** Whatever the flags read past the end of emptyBlock hold. *)
Theorem C59_bch_rank : forall jf m t, addresses_ok m -> text_ok t -> zlen t < 2 ^ 58 ->
  exists r, build_bch false jf m t = Ok r /\ forall i, 0 <= i <= 512 * text_blocks t -> rank_bch r i = Ok (ones_before (text_bits t) i).
Proof. exact bch_rank. Qed.
Print Assumptions C59_bch_rank.
Example C59_bch_rank_case :
  let t := repeat 255 64 ++ [1; 128; 3] in
  (let* r := build_bch false (fun k => k mod 2) (mem_of 99 32) t in rank_bch r 300) = Ok 300 /\
  (let* r := build_bch false (fun k => k mod 2) (mem_of 99 32) t in rank_bch r 1024) = Ok 516.
Proof. vm_compute. auto. Qed.

(** In the language the build is undefined, except for 63, 127, ... blocks. *)
Theorem C59_bch_strict : forall jf m t, addresses_ok m -> text_ok t -> zlen t < 2 ^ 58 ->
  if text_blocks t mod 64 =? 63
  then exists r, build_bch true jf m t = Ok r /\ forall i, 0 <= i <= 512 * text_blocks t -> rank_bch r i = Ok (ones_before (text_bits t) i)
  else build_bch true jf m t = Ub UB_bounds.
Proof. exact bch_strict. Qed.
Print Assumptions C59_bch_strict.
Example C59_bch_strict_case : text_blocks (repeat 7 (63 * 64)) mod 64 = 63 /\ text_ok (repeat 0 64) /\ text_blocks (repeat 0 64) mod 64 = 1.
Proof. split; [vm_compute; reflexivity|]. split; [apply zeros_ok|reflexivity]. Qed.

Theorem C59_bch_build_refuted : exists jf m t, addresses_ok m /\ text_ok t /\ build_bch true jf m t = Ub UB_bounds.
Proof. exact bch_build_bad. Qed.
Print Assumptions C59_bch_build_refuted.

(** ** C60: RankCF64 *)
Theorem C60_cf_rank : forall m t, addresses_ok m -> text_ok t -> zlen t < 2 ^ 58 ->
  ~ (1 <= text_blocks t /\ forall b, 0 <= b < text_blocks t -> uniform_block t b) ->
  exists r, build_cf m t = Ok r /\ forall i, 0 <= i < 512 * text_blocks t -> rank_of_cf r i = Ok (ones_before (text_bits t) i).
Proof. exact cf_rank. Qed.
Print Assumptions C60_cf_rank.
Example C60_cf_rank_case :
  let t := repeat 255 64 ++ [1; 128; 3] in
  kept_blocks t = 1 /\
  (let* r := build_cf (mem_of 99 32) t in rank_of_cf r 300) = Ok 300 /\ (let* r := build_cf (mem_of 99 32) t in rank_of_cf r 521) = Ok 514.
Proof. vm_compute. auto. Qed.

(** A text whose blocks are all uniform cannot be built. *)
Theorem C60_cf_uniform : forall m t, addresses_ok m -> text_ok t -> zlen t < 2 ^ 58 -> 1 <= text_blocks t ->
  (forall b, 0 <= b < text_blocks t -> uniform_block t b) -> build_cf m t = Ub UB_bounds.
Proof. exact cf_uniform. Qed.
Print Assumptions C60_cf_uniform.
Example C60_cf_uniform_case : let t := repeat 255 64 ++ repeat 0 64 in text_blocks t = 2 /\ forall b, 0 <= b < 2 -> uniform_block t b.
Proof. split; [reflexivity|]. intros b Hb. apply (proj1 (kept_zero (repeat 255 64 ++ repeat 0 64))); [vm_compute; reflexivity|exact Hb]. Qed.

Theorem C60_cf_rank_at_size : forall m t, addresses_ok m -> text_ok t -> zlen t < 2 ^ 58 -> zlen t mod 64 = 0 ->
  ~ (1 <= text_blocks t /\ forall b, 0 <= b < text_blocks t -> uniform_block t b) ->
  exists r, build_cf m t = Ok r /\
    rank_of_cf r (zlen (text_bits t)) =
      let e := 7 * kept_blocks t + 2 * text_blocks t + 1 in let total := ones_before (text_bits t) (zlen (text_bits t)) in
      if (Z.land (u64 (m_junk_b m (e + 1) - total)) 511 =? 0) || ((0 <=? m_junk_b m e) && (m_junk_b m e <? e + 16 - (- m_addr_b m) mod 128 / 8))
      then Ok total else Ub UB_bounds.
Proof. exact cf_rank_size. Qed.
Print Assumptions C60_cf_rank_at_size.
Example C60_cf_rank_at_size_case : let t := repeat 15 64 in text_ok t /\ zlen t mod 64 = 0 /\ kept_blocks t = 1 /\
  (let* r := build_cf (mem_of 1000 16) t in rank_of_cf r 512) = Ub UB_bounds /\ (let* r := build_cf (mem_of 3 16) t in rank_of_cf r 512) = Ok 256.
Proof. split; [repeat constructor; lia|]. vm_compute. auto. Qed.

Theorem C60_cf_build_refuted : exists m t, addresses_ok m /\ text_ok t /\ build_cf m t = Ub UB_bounds.
Proof. exact cf_build_bad. Qed.
Print Assumptions C60_cf_build_refuted.

(** ** C61: getSize and getTextSize *)
Theorem C61_basic_sizes : forall m t r, addresses_ok m -> text_ok t -> zlen t < 2 ^ 58 -> build_std m t = Ok r ->
  basic_text_size r = zlen t /\ basic_size r = 16 * text_blocks t + 168 + (if kept_blocks t =? 0 then 0 else 64 * kept_blocks t + 128).
Proof. exact basic_sizes. Qed.
Print Assumptions C61_basic_sizes.
Example C61_basic_sizes_case : (let* r := build_std (mem_of 0 0) [5; 6] in Ok (basic_size r)) = Ok 376.
Proof. vm_compute. reflexivity. Qed.

Theorem C61_bch_sizes : forall jf m t r, addresses_ok m -> text_ok t -> zlen t < 2 ^ 58 -> build_bch false jf m t = Ok r ->
  basic_text_size r = zlen t /\ basic_size r = 152 * (text_blocks t / 64 + 1) + 160 + (if kept_blocks t =? 0 then 0 else 64 * kept_blocks t + 128).
Proof. exact bch_sizes. Qed.
Print Assumptions C61_bch_sizes.
Example C61_bch_sizes_case : (let* r := build_bch false (fun _ => 0) (mem_of 0 0) [5; 6] in Ok (basic_size r)) = Ok 504.
Proof. vm_compute. reflexivity. Qed.

Theorem C61_cf_sizes : forall m t r, addresses_ok m -> text_ok t -> zlen t < 2 ^ 58 -> build_cf m t = Ok r ->
  cf_text_size r = zlen t /\ cf_size r = 56 * kept_blocks t + 16 * text_blocks t + 176.
Proof. exact cf_sizes. Qed.
Print Assumptions C61_cf_sizes.
Example C61_cf_sizes_case : (let* r := build_cf (mem_of 0 0) [5; 6] in Ok (cf_size r)) = Ok 248.
Proof. vm_compute. reflexivity. Qed.
