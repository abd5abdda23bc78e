(** C70-C72: the drivers src/perf_compressed_bitmap.cpp and
    src/perf_immutable_bitmap.cpp, and the numberings of bits of the structures
    they compare with the library. *)
From Verif Require Import Base Spec SpecRandom SpecPerf SpecPoppy SpecText SpecOrder Perf MrRank MrSelect MrRankProps PerfBase OrderFacts PerfBaseFacts.

(** ** C70: what src/perf_compressed_bitmap.cpp prints *)

(** The rank structures: ones before q when the bits of every byte are reversed. *)
Theorem C70_basic : forall m dbg n t op k runs measures, addresses_ok m -> 193 <= n < 2 ^ 58 ->
  let B := bench_bits 64 n t in
  bench_basic m dbg n t op k runs measures = printed dbg (ones_before (reversed 8 B)) op n (count_true B) k runs measures.
Proof. exact bench_basic_rank. Qed.
Print Assumptions C70_basic.
Theorem C70_bch : forall jf m dbg n t op k runs measures, addresses_ok m -> 193 <= n < 2 ^ 58 ->
  let B := bench_bits 64 n t in
  bench_bch jf m dbg n t op k runs measures = printed dbg (ones_before (reversed 8 B)) op n (count_true B) k runs measures.
Proof. exact bench_bch_rank. Qed.
Print Assumptions C70_bch.
Theorem C70_cf : forall m dbg n t op k runs measures, addresses_ok m -> 193 <= n < 2 ^ 58 ->
  let B := bench_bits 64 n t in
  ~ (forall b, 0 <= b < (bench_len n + 511) / 512 -> equal_block B b) ->
  bench_cf m dbg n t op k runs measures = printed dbg (ones_before (reversed 8 B)) op n (count_true B) k runs measures.
Proof. exact bench_cf_rank. Qed.
Print Assumptions C70_cf.
Example C70_rank_case : addresses_ok (mem_of 3 16) /\
  bench_basic (mem_of 3 16) true 256 0 BRank 3 2 1 = Ok [6] /\ map (ones_before (reversed 8 (bench_bits 64 256 0))) (bench_queries 3 256) = [1; 1; 1] /\
  bench_basic (mem_of 3 16) true 256 0 BOther 3 2 1 = AssertFail.
Proof. split; [apply mem_of_ok; [lia|reflexivity]|]. vm_compute. auto. Qed.
Example C70_cf_case : bench_len 256 = 256 /\ ~ (forall b, 0 <= b < (bench_len 256 + 511) / 512 -> equal_block (bench_bits 64 256 0) b).
Proof. split; [reflexivity|]. intros H. destruct (H 0 ltac:(vm_compute; split; congruence)) as [E _]. rewrite sparse_bits in E by (try lia; reflexivity). vm_compute in E. congruence. Qed.

(** If the bits of every block are equal, RankCF64 writes outside its memory. *)
Theorem C70_cf_overflow : forall m dbg n t op k runs measures, addresses_ok m -> 193 <= n < 2 ^ 58 ->
  (forall b, 0 <= b < (bench_len n + 511) / 512 -> equal_block (bench_bits 64 n t) b) ->
  bench_cf m dbg n t op k runs measures = Ub UB_bounds.
Proof. exact bench_cf_bad. Qed.
Print Assumptions C70_cf_overflow.
(** The smallest size and the largest density below 1, 1 - 2^-53. *)
Theorem C70_cf_refuted : exists n t, 193 <= n < 2 ^ 58 /\ 0 <= t < 2 ^ 64 /\
  forall m dbg op k runs measures, addresses_ok m -> bench_cf m dbg n t op k runs measures = Ub UB_bounds.
Proof. exists 512, (2 ^ 64 - 2048). split; [lia|]. split; [lia|]. exact cf_dense. Qed.
Print Assumptions C70_cf_refuted.

(** The select structures: the answer to query q is the q-th one counted from 1,
    and 2^64-1 for query 0 (for [sel_answer] see C62). *)
Theorem C70_select : forall L T m dbg n t op k runs measures, 1 <= L -> T < 2 ^ 32 -> arguments_ok false L T = true -> addresses_ok m -> 193 <= n < 2 ^ 58 ->
  let B := bench_bits 64 n t in
  op <> BRank -> overflows L T (128 - (- m_addr_b m) mod 128) (reversed 8 B) = false ->
  bench_sel L T m dbg n t op k runs measures = printed dbg (fun q => if q =? 0 then 2 ^ 64 - 1 else sel_answer L (reversed 8 B) q) op n (count_true B) k runs measures.
Proof. exact bench_select_std. Qed.
Print Assumptions C70_select.
Theorem C70_select_bch : forall L T m dbg n t op k runs measures, 1 <= L -> arguments_ok true L T = true -> addresses_ok m -> 193 <= n < 2 ^ 58 ->
  let B := bench_bits 64 n t in
  op <> BRank -> groups L (reversed 8 B) < 2 ^ 31 - 1 -> overflows L T (128 - (- m_addr_b m) mod 128) (reversed 8 B) = false ->
  bench_sel_bch L T m dbg n t op k runs measures = printed dbg (fun q => if q =? 0 then 2 ^ 64 - 1 else sel_answer L (reversed 8 B) q) op n (count_true B) k runs measures.
Proof. exact bench_select_bch. Qed.
Print Assumptions C70_select_bch.
Example C70_select_case : let B := reversed 8 (bench_bits 64 256 0) in
  arguments_ok false 128 4096 = true /\ arguments_ok true 128 4096 = true /\ groups 128 B = 1 /\ overflows 128 4096 16 B = false.
Proof. cbv zeta. rewrite sparse_bits by (try lia; reflexivity). vm_compute. auto. Qed.
Theorem C70_select_overflow : forall L T m dbg n t op k runs measures, 1 <= L -> T < 2 ^ 32 -> arguments_ok false L T = true -> addresses_ok m -> 193 <= n < 2 ^ 58 ->
  let B := bench_bits 64 n t in
  overflows L T (128 - (- m_addr_b m) mod 128) (reversed 8 B) = true -> bench_sel L T m dbg n t op k runs measures = Ub UB_bounds.
Proof. exact bench_select_bad. Qed.
Print Assumptions C70_select_overflow.
Theorem C70_select_bch_overflow : forall L T m dbg n t op k runs measures, 1 <= L -> arguments_ok true L T = true -> addresses_ok m -> 193 <= n < 2 ^ 58 ->
  let B := bench_bits 64 n t in
  groups L (reversed 8 B) < 2 ^ 31 - 1 -> overflows L T (128 - (- m_addr_b m) mod 128) (reversed 8 B) = true -> bench_sel_bch L T m dbg n t op k runs measures = Ub UB_bounds.
Proof. exact bench_select_bch_bad. Qed.
Print Assumptions C70_select_bch_overflow.
Example C70_select_overflow_case : let B := reversed 8 (bench_bits 64 256 (2 ^ 62)) in
  arguments_ok false 62 253 = true /\ arguments_ok true 62 253 = true /\ groups 62 B = 1 /\ overflows 62 253 (128 - (- m_addr_b (mem_of 3 16)) mod 128) B = true.
Proof. vm_compute. auto. Qed.

(** Query 0 does not ask for the first one: a bitmap whose only one is at 0. *)
Theorem C70_select_refuted : exists n t, is_select (bench_bits 64 n t) 0 0 /\
  forall m dbg, addresses_ok m -> bench_sel 128 4096 m dbg n t BSelect 1 1 1 = Ok [2 ^ 64 - 1].
Proof. exists 256, 0. split; [apply (select_density_zero (mem_of 3 16) true); apply mem_of_ok; [lia|reflexivity]|]. intros. apply select_density_zero. assumption. Qed.
Print Assumptions C70_select_refuted.

(** ** C71: the numberings of bits *)
Theorem C71_mranisz_order : forall ws, text_bits (bytes_of_words ws) = reversed 8 (bits_of_words ws).
Proof. exact text_reversed. Qed.
Print Assumptions C71_mranisz_order.
Theorem C71_bytes : forall ws, bytes_of_words ws = text_of_words ws.
Proof. exact text_of_bytes. Qed.
Print Assumptions C71_bytes.
Theorem C71_poppy_order : forall ws, bits_msb ws = reversed 64 (bits_of_words ws).
Proof. exact msb_reversed. Qed.
Print Assumptions C71_poppy_order.
Example C71_order_case : let B := bits_of_words [0x8001] in
  one_positions B = [0; 15] /\ one_positions (reversed 8 B) = [7; 8] /\ one_positions (reversed 64 B) = [48; 63].
Proof. vm_compute. auto. Qed.

(** Ranks agree at the ends of the groups and are close everywhere. *)
Theorem C71_rank_ends : forall s B i, 1 <= s -> 0 <= i <= zlen B -> i mod s = 0 -> ones_before (reversed s B) i = ones_before B i.
Proof. exact rank_at_groups. Qed.
Print Assumptions C71_rank_ends.
Theorem C71_rank_close : forall s B i, 1 <= s -> zlen B mod s = 0 -> 0 <= i <= zlen B ->
  Z.abs (ones_before (reversed s B) i - ones_before B i) <= Z.min (i mod s) (s - i mod s).
Proof. exact rank_close. Qed.
Print Assumptions C71_rank_close.
Theorem C71_count : forall s B, 1 <= s -> zlen B mod s = 0 -> count_true (reversed s B) = count_true B.
Proof. exact count_reversed. Qed.
Print Assumptions C71_count.
Example C71_rank_case : let B := bits_of_words [15] in
  map (ones_before B) [0; 2; 4; 7; 8] = [0; 2; 4; 4; 4] /\ map (ones_before (reversed 8 B)) [0; 2; 4; 7; 8] = [0; 0; 0; 3; 4].
Proof. vm_compute. auto. Qed.

(** Selects lie in the same group. *)
Theorem C71_select_group : forall s B k p q, 1 <= s -> zlen B mod s = 0 -> is_select B k p -> is_select (reversed s B) k q -> q / s = p / s.
Proof. exact select_same_group. Qed.
Print Assumptions C71_select_group.
Example C71_select_group_case : let B := bits_of_words [0x8001] in is_select B 1 15 /\ is_select (reversed 8 B) 1 8.
Proof. split; repeat split; vm_compute; congruence. Qed.

(** The structures do not answer as the library's bitmaps do. *)
Theorem C71_same_answers_refuted : exists ws i k p, words_ok ws /\ 0 <= i < 64 * zlen ws /\
  rank_spec (text_bits (bytes_of_words ws)) i <> rank_spec (bits_of_words ws) i /\ rank_spec (bits_msb ws) i <> rank_spec (bits_of_words ws) i /\
  is_select (bits_of_words ws) k p /\ ~ is_select (text_bits (bytes_of_words ws)) k p /\ ~ is_select (bits_msb ws) k p.
Proof.
  exists [1], 0, 0, 0. split; [repeat constructor; lia|]. split; [vm_compute; split; congruence|]. split; [vm_compute; congruence|]. split; [vm_compute; congruence|].
  split; [repeat split; vm_compute; congruence|]. split; intros (_ & H & _); vm_compute in H; congruence.
Qed.
Print Assumptions C71_same_answers_refuted.

(** ** C72: what src/perf_immutable_bitmap.cpp prints for poppy *)

(** Rank: undefined as soon as the last bit is asked for. *)
Theorem C72_rank : forall junk dbg n t k runs measures, 2048 <= n <= 2 ^ 32 -> n mod 2048 = 0 ->
  let B := bench_bits 64 n t in let qs := bench_queries k n in
  count_true B + 8191 < 2 ^ 32 ->
  bench_poppy junk dbg n t BRank k runs measures =
    if (runs =? 0)%nat || (measures =? 0)%nat || negb (existsb (Z.eqb (n - 1)) qs)
    then Ok (repeat ((Z.of_nat runs * total (map (rank_spec (reversed 64 B)) qs)) mod 2 ^ 64) measures)
    else Ub UB_bounds.
Proof. exact bench_poppy_rank. Qed.
Print Assumptions C72_rank.
Example C72_rank_case : existsb (Z.eqb 2047) (bench_queries 10 2048) = false /\ count_true (bench_bits 64 2048 0) = 1.
Proof. split; [vm_compute; reflexivity|]. rewrite sparse_bits by (try lia; reflexivity). vm_compute. reflexivity. Qed.

(** With the program's own seed and its 10000 queries this happens for the sizes
    2^11 ... 2^15, at every density. *)
Theorem C72_rank_refuted : forall junk dbg j t k runs measures, 11 <= j <= 15 -> (2918 <= k)%nat -> (1 <= runs)%nat -> (1 <= measures)%nat ->
  bench_poppy junk dbg (2 ^ j) t BRank k runs measures = Ub UB_bounds.
Proof. exact poppy_shipped. Qed.
Print Assumptions C72_rank_refuted.
Example C72_rank_refuted_case : (2918 <= 3000)%nat /\ draw 71 45 mod 2 ^ 12 = 2 ^ 12 - 1 /\ draw 71 2917 mod 2 ^ 15 = 2 ^ 15 - 1.
Proof. split; [lia|]. vm_compute. auto. Qed.

(** Select: for query k the one after number k (from 0), or the end of its word. *)
Theorem C72_select : forall junk dbg n t k runs measures, 2048 <= n <= 2 ^ 32 -> n mod 2048 = 0 ->
  let B := bench_bits 64 n t in
  count_true B + 8191 < 2 ^ 32 -> ~ (exists q p, In q (bench_queries k (count_true B)) /\ is_select B q p /\ ends_full_word B p) ->
  exists ps, Forall2 (next_one B) (bench_queries k (count_true B)) ps /\
    bench_poppy junk dbg n t BSelect k runs measures = Ok (repeat ((Z.of_nat runs * total ps) mod 2 ^ 64) measures).
Proof. exact bench_poppy_select. Qed.
Print Assumptions C72_select.
Example C72_select_case : let B := bench_bits 64 2048 0 in
  count_true B + 8191 < 2 ^ 32 /\ ~ (exists q p, In q (bench_queries 10 (count_true B)) /\ is_select B q p /\ ends_full_word B p) /\ next_one B 0 64.
Proof. exact sparse_select. Qed.
Theorem C72_select_undefined : forall junk dbg n t k runs measures, 2048 <= n <= 2 ^ 32 -> n mod 2048 = 0 -> (1 <= runs)%nat -> (1 <= measures)%nat ->
  let B := bench_bits 64 n t in
  count_true B + 8191 < 2 ^ 32 -> (exists q p, In q (bench_queries k (count_true B)) /\ is_select B q p /\ ends_full_word B p) ->
  bench_poppy junk dbg n t BSelect k runs measures = Ub UB_shift.
Proof. exact bench_poppy_select_bad. Qed.
Print Assumptions C72_select_undefined.
Theorem C72_select_refuted : exists n t, 2048 <= n <= 2 ^ 32 /\ n mod 2048 = 0 /\ 0 <= t < 2 ^ 64 /\
  forall junk dbg k runs measures, (46 <= k)%nat -> (1 <= runs)%nat -> (1 <= measures)%nat -> bench_poppy junk dbg n t BSelect k runs measures = Ub UB_shift.
Proof. exists 2048, (2 ^ 64 - 2048). split; [lia|]. split; [reflexivity|]. split; [lia|]. exact poppy_dense. Qed.
Print Assumptions C72_select_refuted.

(** The three smallest sizes of the program, 2^8 to 2^10, cannot be built. *)
Theorem C72_small : forall junk dbg n t op k runs measures, 193 <= n <= 1984 -> bench_poppy junk dbg n t op k runs measures = Ub UB_bounds.
Proof. exact bench_poppy_small. Qed.
Print Assumptions C72_small.
Example C72_small_case : 193 <= 2 ^ 8 /\ 2 ^ 10 <= 1984.
Proof. lia. Qed.
Theorem C72_other : forall junk dbg n t op k runs measures, 2048 <= n <= 2 ^ 32 -> n mod 2048 = 0 -> count_true (bench_bits 64 n t) + 8191 < 2 ^ 32 -> op <> BRank -> op <> BSelect ->
  bench_poppy junk dbg n t op k runs measures = printed dbg (fun _ => 0) op n (count_true (bench_bits 64 n t)) k runs measures.
Proof. exact bench_poppy_build. Qed.
Print Assumptions C72_other.
Example C72_other_case : printed true (fun _ => 0) BOther 2048 1 5 2 3 = AssertFail /\ printed false (fun _ => 0) BOther 2048 1 5 2 3 = Ok [0; 0; 0] /\
  printed true (fun _ => 0) BBuild 2048 1 2 1 1 = Ok [total (bench_queries 2 2048)].
Proof. vm_compute. auto. Qed.
