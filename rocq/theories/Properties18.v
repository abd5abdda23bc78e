(** C73-C75: RankMPE64 of include/mranisz/shared/rank.hpp, which drops pairs of
    zero bytes and of full bytes from its blocks. *)
From Verif Require Import Base Spec SpecText SpecMpe MrRank MrRankProps MrMpe MrMpeProps.

(** ** C73: rank *)

(** All three template arguments; whatever the flags read past the end of the
    temporary array hold, and at every position of the blocks and just after them. *)
Theorem C73_mpe_rank : forall T jf m t, addresses_ok m -> text_ok t -> zlen t < 2 ^ 58 -> t <> [] ->
  exists r, build_mpe T false jf m t = Ok r /\ forall i, 0 <= i <= 1024 * big_blocks t -> rank_of_mpe T false r i = Ok (ones_before (text_bits t) i).
Proof. exact mpe_rank. Qed.
Print Assumptions C73_mpe_rank.
Example C73_mpe_rank_case :
  let t := repeat 0 40 ++ repeat 255 50 ++ [1; 2; 3] ++ repeat 7 35 ++ [128; 1] in
  big_blocks t = 2 /\ stored_bytes MPE1 t 0 = 54 /\
  (let* r := build_mpe MPE1 false (fun k => k mod 2) (mem_of 99 32) t in rank_of_mpe MPE1 false r 700) = Ok 380 /\
  (let* r := build_mpe MPE1 false (fun k => k mod 2) (mem_of 99 32) t in rank_of_mpe MPE1 false r 1040) = Ok 511.
Proof. vm_compute. auto. Qed.

(** ** C74: undefined cases *)
Theorem C74_mpe_empty : forall T strict jf m, addresses_ok m -> build_mpe T strict jf m [] = Ub UB_bounds.
Proof. exact mpe_empty_build. Qed.
Print Assumptions C74_mpe_empty.
Example C74_mpe_empty_case : addresses_ok (mem_of 5 16).
Proof. apply mem_of_ok; [lia|reflexivity]. Qed.

(** In the language the build is undefined, except for 15, 31, ... blocks. *)
Theorem C74_mpe_build : forall T jf m t, addresses_ok m -> text_ok t -> zlen t < 2 ^ 58 ->
  if big_blocks t mod 16 =? 15 then exists r, build_mpe T true jf m t = Ok r else build_mpe T true jf m t = Ub UB_bounds.
Proof. exact mpe_strict_build. Qed.
Print Assumptions C74_mpe_build.
Example C74_mpe_build_case : big_blocks (repeat 7 (14 * 128 + 1)) = 15 /\ text_ok (repeat 0 64) /\ big_blocks (repeat 0 64) = 1.
Proof. split; [vm_compute; reflexivity|]. split; [apply zeros_ok|reflexivity]. Qed.

(** rank reads 64-bit words at the start of the stored bytes of the block: in the
    language it is undefined exactly when these start at an address that is no
    multiple of eight and the block is neither empty nor full. *)
Theorem C74_mpe_align : forall T strict jf m t r, addresses_ok m -> text_ok t -> zlen t < 2 ^ 58 -> build_mpe T strict jf m t = Ok r ->
  forall i, 0 <= i < 1024 * big_blocks t -> let b := i / 1024 in let B := text_bits t in
  rank_of_mpe T true r i =
    if ((ones_before B (1024 * (b + 1)) - ones_before B (1024 * b)) mod 1024 =? 0) || (stored_before T t b mod 8 =? 0)
    then Ok (ones_before B i) else Ub UB_align.
Proof. exact mpe_strict_rank. Qed.
Print Assumptions C74_mpe_align.
Example C74_mpe_align_case :
  stored_before MPE2 odd_text 1 = 110 /\ text_ok odd_text /\ big_blocks odd_text = 2 /\
  (let* r := build_mpe MPE2 false (fun _ => 0) (mem_of 0 0) odd_text in rank_of_mpe MPE2 true r 500) = Ok 36 /\
  (let* r := build_mpe MPE2 false (fun _ => 0) (mem_of 0 0) odd_text in rank_of_mpe MPE2 true r 1024) = Ub UB_align.
Proof. split; [vm_compute; reflexivity|]. split; [exact odd_text_ok|]. vm_compute. auto. Qed.

Theorem C74_mpe_empty_refuted : exists m, addresses_ok m /\ forall T strict jf, build_mpe T strict jf m [] = Ub UB_bounds.
Proof. exact mpe_empty_bad. Qed.
Print Assumptions C74_mpe_empty_refuted.
Theorem C74_mpe_build_refuted : exists m t, addresses_ok m /\ text_ok t /\ forall T jf, build_mpe T true jf m t = Ub UB_bounds.
Proof. exact mpe_build_bad. Qed.
Print Assumptions C74_mpe_build_refuted.
Theorem C74_mpe_align_refuted : exists m t, addresses_ok m /\ text_ok t /\ forall jf, exists r, build_mpe MPE2 false jf m t = Ok r /\
  rank_of_mpe MPE2 false r 1030 = Ok (ones_before (text_bits t) 1030) /\ rank_of_mpe MPE2 true r 1030 = Ub UB_align.
Proof. exact mpe_align_bad. Qed.
Print Assumptions C74_mpe_align_refuted.

(** ** C75: sizes *)
Theorem C75_mpe_sizes : forall T jf m t r, addresses_ok m -> text_ok t -> zlen t < 2 ^ 58 -> build_mpe T false jf m t = Ok r ->
  mpe_text_size r = zlen t /\ mpe_size r = 80 * (big_blocks t / 16 + 1) + 304 + stored_before T t (big_blocks t).
Proof. exact mpe_sizes. Qed.
Print Assumptions C75_mpe_sizes.
Example C75_mpe_sizes_case :
  (let* r := build_mpe MPE1 false (fun _ => 0) (mem_of 0 0) odd_text in Ok (mpe_size r)) = Ok 520 /\
  (let* r := build_mpe MPE3 false (fun _ => 0) (mem_of 0 0) [5; 6] in Ok (mpe_size r)) = Ok 394.
Proof. vm_compute. auto. Qed.

(** No block takes more than its 128 bytes, and dropping pairs always saves. *)
Theorem C75_mpe_stored : forall T t b, 0 <= b -> 0 <= stored_bytes T t b <= 128 /\
  (drops_zeros T (pairs_of 0 t b) (pairs_of 255 t b) = true \/ drops_ones T (pairs_of 0 t b) (pairs_of 255 t b) = true -> stored_bytes T t b <= 126).
Proof. exact mpe_stored. Qed.
Print Assumptions C75_mpe_stored.
Example C75_mpe_stored_case :
  let t := repeat 0 10 ++ repeat 1 118 in drops_zeros MPE2 (pairs_of 0 t 0) (pairs_of 255 t 0) = true /\ stored_bytes MPE2 t 0 = 126 /\ stored_bytes MPE1 t 0 = 128.
Proof. vm_compute. auto. Qed.
