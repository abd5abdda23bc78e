(** C95-C98: RankMPE32 of include/mranisz/shared/rank.hpp, RankMPE64 with counters of 32 bits. *)
From Coq Require Import List.
From Verif Require Import Base MemFacts Spec SpecText SpecMpe SpecFile SpecFile32 MrRank MrRankProps MrFile MrMpe MrMpeProps MrRank32 MrRank32Props MrFile32Props MrMpe32 MrMpe32Props.

(** ** C95: rank *)

(** Right at every position of the blocks and just after them, whatever the flags read past
    the end of the temporary array hold. *)
Theorem C95_mpe_rank32 : forall T jf m t, addresses_ok m -> text_ok t -> zlen t <= 2 ^ 32 - 128 -> t <> [] -> stored_before T t (big_blocks t) < 2 ^ 32 - 136 ->
  exists r, build_mpe32 T false jf m t = Ok r /\ forall i, 0 <= i <= 1024 * big_blocks t -> i < 2 ^ 32 -> rank_of_mpe32 T false r i = Ok (ones_before (text_bits t) i).
Proof. exact mpe_rank32. Qed.
Print Assumptions C95_mpe_rank32.
Example C95_mpe_rank32_case :
  let t := repeat 0 40 ++ repeat 255 50 ++ [1; 2; 3] ++ repeat 7 35 ++ [128; 1] in
  big_blocks t = 2 /\ stored_before MPE1 t 2 = 72 /\
  (let* r := build_mpe32 MPE1 false (fun k => k mod 2) (mem_of 99 32) t in rank_of_mpe32 MPE1 false r 700) = Ok 380 /\
  (let* r := build_mpe32 MPE1 false (fun k => k mod 2) (mem_of 99 32) t in rank_of_mpe32 MPE1 false r 1040) = Ok 511.
Proof. vm_compute. auto. Qed.

(** Texts of up to 2^32 - 256 bytes always meet the last condition. *)
Theorem C95_mpe_fits32 : forall T t, zlen t <= 2 ^ 32 - 256 -> stored_before T t (big_blocks t) < 2 ^ 32 - 136.
Proof. exact mpe_fits32. Qed.
Print Assumptions C95_mpe_fits32.
Example C95_mpe_fits32_case : stored_before MPE2 odd_text 2 = 120 /\ zlen odd_text = 129.
Proof. vm_compute. auto. Qed.

(** ** C96: undefined cases *)

(** In the language every build is undefined: the array of the flags is one entry shorter
    than RankMPE64's, and the flags of the last superblock are read past its end. *)
Theorem C96_mpe_build32 : forall T jf m t, addresses_ok m -> text_ok t -> zlen t < 2 ^ 32 -> build_mpe32 T true jf m t = Ub UB_bounds.
Proof. exact mpe_strict_build32. Qed.
Print Assumptions C96_mpe_build32.
Example C96_mpe_build32_case : build_mpe32 MPE2 true (fun _ => 0) (mem_of 0 0) (repeat 7 (14 * 128 + 1)) = Ub UB_bounds /\ big_blocks (repeat 7 (14 * 128 + 1)) = 15 /\
  (let* r := build_mpe32 MPE2 false (fun _ => 0) (mem_of 0 0) [5; 6] in rank_of_mpe32 MPE2 false r 16) = Ok 4.
Proof. vm_compute. auto. Qed.
Theorem C96_mpe_build32_refuted : exists m t, addresses_ok m /\ text_ok t /\ t <> [] /\ forall T jf, build_mpe32 T true jf m t = Ub UB_bounds.
Proof. exact mpe_build_bad32. Qed.
Print Assumptions C96_mpe_build32_refuted.

(** Even if that read gives some value, the build is undefined exactly for the empty text,
    for texts of more than 2^32 - 128 bytes, and if the bytes to store and the 136 after
    them are 2^32 or more. *)
Theorem C96_mpe_build_iff32 : forall T jf m t, addresses_ok m -> text_ok t -> zlen t < 2 ^ 32 ->
  ((exists r, build_mpe32 T false jf m t = Ok r) <-> t <> [] /\ zlen t <= 2 ^ 32 - 128 /\ stored_before T t (big_blocks t) < 2 ^ 32 - 136) /\
  ((exists r, build_mpe32 T false jf m t = Ok r) \/ build_mpe32 T false jf m t = Ub UB_bounds).
Proof. exact mpe_build_iff32. Qed.
Print Assumptions C96_mpe_build_iff32.
Example C96_mpe_build_iff32_case : build_mpe32 MPE3 false (fun _ => 0) (mem_of 5 16) [] = Ub UB_bounds /\
  (let t := repeat 1 (Z.to_nat (2 ^ 32 - 128)) in zlen t = 2 ^ 32 - 128 /\ stored_before MPE3 t (big_blocks t) = 2 ^ 32 - 128).
Proof.
  split; [vm_compute; reflexivity|]. intros t. assert (L : zlen t = 2 ^ 32 - 128) by (unfold t; rewrite zlen_repeat; lia). split; [exact L|].
  apply ones_before32; [|exact L]. rewrite L. intros k Hk. unfold t. apply zn_same. lia.
Qed.
Theorem C96_mpe_long32_refuted : exists m t, addresses_ok m /\ text_ok t /\ zlen t = 2 ^ 32 - 128 /\ forall T jf, build_mpe32 T false jf m t = Ub UB_bounds.
Proof. exact mpe_wrap_bad32. Qed.
Print Assumptions C96_mpe_long32_refuted.

(** rank reads words of 64 bits at the start of the stored bytes of the block. *)
Theorem C96_mpe_align32 : forall T jf m t r, addresses_ok m -> text_ok t -> zlen t < 2 ^ 32 -> build_mpe32 T false jf m t = Ok r ->
  forall i, 0 <= i < 1024 * big_blocks t -> i < 2 ^ 32 -> let b := i / 1024 in let B := text_bits t in
  rank_of_mpe32 T true r i =
    if ((ones_before B (1024 * (b + 1)) - ones_before B (1024 * b)) mod 1024 =? 0) || (stored_before T t b mod 8 =? 0)
    then Ok (ones_before B i) else Ub UB_align.
Proof. exact mpe_strict_rank32. Qed.
Print Assumptions C96_mpe_align32.
Example C96_mpe_align32_case :
  stored_before MPE2 odd_text 1 = 110 /\ text_ok odd_text /\ big_blocks odd_text = 2 /\
  (let* r := build_mpe32 MPE2 false (fun _ => 0) (mem_of 0 0) odd_text in rank_of_mpe32 MPE2 true r 500) = Ok 36 /\
  (let* r := build_mpe32 MPE2 false (fun _ => 0) (mem_of 0 0) odd_text in rank_of_mpe32 MPE2 true r 1024) = Ub UB_align.
Proof. split; [vm_compute; reflexivity|]. split; [exact odd_text_ok|]. vm_compute. auto. Qed.
Theorem C96_mpe_align32_refuted : exists m t, addresses_ok m /\ text_ok t /\ forall jf, exists r, build_mpe32 MPE2 false jf m t = Ok r /\
  rank_of_mpe32 MPE2 false r 1030 = Ok (ones_before (text_bits t) 1030) /\ rank_of_mpe32 MPE2 true r 1030 = Ub UB_align.
Proof. exact mpe_align_bad32. Qed.
Print Assumptions C96_mpe_align32_refuted.

(** ** C97: sizes *)
Theorem C97_mpe_sizes32 : forall T jf m t r, addresses_ok m -> text_ok t -> zlen t < 2 ^ 32 -> build_mpe32 T false jf m t = Ok r ->
  mpe_text_size32 r = zlen t /\ mpe_size32 r = 72 * (big_blocks t / 16 + 1) + 292 + stored_before T t (big_blocks t).
Proof. exact mpe_sizes32. Qed.
Print Assumptions C97_mpe_sizes32.
Example C97_mpe_sizes32_case :
  (let* r := build_mpe32 MPE1 false (fun _ => 0) (mem_of 0 0) odd_text in Ok (mpe_size32 r)) = Ok 500 /\ stored_before MPE1 odd_text 2 = 136 /\
  (let* r := build_mpe32 MPE3 false (fun _ => 0) (mem_of 0 0) [5; 6] in Ok (mpe_size32 r)) = Ok 374.
Proof. vm_compute. auto. Qed.

(** ** C98: files and self test *)
Theorem C98_mpe_file32 : forall T jf m m' t, addresses_ok m -> addresses_ok m' -> text_ok t -> zlen t <= 2 ^ 32 - 128 -> t <> [] -> stored_before T t (big_blocks t) < 2 ^ 32 - 136 ->
  exists r f, build_mpe32 T false jf m t = Ok r /\ save_mpe32 r = Ok f /\ zlen f = 92 + 72 * (big_blocks t / 16) + stored_before T t (big_blocks t) /\
    (forall rest, text_ok rest -> exists r', load_mpe32 m' (f ++ rest) = Ok (Loaded r' rest) /\ mpe_text_size32 r' = zlen t /\
       forall i, 0 <= i <= 1024 * big_blocks t -> i < 2 ^ 32 -> rank_of_mpe32 T false r' i = Ok (ones_before (text_bits t) i)) /\
    (forall k, 0 <= k < zlen f -> load_mpe32 m' (firstn (Z.to_nat k) f) = Ok Exits).
Proof. exact mpe_file32. Qed.
Print Assumptions C98_mpe_file32.
Example C98_mpe_file32_case :
  let t := [1; 128; 3] in stored_before MPE2 t 1 = 12 /\
  (let* r := build_mpe32 MPE2 false (fun _ => 1) (mem_of 99 32) t in let* f := save_mpe32 r in let* x := load_mpe32 (mem_of 7 48) (f ++ [5; 6]) in
   match x with Loaded r' rest => let* a := rank_of_mpe32 MPE2 false r' 9 in Ok (zlen f, rest, a) | Exits => Ok (0, [], 0) end) = Ok (104, [5; 6], 2) /\
  (let* r := build_mpe32 MPE2 false (fun _ => 1) (mem_of 99 32) t in let* f := save_mpe32 r in load_mpe32 (mem_of 7 48) (firstn 103 f)) = Ok Exits.
Proof. vm_compute. auto. Qed.

Theorem C98_mpe_any32 : forall m f, addresses_ok m -> text_ok f -> let a := int_field f 4 in let b := int_field f (8 + 4 * a) in a < 2 ^ 32 - 32 -> b < 2 ^ 32 - 128 ->
  if zlen f <? 12 + 4 * a + b then load_mpe32 m f = Ok Exits
  else exists r, load_mpe32 m f = Ok (Loaded r (skipn (Z.to_nat (12 + 4 * a + b)) f)) /\ mpe_text_size32 r = int_field f 0 /\
    (forall k, 0 <= k < a -> zn 0 (mp_ranks r) k = int_field f (8 + 4 * k)) /\ (forall k, 0 <= k < b -> zn 0 (mp_bits r) k = zn 0 f (12 + 4 * a + k)).
Proof. exact mpe_any32. Qed.
Print Assumptions C98_mpe_any32.
Example C98_mpe_any32_case :
  let f := [9; 1; 0; 0] ++ [1; 0; 0; 0] ++ [0; 2; 0; 0] ++ [2; 0; 0; 0] ++ [7; 8] ++ [77] in int_field f 4 = 1 /\ int_field f 12 = 2 /\
  (let* x := load_mpe32 (mem_of 7 48) f in match x with Loaded r rest => Ok (mpe_text_size32 r, zn 0 (mp_ranks r) 0, zn 0 (mp_bits r) 1, rest) | Exits => Ok (0, 0, 0, []) end) = Ok (265, 512, 8, [77]).
Proof. vm_compute. auto. Qed.

(** Lengths that wrap in new[len + 32] or new[len + 128]: the file is read past the array. *)
Theorem C98_mpe_wraps32 : forall m f, addresses_ok m -> text_ok f -> 132 < zlen f -> 2 ^ 32 - 32 <= int_field f 4 -> load_mpe32 m f = Ub UB_bounds.
Proof. exact mpe_over32. Qed.
Print Assumptions C98_mpe_wraps32.
Theorem C98_mpe_bits_wrap32 : forall m f, addresses_ok m -> text_ok f -> let a := int_field f 4 in a < 2 ^ 32 - 32 -> 139 + 4 * a < zlen f -> 2 ^ 32 - 128 <= int_field f (8 + 4 * a) ->
  load_mpe32 m f = Ub UB_bounds.
Proof. exact mpe_over_bits32. Qed.
Print Assumptions C98_mpe_bits_wrap32.
Example C98_mpe_wraps32_case : let f := put32 1 ++ put32 (2 ^ 32 - 3) ++ repeat 5 137 in int_field f 4 = 2 ^ 32 - 3 /\ zlen f = 145 /\ load_mpe32 (mem_of 7 48) f = Ub UB_bounds /\
  (let g := put32 1 ++ put32 1 ++ put32 8 ++ put32 (2 ^ 32 - 1) ++ repeat 5 137 in int_field g 12 = 2 ^ 32 - 1 /\ load_mpe32 (mem_of 7 48) g = Ub UB_bounds).
Proof. vm_compute. auto 6. Qed.
Theorem C98_mpe_load32_refuted : exists m f, addresses_ok m /\ text_ok f /\ zlen f = 13 /\ load_mpe32 m f = Ub UB_bounds.
Proof. exact mpe_load_bad32. Qed.
Print Assumptions C98_mpe_load32_refuted.
Theorem C98_mpe_query32_refuted : exists f, text_ok f /\ forall m T strict, exists r, load_mpe32 m f = Ok (Loaded r []) /\ rank_of_mpe32 T strict r 0 = Ub UB_bounds.
Proof. exact mpe_zero_bad32. Qed.
Print Assumptions C98_mpe_query32_refuted.

(** testRank: silent below 2^29 bytes, reports errors above it although the answers are right. *)
Theorem C98_mpe_self_test32 : forall T jf m t, addresses_ok m -> text_ok t -> zlen t < 2 ^ 29 -> t <> [] ->
  exists r, build_mpe32 T false jf m t = Ok r /\ test_rank32 (rank_of_mpe32 T false r) t = Ok [].
Proof. exact mpe_silent32. Qed.
Print Assumptions C98_mpe_self_test32.
Theorem C98_mpe_long_test32 : forall T jf m t, addresses_ok m -> text_ok t -> 2 ^ 29 <= zlen t <= 2 ^ 32 - 128 -> stored_before T t (big_blocks t) < 2 ^ 32 - 136 ->
  0 < ones_before (text_bits t) (2 ^ 32) < 2 ^ 32 -> exists r, build_mpe32 T false jf m t = Ok r /\ test_rank32 (rank_of_mpe32 T false r) t <> Ok [].
Proof. exact mpe_noisy32. Qed.
Print Assumptions C98_mpe_long_test32.
Example C98_mpe_self_test32_case : (let* r := build_mpe32 MPE3 false (fun _ => 0) (mem_of 99 32) [9; 200] in test_rank32 (rank_of_mpe32 MPE3 false r) [9; 200]) = Ok [] /\
  (let t := repeat 1 (Z.to_nat (2 ^ 29)) in zlen t = 2 ^ 29 /\ stored_before MPE3 t (big_blocks t) < 2 ^ 32 - 136 /\ 0 < ones_before (text_bits t) (2 ^ 32) < 2 ^ 32).
Proof.
  split; [vm_compute; reflexivity|]. intros t. assert (L : zlen t = 2 ^ 29) by (unfold t; rewrite zlen_repeat; lia). split; [exact L|]. split; [apply mpe_fits32; lia|].
  apply noisy_case; [apply zn_same|]; lia.
Qed.
