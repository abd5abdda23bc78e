(** C111-C115: files of the Fenwick trees of include/hft, and their bitCount. *)
From Verif Require Import Base Mem SpecHft Hft HftHybrid SpecHftFile HftFile HftFileFacts2 HftFileFacts3 HftFileFacts4.

(** ** C111: A tree written and read back answers as before *)
Theorem C111_answers : forall sh lay B A ops A2 rest ops2, can_load lay = true -> fits lay B (zlen A) -> fits lay B (zlen A2) ->
  (lay = BitL -> sh = true) -> elems_ok B A -> elems_ok B A2 -> fops_ok B A (ops ++ ops2) ->
  (searches (ops ++ ops2) -> can_search lay B (zlen A)) ->
  exists o o2, ft_file_client sh lay B A ops A2 rest ops2 = Ok (o, o2, stream rest) /\ fanswers B A (ops ++ ops2) (o ++ o2).
Proof. exact file_client. Qed.
Print Assumptions C111_answers.

Example C111_answers_case : fits BitL 300 4 /\ fits BitL 300 0 /\ can_search BitL 300 4 /\ fops_ok 300 [3; 0; 256; 7] [FAdd 2 4; FPrefix 3; FFind 14; FSize] /\
  ft_file_client true BitL 300 [3; 0; 256; 7] [FAdd 2 4] [] [7] [FPrefix 3; FFind 14; FSize] = Ok ([FDone], [FNum 263; FPair 2 7; FNum 4], stream [7]).
Proof.
  split; [repeat split; vm_compute; congruence|]. split; [repeat split; vm_compute; congruence|]. split; [split; [reflexivity|discriminate]|].
  split; [repeat split; vm_compute; congruence|vm_compute; reflexivity].
Qed.

(** The tree read back is the tree written, whatever was in its place. *)
Theorem C111_same : forall sh lay B t t0 rest, can_load lay = true -> ft_state sh lay B t -> ft_lay t0 = lay -> ft_bound t0 = B ->
  ft_load t0 (stream (ft_save t ++ rest)) = Ok (t, stream rest).
Proof. exact reads_back. Qed.
Print Assumptions C111_same.

Example C111_same_case : exists t t0, ft_state false ByteL 9 t /\ ft_build false ByteL 9 [1] = Ok t0 /\ t <> t0 /\ ft_load t0 (stream (ft_save t ++ [7; 7])) = Ok (t, stream [7; 7]).
Proof.
  do 2 eexists. split; [exists [3; 0; 5; 7], [FAdd 2 4], [FDone]; eexists|].
  { split; [repeat split; vm_compute; congruence|]. split; [vm_compute; reflexivity|]. vm_compute. reflexivity. }
  split; [vm_compute; reflexivity|]. split; [discriminate|]. vm_compute. reflexivity.
Qed.

(** ** C112: The format and the size of the files *)
Theorem C112_format : forall sh lay B t, ft_state sh lay B t -> exists arrays,
  ft_save t = tree_file lay (ft_size t) (ft_level t) arrays /\ length arrays = length (elem_widths lay) /\
  Forall2 (fun '(w, xs) a => flat_map (le w) xs = a) (combine (elem_widths lay) arrays) (ft_arr t).
Proof. exact file_format. Qed.
Print Assumptions C112_format.

Theorem C112_size : forall sh lay B t, ft_state sh lay B t ->
  zlen (ft_save t) = 8 + (if is_l lay then 8 + 8 * zlen (ft_level t) else 0) + fold_right Z.add 0 (map (fun a => 8 + zlen a) (ft_arr t)).
Proof. exact file_size. Qed.
Print Assumptions C112_size.

Example C112_case : exists t, ft_state false TypeL 9 t /\
  ft_save t = tree_file TypeL 2 [0; 1; 2] [[3; 8]; []; []] /\ ft_arr t = [[3; 8]; []; []] /\ zlen (ft_save t) = 8 + (8 + 8 * 3) + (8 + 2) + 8 + 8 /\
  firstn 16 (ft_save t) = [0; 0; 0; 0; 0; 0; 0; 2; 0; 0; 0; 0; 0; 0; 0; 3].
Proof.
  eexists. split; [exists [3; 5], [], []; eexists|].
  { split; [repeat split; vm_compute; congruence|]. split; [vm_compute; reflexivity|]. vm_compute. reflexivity. }
  repeat split; (vm_compute; reflexivity).
Qed.
(** Numbers of two bytes or more are written with the most significant byte first. *)
Example C112_order_case : exists t, ft_state false FixedF 300 t /\ ft_save t = tree_file FixedF 3 [] [[0; 3; 3; 260]] /\
  be 8 260 = [0; 0; 0; 0; 0; 0; 1; 4].
Proof.
  eexists. split; [exists [3; 0; 260], [], []; eexists|].
  { split; [repeat split; vm_compute; congruence|]. split; [vm_compute; reflexivity|]. vm_compute. reflexivity. }
  split; (vm_compute; reflexivity).
Qed.

(** ** C113: Files cut short *)
Theorem C113_cut : forall sh lay B t t0 k, can_load lay = true -> ft_state sh lay B t -> ft_lay t0 = lay -> ft_bound t0 = B ->
  ((k < header_bytes lay (length (ft_level t)))%nat -> ft_load t0 (stream (firstn k (ft_save t))) = Ub UB_uninit) /\
  forall w a, elem_widths lay = [w] -> ft_arr t = [a] ->
  let d := (k - header_bytes lay (length (ft_level t)))%nat in
  (header_bytes lay (length (ft_level t)) <= k < length (ft_save t))%nat ->
  exists mid, length mid = w /\ (Nat.modulo d w = 0%nat -> mid = repeat 0 w) /\
    ft_load t0 (stream (firstn k (ft_save t))) = Ok (with_first t (firstn (w * (d / w)) a ++ mid ++ repeat 0 (length a - w * (d / w) - w)), failed).
Proof. exact load_cut. Qed.
Print Assumptions C113_cut.

Example C113_cut_case : exists t, ft_state false ByteF 300 t /\ length (ft_save t) = 28%nat /\ header_bytes ByteF 0 = 16%nat /\
  ft_load t (stream (firstn 15 (ft_save t))) = Ub UB_uninit /\
  ft_load t (stream (firstn 18 (ft_save t))) = Ok (with_first t (3 :: repeat 0 11), failed).
Proof.
  eexists. split; [exists [3; 9], [], []; eexists|].
  { split; [repeat split; vm_compute; congruence|]. split; [vm_compute; reflexivity|]. vm_compute. reflexivity. }
  repeat split; (vm_compute; reflexivity).
Qed.

(** Reading a cut file is not refused: it can return a tree with other answers. *)
Theorem C113_silent_refuted : exists t k t', ft_state false ByteF 300 t /\ (k < length (ft_save t))%nat /\
  ft_load t (stream (firstn k (ft_save t))) = Ok (t', failed) /\ ft_prefix t 1 <> ft_prefix t' 1.
Proof.
  do 3 eexists. split; [exists [3; 9], [], []; eexists|].
  { split; [repeat split; vm_compute; congruence|]. split; [vm_compute; reflexivity|]. vm_compute. reflexivity. }
  split; [instantiate (1 := 16%nat); vm_compute; repeat constructor|]. split; [vm_compute; reflexivity|]. vm_compute. discriminate.
Qed.
Print Assumptions C113_silent_refuted.

(** ** C114: Files of the hybrids *)
Theorem C114_write : forall sh top bot B cut h, hy_state sh top bot B cut h -> hy_size h / 2 ^ cut < 2 ^ 32 - 1 -> hy_save h = Ub UB_bounds.
Proof. exact hybrid_save. Qed.
Print Assumptions C114_write.

Example C114_write_case : exists h, hy_state false FixedF ByteL 300 1 h /\ hy_size h / 2 ^ 1 = 1 /\ hy_save h = Ub UB_bounds.
Proof.
  assert (H : exists h, hy_build false FixedF ByteL 300 1 [3; 0; 260] = Ok h /\ hy_size h = 3) by (eexists; split; (vm_compute; reflexivity)).
  destruct H as (h & H & HS). assert (HH : hy_state false FixedF ByteL 300 1 h) by (exists [3; 0; 260], [], [], h; split; [repeat split; vm_compute; congruence|]; split; [exact H|reflexivity]).
  exists h. split; [exact HH|]. rewrite HS. split; [reflexivity|]. apply (C114_write _ _ _ _ _ _ HH). rewrite HS. reflexivity.
Qed.

(** The file operator<< should have written cannot be read. *)
Theorem C114_read : forall sh bot B h n m rest, 1 <= n < 2 ^ 32 -> zlen rest < 2 ^ 32 -> forall r, hy_load sh bot B h (stream (be 8 m ++ be 8 n ++ rest)) <> Ok r.
Proof. exact hybrid_read. Qed.
Print Assumptions C114_read.

Example C114_read_case : exists h, hy_build false FixedF ByteL 300 1 [3; 0; 260] = Ok h /\ zlen (hy_bots h) = 2 /\
  forall r, hy_load false ByteL 300 h (stream (be 8 3 ++ be 8 2 ++ ft_save (hy_top h) ++ flat_map ft_save (hy_bots h))) <> Ok r.
Proof. eexists. split; [vm_compute; reflexivity|]. split; [reflexivity|]. apply C114_read; vm_compute; split || reflexivity; congruence. Qed.

(** A file that can be read leaves the size as it was, and the trees read follow those
    there were. *)
Theorem C114_keeps : forall sh bot B h s h' s', hy_load sh bot B h s = Ok (h', s') -> hy_size h' = hy_size h /\ exists more, hy_bots h' = hy_bots h ++ more.
Proof. exact hybrid_read_keeps. Qed.
Print Assumptions C114_keeps.

(** Two bottom trees before, one in the file (its number written as a little-endian machine
    keeps it), three after. *)
Example C114_keeps_case : exists h h2 h', hy_build false FixedF ByteF 300 1 [3; 0; 260] = Ok h /\ hy_build false FixedF ByteF 300 1 [9] = Ok h2 /\
  hy_load false ByteF 300 h (stream (be 8 1 ++ le 8 1 ++ ft_save (hy_top h2) ++ flat_map ft_save (hy_bots h2))) = Ok (h', stream []) /\
  hy_size h' = 3 /\ hy_top h' = hy_top h2 /\ hy_bots h' = hy_bots h ++ hy_bots h2.
Proof. do 3 eexists. split; [vm_compute; reflexivity|]. split; [vm_compute; reflexivity|]. split; [vm_compute; reflexivity|]. repeat split; (vm_compute; reflexivity). Qed.

(** ** C115: bitCount *)
Theorem C115_trees : forall sh lay B t, ft_state sh lay B t ->
  ft_bits t = (tree_bits lay (zlen (ft_level t)) (map (@zlen Z) (ft_arr t)) + 112 * zlen (elem_widths lay)) mod 2 ^ 64.
Proof. exact tree_bits_eq. Qed.
Print Assumptions C115_trees.

Example C115_trees_case : exists t, ft_state false ByteL 300 t /\ zlen (ft_level t) = 3 /\ map (@zlen Z) (ft_arr t) = [14] /\
  tree_bits ByteL 3 [14] = 8 * (48 + 24 + 4096) /\ ft_bits t = 33456.
Proof.
  eexists. split; [exists [3; 0; 260], [], []; eexists|].
  { split; [repeat split; vm_compute; congruence|]. split; [vm_compute; reflexivity|]. vm_compute. reflexivity. }
  repeat split; (vm_compute; reflexivity).
Qed.

Theorem C115_hybrids : forall sh top bot B cut h, hy_state sh top bot B cut h ->
  hy_bits bot h = (hybrid_bits (bits_of (hy_top h)) (map bits_of (hy_bots h)) +
    112 * (zlen (elem_widths top) + zlen (hy_bots h) * zlen (elem_widths bot)) + object_bytes bot - 336) mod 2 ^ 64.
Proof. exact hybrid_bit_count. Qed.
Print Assumptions C115_hybrids.

Example C115_hybrids_case : exists h, hy_state false FixedF ByteL 300 1 h /\ hy_bits ByteL h = 100016 /\
  hybrid_bits (bits_of (hy_top h)) (map bits_of (hy_bots h)) = 99968.
Proof.
  eexists. split; [exists [3; 0; 260], [], []; eexists|].
  { split; [repeat split; vm_compute; congruence|]. split; [vm_compute; reflexivity|]. vm_compute. reflexivity. }
  split; (vm_compute; reflexivity).
Qed.

(** bitCount is not the memory of the tree. *)
Theorem C115_exact_refuted : exists t, ft_state false ByteL 300 t /\ ft_bits t <> bits_of t.
Proof.
  eexists. split; [exists [3; 0; 260], [], []; eexists|].
  { split; [repeat split; vm_compute; congruence|]. split; [vm_compute; reflexivity|]. vm_compute. reflexivity. }
  vm_compute. discriminate.
Qed.
Print Assumptions C115_exact_refuted.
