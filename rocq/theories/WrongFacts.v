(** Two ranks that share a static array: one can answer with the counts of the other. *)
From Coq Require Import ZifyBool.
From Verif Require Import Base BaseFacts Mem Nodes Trees TreeFacts Words WordFacts Blocks BlockFacts Spec Bitmap Usage BitmapFacts ProgramFacts PropFacts DenseFacts System Conc ConcFacts SpecConc ThreadFacts RaceFacts.
Ltac Zify.zify_post_hook ::= Z.div_mod_to_equations.

Definition same_but (I : inst) (s s1 : shared) : Prop :=
  (forall j, j <> I -> sh_stat s1 j = sh_stat s j) /\ sh_objs s1 = sh_objs s.

Lemma same_but_trans I s s1 s2 : same_but I s s1 -> same_but I s1 s2 -> same_but I s s2.
Proof. intros (A & B) (A' & B'). split; [intros j Hj; rewrite A', A by auto; reflexivity|congruence]. Qed.

Lemma sim_solo {A} I (F : act A) f s r st : sim I F f -> len_ok I (sh_stat s I) -> f (sh_stat s I) = Ok (r, st) ->
  exists k s1, (forall B (g : A -> act B), solo k (abind F g) s = Some (g r, s1)) /\ sh_stat s1 I = st /\ len_ok I st /\ same_but I s s1.
Proof.
  intros H L E. specialize (H s L). rewrite E in H. destruct H as (s' & E' & E1 & L1 & Fr & O).
  exists (steps F s), s'. split; [|repeat (split; auto)]. intros B g.
  pose proof (solo_run _ _ _ _ E') as X. apply (solo_bind _ _ g) in X. exact X.
Qed.

(** Where rank reads the sum of the words before word [w]. *)
Definition read_cell (I : inst) (w : Z) : cell :=
  {| ce_inst := I;
     ce_sums := match I with
                | IRank 8 RM_builtin_parallel | IRank _ (RM_avx2_parallel | RM_avx512_parallel) => true
                | _ => false
                end;
     ce_idx := w |}.

Definition rank_split {A} (n : nat) (I : inst) (x : wptr) (i : Z) (a : act A) (fin : Z -> act A) (s : shared) : Prop :=
  exists k s1 K, solo k a s = Some (Get (read_cell I (i / 64)) K, s1) /\ (forall v, K v = fin v) /\
    same_but I s s1 /\ stat_ok n (sh_stat s1 I) /\ forall w, 0 <= w < Z.of_nat n -> cell_get s1 (read_cell I w) = Ok (sumf (pcs x) 0 w).

Definition fin_rank (x : wptr) (i v : Z) : act Z := ret (u64 (v + wones (W x (i / 64)) 0 (i mod 64 + 1))).

Lemma stat_len n i st : inst_words i = n -> stat_ok n st -> len_ok i st.
Proof. intros <- (A & B & _). split; auto. Qed.

Lemma fill_split n I get x i s : inst_words I = n -> (1 <= n <= 8)%nat -> 0 <= i < 64 * Z.of_nat n -> stat_ok n (sh_stat s I) -> ce_sums (read_cell I 0) = false ->
  (forall j, 0 <= j < Z.of_nat n -> get j = Ok (pcs x j) /\ 0 <= pcs x j <= 64) ->
  rank_split n I x i (abind (fill_counts_act I get n) (fun _ => abind (get_c I (i / 64)) (fun r => ret (u64 (r + wones (W x (i / 64)) 0 (i mod 64 + 1)))))) (fin_rank x i) s.
Proof.
  intros In Hn Hi Hs Hc Hg. destruct (fill_counts_ok get (pcs x) n (st_c (sh_stat s I)) Hn (proj1 Hs) Hg) as (cs & E & L & P).
  destruct (sim_solo I _ _ s tt {| st_c := cs; st_s := st_s (sh_stat s I) |} (sim_fill I get n) (stat_len _ _ _ In Hs)) as (k & s1 & Sk & E1 & _ & Fr).
  { cbn beta. rewrite E. reflexivity. }
  exists k, s1. eexists. split; [|split; [|split; [exact Fr|]]].
  - rewrite Sk. unfold get_c. cbn [abind]. unfold read_cell in *. cbn [ce_sums] in Hc. rewrite Hc. reflexivity.
  - intros v. reflexivity.
  - split; [rewrite E1; destruct Hs as (? & ? & ?); split; auto|].
    intros w Hw. unfold cell_get, read_cell in *. cbn [ce_inst ce_sums ce_idx] in *. rewrite Hc, E1. cbn [st_c].
    rewrite geti_ok by (unfold zlen; lia). f_equal. apply P. exact Hw.
Qed.

Lemma sums_split n I (psum : list Z -> list Z) x i s cnts : inst_words I = n -> 0 <= i < 64 * Z.of_nat n -> stat_ok n (sh_stat s I) -> ce_sums (read_cell I 0) = true ->
  prefix_ok n psum -> cnts = map (pcs x) (zrange 0 n) ->
  rank_split n I x i (abind (store_s_act I (psum cnts)) (fun _ => abind (get_s I (i / 64)) (fun r => ret (u64 (r + wones (W x (i / 64)) 0 (i mod 64 + 1)))))) (fin_rank x i) s.
Proof.
  intros In Hi Hs Hc Hp ->. rewrite Hp; [|rewrite map_length, length_zrange; auto|apply pcs_small].
  destruct (store_sums_ok x n _ Hs) as (sums & E & L & P).
  destruct (sim_solo I _ _ s tt {| st_c := st_c (sh_stat s I); st_s := sums |} (sim_store_s I (inclusive (map (pcs x) (zrange 0 n)) n)) (stat_len _ _ _ In Hs)) as (k & s1 & Sk & E1 & _ & Fr).
  { cbn beta. rewrite E. reflexivity. }
  exists k, s1. eexists. split; [|split; [|split; [exact Fr|]]].
  - rewrite Sk. unfold get_s. cbn [abind]. unfold read_cell in *. cbn [ce_sums] in Hc. rewrite Hc. reflexivity.
  - intros v. reflexivity.
  - split.
    + rewrite E1. destruct Hs as (? & ? & ?). split; [auto|]. cbn [st_s]. split; [auto|]. rewrite P by lia. apply sumf_empty; lia.
    + intros w Hw. unfold cell_get, read_cell in *. cbn [ce_inst ce_sums ce_idx] in *. rewrite Hc, E1. cbn [st_s].
      rewrite geti_ok by (unfold zlen; lia). f_equal. apply P. lia.
Qed.

Lemma split_later {A} n I x i (a a' : act A) fin k s s' : solo k a s = Some (a', s') -> same_but I s s' -> rank_split n I x i a' fin s' -> rank_split n I x i a fin s.
Proof.
  intros E Sb (k' & s1 & K & E' & HK & Sb' & R). exists (k + k')%nat, s1, K. split; [eapply solo_app; eauto|]. split; [exact HK|]. split; [eapply same_but_trans; eauto|exact R].
Qed.

Lemma split_bind {A B} n I x i (a : act A) fin (g : A -> act B) s : rank_split n I x i a fin s -> rank_split n I x i (abind a g) (fun v => abind (fin v) g) s.
Proof.
  intros (k & s1 & K & E & HK & R). exists k, s1, (fun v => abind (K v) g). split; [apply (solo_bind _ _ g) in E; exact E|]. split; [intros v; rewrite HK; reflexivity|exact R].
Qed.

Lemma generic_get_ok c pm x n j : pm_ok pm -> blk x (Z.of_nat n) -> 0 <= j < Z.of_nat n ->
  (let* w := ldw x j in popcount_u64 c pm w) = Ok (pcs x j) /\ 0 <= pcs x j <= 64.
Proof.
  intros Hp Hb Hj. split; [|apply pcs_bound]. rewrite (ldw_ok x (Z.of_nat n)) by auto. cbn [bind].
  apply popcount_u64_ok; auto. apply (W_word x (Z.of_nat n)); auto.
Qed.

Lemma generic_split c n m x i s : (1 <= n <= 8)%nat -> blk x (Z.of_nat n) -> 0 <= i < 64 * Z.of_nat n -> stat_ok n (sh_stat s (IRank n m)) ->
  pm_ok (rm_pcm m) -> rm_psm m = PS_unrolled -> ce_sums (read_cell (IRank n m) 0) = false ->
  rank_split n (IRank n m) x i (rank_generic_act c n m x i) (fin_rank x i) s.
Proof.
  intros Hn Hb Hi Hs Hp Hq Hc. unfold rank_generic_act, pure. rewrite massert_true by lia. cbv zeta. rewrite (rank_in_block_ok c _ x (Z.of_nat n)) by auto.
  cbn [abind]. rewrite Hq. apply fill_split; auto. intros j Hj. apply (generic_get_ok c _ x n); auto.
Qed.

Lemma unrolled_split c n m x i s : (1 <= n <= 8)%nat -> blk x (Z.of_nat n) -> 0 <= i < 64 * Z.of_nat n -> stat_ok n (sh_stat s (IRank n m)) ->
  ce_sums (read_cell (IRank n m) 0) = false -> rank_split n (IRank n m) x i (rank_vec_unrolled_act c n m x i) (fin_rank x i) s.
Proof.
  intros Hn Hb Hi Hs Hc. unfold rank_vec_unrolled_act, pure. rewrite massert_true by lia. rewrite (rank_in_block_ok c _ x (Z.of_nat n)) by (unfold pm_ok; auto).
  destruct (popcount_vec_block x n Hb) as (ws & -> & PV). cbn [abind]. rewrite PV. apply fill_split; auto. intros j Hj. apply get_pcs. lia.
Qed.

Lemma parallel_split c n m psum x i s : (1 <= n <= 8)%nat -> blk x (Z.of_nat n) -> 0 <= i < 64 * Z.of_nat n -> stat_ok n (sh_stat s (IRank n m)) -> prefix_ok n psum ->
  ce_sums (read_cell (IRank n m) 0) = true -> rank_split n (IRank n m) x i (rank_vec_parallel_act c n m psum x i) (fin_rank x i) s.
Proof.
  intros Hn Hb Hi Hs Hp Hc. unfold rank_vec_parallel_act, pure. rewrite massert_true by lia. rewrite (rank_in_block_ok c _ x (Z.of_nat n)) by (unfold pm_ok; auto).
  destruct (popcount_vec_block x n Hb) as (ws & -> & PV). cbn [abind]. rewrite PV. apply sums_split; auto.
Qed.

Lemma sim_fill_cells I h l : sim I (aiter (fun j => abind (pure (h j)) (fun w => put_c I j (popcount w))) l)
  (fun st => let* cs := foldM (fun cnts j => let* w := h j in seti cnts j (popcount w)) l (st_c st) in Ok (tt, {| st_c := cs; st_s := st_s st |})).
Proof.
  apply sim_iter_c. intros j. eapply sim_ext; [|apply sim_pure; intros w _; apply sim_put_c]. intros st. cbn beta. destruct (h j); reflexivity.
Qed.

Lemma bp512_split c x i s : blk x 8 -> 0 <= i < 512 -> stat_ok 8 (sh_stat s (IRank 8 RM_builtin_parallel)) ->
  rank_split 8 (IRank 8 RM_builtin_parallel) x i (rank_u512_builtin_parallel_act c x i) (fin_rank x i) s.
Proof.
  intros Hb Hi Hs. unfold rank_u512_builtin_parallel_act, pure. set (I := IRank 8 RM_builtin_parallel) in *. rewrite massert_true by lia. cbn [abind].
  rewrite (rank_in_block_ok c _ x 8) by (unfold pm_ok; auto). cbn [abind].
  change [0; 1; 2; 3; 4; 5; 6; 7] with (zrange 0 8).
  destruct (sim_solo I (aiter (fun j => abind (Done (ldw x j)) (fun w => put_c I j (popcount w))) (zrange 0 8)) _ s tt
    {| st_c := map (pcs x) (zrange 0 8); st_s := st_s (sh_stat s I) |}
    (sim_fill_cells I (fun j => ldw x j) (zrange 0 8)))
    as (k & s1 & Sk & E1 & L1 & Sb).
  { split; apply Hs. }
  { cbn beta. rewrite (fill_pcs x 8) by (auto; apply Hs). reflexivity. }
  eapply split_later; [apply Sk|exact Sb|]. cbv beta.
  pose proof (load_c_run I 8 s1) as R. rewrite E1 in R. cbn [st_c] in R. specialize (R ltac:(rewrite map_length, length_zrange; auto)).
  rewrite (firstn_all2 (map _ _)) in R by (rewrite map_length, length_zrange; lia).
  pose proof (fun B g => solo_bind (B := B) _ _ g _ _ _ (solo_run _ _ _ _ R)) as X. eapply split_later; [apply X|split; auto|]. cbn [abind].
  apply (sums_split 8 I prefixsum_m512i x i s1); auto.
  - rewrite E1. destruct Hs as (? & ? & ?). split; [cbn [st_c]; rewrite map_length; apply length_zrange|]. split; auto.
  - intros xs. apply prefixsum_m512i_ok.
Qed.

Lemma bp256_split c x i s : blk x 4 -> 0 <= i < 256 -> stat_ok 4 (sh_stat s (IRank 4 RM_builtin_parallel)) ->
  rank_split 4 (IRank 4 RM_builtin_parallel) x i (rank_u256_builtin_parallel_act c x i) (fin_rank x i) s.
Proof.
  intros Hb Hi Hs. unfold rank_u256_builtin_parallel_act, pure. set (I := IRank 4 RM_builtin_parallel) in *. rewrite massert_true by lia. cbn [abind].
  rewrite (rank_in_block_ok c _ x 4) by (unfold pm_ok; auto). change [1; 2; 3] with (zrange 1 3).
  destruct Hs as (H1 & H2 & H3). assert (L1 : zlen (st_c (sh_stat s I)) = 4) by (unfold zlen; lia).
  destruct (sim_solo I (put_c I 0 0) _ s tt {| st_c := upd (st_c (sh_stat s I)) 0 0; st_s := st_s (sh_stat s I) |} (sim_put_c I 0 0)) as (k & s1 & Sk & E1 & Ln1 & Sb).
  { split; auto. }
  { cbn beta. rewrite seti_ok by lia. reflexivity. }
  eapply split_later; [apply Sk|exact Sb|]. cbv beta. clear Sk.
  destruct (fill_cells (fun j => ldw x (j - 1)) (fun j => W x (j - 1)) 3 1 (upd (st_c (sh_stat s I)) 0 0)) as (cs & E & L & P);
    [lia|rewrite zlen_upd; lia|intros; apply (ldw_ok x 4); auto; lia|]. rewrite zlen_upd in *.
  destruct (sim_solo I (aiter (fun j => abind (Done (ldw x (j - 1))) (fun w => put_c I j (popcount w))) (zrange 1 3)) _ s1 tt
    {| st_c := cs; st_s := st_s (sh_stat s I) |}
    (sim_fill_cells I (fun j => ldw x (j - 1)) (zrange 1 3)))
    as (k2 & s2 & Sk & E2 & Ln2 & Sb2).
  { rewrite E1. exact Ln1. }
  { rewrite E1. cbn [st_c st_s]. rewrite E. reflexivity. }
  eapply split_later; [apply Sk|exact Sb2|]. cbv beta. clear Sk. cbn [abind].
  assert (Lc : length cs = 4%nat) by (unfold zlen in *; lia).
  assert (V : forall j, 0 <= j < 4 -> zn 0 cs j = if j =? 0 then 0 else pcs x (j - 1)).
  { intros j Hj. rewrite P by lia. destruct (Z.eqb_spec j 0).
    - subst. cbn [Z.leb Z.compare andb]. rewrite zn_upd by lia. reflexivity.
    - replace ((1 <=? j) && (j <? 1 + Z.of_nat 3)) with true by lia. reflexivity. }
  pose proof (load_c_run I 4 s2) as R. rewrite E2 in R. cbn [st_c] in R. specialize (R ltac:(lia)). rewrite (firstn_all2 cs) in R by lia.
  pose proof (fun B g => solo_bind (B := B) _ _ g _ _ _ (solo_run _ _ _ _ R)) as X. eapply split_later; [apply X|split; auto|]. cbn [abind].
  rewrite prefixsum_m256i_ok; auto.
  2:{ rewrite Forall_forall. intros v Hv. apply In_nth with (d := 0) in Hv. destruct Hv as (q & Hq & <-).
      specialize (V (Z.of_nat q) ltac:(lia)). unfold zn in V. rewrite Nat2Z.id in V. rewrite V.
      destruct (Z.of_nat q =? 0); [lia|apply pcs_bound]. }
  destruct (store_words_ok cs 0 (inclusive cs 4)) as (a & Ea & La & Pa); [lia|rewrite zlen_inclusive; lia|].
  destruct (sim_solo I _ _ s2 tt {| st_c := a; st_s := st_s (sh_stat s I) |} (sim_store_c I (inclusive cs 4))) as (k3 & s3 & Sk & E3 & Ln3 & Sb3).
  { rewrite E2. exact Ln2. }
  { cbn beta. rewrite E2. cbn [st_c st_s]. rewrite Ea. reflexivity. }
  exists k3, s3. eexists. split; [rewrite Sk; unfold get_c; cbn [abind]; reflexivity|]. split; [intros v; reflexivity|]. split; [exact Sb3|].
  rewrite E3. split; [split; [|split]; cbn [st_c st_s]; auto; unfold zlen in *; lia|].
  intros w Hw. change (read_cell I w) with {| ce_inst := I; ce_sums := false; ce_idx := w |}. unfold cell_get. cbn [ce_inst ce_sums ce_idx]. rewrite E3. cbn [st_c]. rewrite geti_ok by lia. f_equal.
  rewrite Pa by lia. rewrite zlen_inclusive. replace ((0 <=? w) && (w <? 0 + Z.of_nat 4)) with true by lia.
  rewrite Z.sub_0_r, zn_inclusive by lia. rewrite sumf_first by lia. rewrite V by lia. cbn [Z.eqb]. rewrite Z.add_0_l.
  rewrite (sumf_ext (zn 0 cs) (fun t => pcs x (t + -1))).
  - rewrite (sumf_shift (pcs x)). f_equal; lia.
  - intros t Ht. rewrite V by lia. destruct (Z.eqb_spec t 0); [lia|]. reflexivity.
Qed.

Lemma block_split c b x i s I : supported b = true -> In I (call_statics b (Rank 0)) -> blk x (words_in_block b) -> 0 <= i < block_size b -> all_stat s ->
  rank_split (inst_words I) I x i (block_rank_act c b x i) (fin_rank x i) s /\ I = rank_key b /\ inst_words I = nwords b.
Proof.
  intros Sp HI Hb Hi A. destruct b as [|rm sm|rm sm]; cbn [call_statics] in HI; [contradiction|..].
  - split; [|destruct rm; cbn [rank_static In] in HI; try contradiction; destruct HI as [<-|[]]; split; reflexivity].
    destruct rm; try discriminate Sp; cbn [rank_static In] in HI; try contradiction; destruct HI as [<-|[]];
      cbn [block_rank_act rank_u256_act inst_words];
      first [ apply generic_split; auto; try lia; try (apply A); try reflexivity; unfold pm_ok; vm_compute; auto; fail
            | apply unrolled_split; auto; try lia; try (apply A); reflexivity
            | apply bp256_split; auto; apply A
            | apply parallel_split; auto; try lia; try (apply A); try reflexivity; intros xs; apply prefixsum_m256i_ok ].
  - split; [|destruct rm; cbn [rank_static In] in HI; try contradiction; destruct HI as [<-|[]]; split; reflexivity].
    destruct rm; try discriminate Sp; cbn [rank_static In] in HI; try contradiction; destruct HI as [<-|[]];
      cbn [block_rank_act rank_u512_act inst_words];
      first [ apply generic_split; auto; try lia; try (apply A); try reflexivity; unfold pm_ok; vm_compute; auto; fail
            | apply unrolled_split; auto; try lia; try (apply A); reflexivity
            | apply bp512_split; auto; apply A
            | apply parallel_split; auto; try lia; try (apply A); try reflexivity; intros xs; apply prefixsum_m512i_ok ].
Qed.

(** ** A rank call *)
Lemma call_statics_rank b i : call_statics b (Rank i) = call_statics b (Rank 0).
Proof. destruct b; reflexivity. Qed.

Lemma thread_split c o i ty b n B s I : sh_objs s o = Some (ty, b) -> binv ty n b B -> all_stat s -> 0 <= i < zlen B ->
  In I (call_statics (ty_block ty) (Rank i)) ->
  let bs := block_size (ty_block ty) in let x := bptr (ty_block ty) (b_words b) (i / bs) in
  rank_split (inst_words I) I x (i mod bs) (thread_act c [(o, Rank i)])
    (fun v => ret [ONum (u64 (ones_before B (bs * (i / bs)) + u64 (v + wones (W x (i mod bs / 64)) 0 ((i mod bs) mod 64 + 1))))]) s /\
  blk x (words_in_block (ty_block ty)) /\ I = rank_key (ty_block ty) /\ inst_words I = nwords (ty_block ty).
Proof.
  intros Eo (Hw & EB & _) A Hi HI bs x. pose proof Hw as (Hsup & HW & E & A0 & T & HA).
  pose proof (winv_n _ _ _ _ Hw) as Hn. pose proof (winv_size _ _ _ _ Hw) as Hz. unfold bsz in Hz. rewrite <- EB in Hi. rewrite zlen_bits in Hi.
  assert (SZ : (i <? bm_size (b_words b)) = true) by (rewrite bm_size_ok, zlen_bits; apply Z.ltb_lt; lia).
  assert (HB : 0 < bs) by (unfold bs; destruct (ty_block ty); reflexivity). fold bs in Hz.
  pose proof (div_block i bs n HB ltac:(lia)) as Hb.
  pose proof (Z.mod_pos_bound i bs HB) as Hm.
  assert (Hx : blk x (words_in_block (ty_block ty))) by (apply (blk_ok ty n (b_words b) (own_view ty b)); auto).
  rewrite call_statics_rank in HI. destruct (block_split c (ty_block ty) x (i mod bs) s I Hsup HI Hx Hm A) as (Sp & K1 & K2).
  split; [|auto].
  assert (ES : (if i / bs =? 0 then Ok 0 else tree_sum c (ty_fam ty) (ty_height ty) (own_view ty b) (i / bs - 1))
    = Ok (ones_before B (bs * (i / bs)))).
  { rewrite <- EB. rewrite ones_words by nia. set (q := i / bs) in *. clearbody q. destruct (Z.eqb_spec q 0) as [-> | NZ].
    - rewrite Z.mul_0_r, sumf_empty by lia. reflexivity.
    - rewrite (tree_sum_ok c _ _ (bsz ty) n _ A0) by (auto; lia). f_equal.
      replace (q - 1 + 1) with q by lia. apply (sum_blocks ty n (b_words b) (own_view ty b)); auto; lia. }
  eapply (split_later _ _ _ _ _ _ _ 1 s s).
  - cbn [thread_act]. unfold call_act. cbn [abind solo astep]. rewrite Eo. reflexivity.
  - split; auto.
  - cbv beta iota. unfold rank_act. cbv zeta. fold bs. unfold pure. rewrite SZ. rewrite massert_true by reflexivity. cbn [abind].
    rewrite ES. cbn [abind]. unfold bs. rewrite land_bs by (clear - Hi; lia). fold bs. fold (bptr (ty_block ty) (b_words b) (i / bs)). fold x.
    apply (split_bind _ _ _ _ _ _ (fun r => ret (u64 (ones_before B (bs * (i / bs)) + r)))) in Sp.
    apply (split_bind _ _ _ _ _ _ (fun r => ret (ONum r))) in Sp.
    apply (split_bind _ _ _ _ _ _ (fun a => abind (thread_act c []) (fun l => ret (a :: l)))) in Sp. exact Sp.
Qed.

Lemma pcs_ones bt ws q w B : bits_of_words ws = B -> 0 <= q -> 0 <= w -> block_size bt * q + 64 * w <= 64 * zlen ws ->
  sumf (pcs (bptr bt ws q)) 0 w = ones_before B (block_size bt * q + 64 * w) - ones_before B (block_size bt * q).
Proof.
  intros <- Hq Hw Hl. assert (0 < block_size bt) by (destruct bt; reflexivity).
  pose proof (bones_split (bptr bt ws q) w 0 Hw ltac:(lia)) as E. unfold wones in E. rewrite (sumf_empty (wbit _)) in E by lia.
  rewrite Z.add_0_r in E. replace (64 * w + 0) with (64 * w) in E by lia. rewrite bones_gbit in E by lia.
  rewrite !ones_words by nia. rewrite (sumf_split (gbit ws) 0 (block_size bt * q) (block_size bt * q + 64 * w)) by nia. lia.
Qed.

Lemma wones_ones bt ws q r B : bits_of_words ws = B -> 0 <= q -> 0 <= r -> block_size bt * q + r + 1 <= 64 * zlen ws ->
  wones (W (bptr bt ws q) (r / 64)) 0 (r mod 64 + 1) = rank_spec B (block_size bt * q + r) - ones_before B (block_size bt * q + 64 * (r / 64)).
Proof.
  intros EB Hq Hr Hl. assert (0 < block_size bt) by (destruct bt; reflexivity).
  pose proof (bones_split (bptr bt ws q) (r / 64) (r mod 64 + 1) ltac:(lia) ltac:(lia)) as E. replace (64 * (r / 64) + (r mod 64 + 1)) with (r + 1) in E by lia.
  rewrite bones_gbit in E by lia. rewrite (pcs_ones bt ws q (r / 64) B) in E by (auto; set (z := block_size bt * q) in *; clearbody z; lia).
  unfold rank_spec. rewrite <- EB in *. rewrite (ones_words ws (_ + 1)) by nia. rewrite (sumf_split (gbit ws) 0 (block_size bt * q) (block_size bt * q + r + 1)) by nia.
  rewrite <- (ones_words ws (block_size bt * q)) by nia. rewrite <- Z.add_assoc, E. lia.
Qed.

Lemma step_get t st cell K v : nth_error (cs_thr st) t = Some (Get cell K) -> cell_get (cs_sh st) cell = Ok v ->
  cs_sh (exec st [t]) = cs_sh st /\ nth_error (cs_thr (exec st [t])) t = Some (K v) /\ forall u, u <> t -> nth_error (cs_thr (exec st [t])) u = nth_error (cs_thr st) u.
Proof. intros E Ev. apply (exec_solo st t _ 1 _ _ E). cbn [solo astep]. rewrite Ev. reflexivity. Qed.

Lemma block_fits bs q n : 0 < bs -> 0 <= q < n -> 0 <= bs * q /\ bs * q + bs <= bs * n.
Proof. intros. nia. Qed.
Lemma size_fits bs n : 0 < bs <= 512 -> 0 <= n <= 2 ^ 24 -> bs * n <= 512 * 2 ^ 24.
Proof. intros. nia. Qed.

Lemma wrong_rank c T C s o i o' j I :
  ready c T C s [[(o, Rank i)]; [(o', Rank j)]] -> 0 <= i < zlen (C o) -> 0 <= j < zlen (C o') ->
  In I (call_statics (ty_block (T o)) (Rank i)) -> In I (call_statics (ty_block (T o')) (Rank j)) ->
  exists sched, finished (exec (start c s [[(o, Rank i)]; [(o', Rank j)]]) sched) 0 [ONum (mixed_rank (block_size (ty_block (T o))) (C o) i (C o') j)] /\
    finished (exec (start c s [[(o, Rank i)]; [(o', Rank j)]]) sched) 1 [ONum (rank_spec (C o') j)].
Proof.
  intros (A & Ty & Ob) Hi Hj HI HI'. set (ts := [[(o, Rank i)]; [(o', Rank j)]]) in *.
  assert (GS : forall cs k, In cs ts -> uses cs k -> good c T C s k /\ supported (ty_block (T k)) = true).
  { intros es k Hc Hu. destruct (Ob es k Hc Hu) as (b & Eo & M). eapply made_good; eauto. }
  destruct (GS [(o, Rank i)] o (or_introl eq_refl) (ex_intro _ _ (or_introl eq_refl))) as ((b & n & Eo & Hb & _) & _).
  destruct (GS [(o', Rank j)] o' (or_intror (or_introl eq_refl)) (ex_intro _ _ (or_introl eq_refl))) as ((b' & n' & Eo' & Hb' & _) & _). clear GS Ob.
  destruct (thread_split c o i (T o) b n (C o) s I Eo Hb A Hi HI) as ((k & s1 & K & E & HK & Sb & So & _) & Hx & KI & NI).
  assert (A1 : all_stat s1).
  { intros z. destruct (inst_eqb z I) eqn:Ez; [apply inst_eqb_ok in Ez; subst z; exact So|]. destruct Sb as (Sb & _). rewrite Sb; [apply A|]. intros ->. rewrite inst_eqb_refl in Ez. discriminate. }
  assert (Eo1 : sh_objs s1 o' = Some (T o', b')) by (destruct Sb as (_ & ->); exact Eo').
  destruct (thread_split c o' j (T o') b' n' (C o') s1 I Eo1 Hb' A1 Hj HI') as ((k' & s2 & K' & E' & HK' & Sb' & So' & Cl) & Hx' & KI' & NI').
  set (bs := block_size (ty_block (T o))) in *. set (bs' := block_size (ty_block (T o'))) in *.
  assert (Ebs : bs = 64 * Z.of_nat (inst_words I)) by (rewrite NI; unfold bs; destruct (block_size_words (ty_block (T o))); lia).
  assert (Ebs' : bs' = 64 * Z.of_nat (inst_words I)) by (rewrite NI'; unfold bs'; destruct (block_size_words (ty_block (T o'))); lia).
  assert (Hn : 1 <= Z.of_nat (inst_words I) <= 8) by (rewrite NI; destruct (ty_block (T o)); cbn; lia).
  set (nw := Z.of_nat (inst_words I)) in *.
  assert (Hm : 0 <= i mod bs / 64 < nw). { pose proof (Z.mod_pos_bound i bs ltac:(lia)). set (z := i mod bs) in *. clearbody z. lia. }
  assert (Hm' : 0 <= j mod bs' / 64 < nw). { pose proof (Z.mod_pos_bound j bs' ltac:(lia)). set (z := j mod bs') in *. clearbody z. lia. }
  set (st0 := start c s ts).
  assert (T0 : nth_error (cs_thr st0) 0 = Some (thread_act c [(o, Rank i)])) by reflexivity.
  assert (U0 : nth_error (cs_thr st0) 1 = Some (thread_act c [(o', Rank j)])) by reflexivity.
  destruct (exec_solo st0 0 _ k _ s1 T0 E) as (S1 & T1 & O1). set (st1 := exec st0 (repeat 0%nat k)) in *.
  assert (U1 : nth_error (cs_thr st1) 1 = Some (thread_act c [(o', Rank j)])) by (rewrite O1 by lia; exact U0).
  rewrite <- S1 in E'. destruct (exec_solo st1 1 _ k' _ s2 U1 E') as (S2 & U2 & O2). set (st2 := exec st1 (repeat 1%nat k')) in *.
  assert (T2 : nth_error (cs_thr st2) 0 = Some (Get (read_cell I (i mod bs / 64)) K)) by (rewrite O2 by lia; exact T1).
  destruct (step_get 1 st2 _ _ _ U2 (eq_trans (f_equal (fun z => cell_get z _) S2) (Cl _ Hm'))) as (S3 & U3 & O3). set (st3 := exec st2 [1%nat]) in *.
  assert (T3 : nth_error (cs_thr st3) 0 = Some (Get (read_cell I (i mod bs / 64)) K)) by (rewrite O3 by lia; exact T2).
  destruct (step_get 0 st3 _ _ _ T3 (eq_trans (f_equal (fun z => cell_get z _) (eq_trans S3 S2)) (Cl _ Hm))) as (S4 & T4 & O4).
  exists (repeat 0%nat k ++ repeat 1%nat k' ++ [1%nat] ++ [0%nat]). rewrite !exec_app. fold st1 st2 st3.
  destruct Hb as (Hw & EB & _), Hb' as (Hw' & EB' & _). rewrite <- EB in Hi. rewrite <- EB' in Hj. rewrite zlen_bits in Hi, Hj.
  pose proof (winv_size _ _ _ _ Hw) as Hz. pose proof (winv_size _ _ _ _ Hw') as Hz'. unfold bsz in Hz, Hz'. fold bs in Hz. fold bs' in Hz'.
  pose proof (winv_n _ _ _ _ Hw) as Nn. pose proof (winv_n _ _ _ _ Hw') as Nn'.
  pose proof (div_block i bs n ltac:(lia) ltac:(lia)) as Hq. pose proof (div_block j bs' n' ltac:(lia) ltac:(lia)) as Hq'.
  pose proof (Z.div_mod i bs ltac:(lia)) as Di. pose proof (Z.div_mod j bs' ltac:(lia)) as Dj.
  pose proof (Z.mod_pos_bound i bs ltac:(lia)) as Mi. pose proof (Z.mod_pos_bound j bs' ltac:(lia)) as Mj.
  assert (Bb : bs' = bs) by lia. clear Ebs'.
  destruct (block_fits bs (i / bs) n ltac:(lia) Hq) as (B5 & B1). destruct (block_fits bs' (j / bs') n' ltac:(lia) Hq') as (B6 & B2).
  pose proof (size_fits bs n ltac:(lia) ltac:(lia)) as B3. pose proof (size_fits bs' n' ltac:(lia) ltac:(lia)) as B4.
  rewrite <- Hz in B1, B3. rewrite <- Hz' in B2, B4.
  unfold finished. split.
  - rewrite T4, HK. unfold ret. do 4 f_equal.
    unfold mixed_rank. cbv zeta. fold bs.
    rewrite (pcs_ones (ty_block (T o')) (b_words b') (j / bs') (i mod bs / 64) (C o') EB'); fold bs'; [|lia|lia|rewrite Bb at 1; set (z := j / bs') in *; set (y := i mod bs) in *; clearbody z y; lia].
    rewrite (wones_ones (ty_block (T o)) (b_words b) (i / bs) (i mod bs) (C o) EB); fold bs; [|lia|lia|set (z := i / bs) in *; set (y := i mod bs) in *; clearbody z y; lia].
    rewrite <- Di. rewrite Bb in *. set (q := bs * (i / bs)) in *. set (q' := bs * (j / bs)) in *. set (w := 64 * (i mod bs / 64)) in *.
    assert (Hw64 : 0 <= w <= i mod bs) by (unfold w; set (y := i mod bs) in *; clearbody y; clear - Mi; lia).
    assert (Hi' : i = q + i mod bs) by (unfold q; lia).
    pose proof (ones_step (C o) 0 q ltac:(lia)) as R1. pose proof (ones_step (C o') q' (q' + w) ltac:(lia)) as R2.
    pose proof (ones_step (C o) (q + w) (i + 1) ltac:(lia)) as R3. change (ones_before (C o) 0) with 0 in R1. unfold rank_spec in *.
    set (y := i mod bs) in *. clearbody y q q' w. clear - R1 R2 R3 Mi B1 B2 B3 B4 B5 B6 Hi' Hw64 Hn Ebs. f_equal.
    match goal with |- wrap 64 (_ + wrap 64 ?b) = _ => rewrite (wrap_small 64 b) by lia end. rewrite wrap_small by lia. lia.
  - rewrite O4 by lia. rewrite U3, HK'. unfold ret. do 4 f_equal.
    rewrite (pcs_ones (ty_block (T o')) (b_words b') (j / bs') (j mod bs' / 64) (C o') EB'); fold bs'; [|lia|lia|rewrite Bb in *; set (z := j / bs) in *; set (y := j mod bs) in *; clearbody z y; lia].
    rewrite (wones_ones (ty_block (T o')) (b_words b') (j / bs') (j mod bs') (C o') EB'); fold bs'; [|lia|lia|rewrite Bb in *; set (z := j / bs) in *; set (y := j mod bs) in *; clearbody z y; lia].
    rewrite <- Dj. set (q := bs' * (j / bs')) in *. set (w := 64 * (j mod bs' / 64)) in *.
    assert (Hw64 : 0 <= w <= j mod bs') by (unfold w; set (y := j mod bs') in *; clearbody y; clear - Mj; lia).
    assert (Hj' : j = q + j mod bs') by (unfold q; lia).
    pose proof (ones_step (C o') 0 q ltac:(lia)) as R1. pose proof (ones_step (C o') q (q + w) ltac:(lia)) as R2.
    pose proof (ones_step (C o') (q + w) (j + 1) ltac:(lia)) as R3. change (ones_before (C o') 0) with 0 in R1. unfold rank_spec in *.
    set (y := j mod bs') in *. clearbody y q w. clear - R1 R2 R3 Mj B2 B4 B6 Hj' Hw64 Hn Ebs Bb. f_equal.
    match goal with |- wrap 64 (_ + wrap 64 ?b) = _ => rewrite (wrap_small 64 b) by lia end. rewrite wrap_small by lia. lia.
Qed.
