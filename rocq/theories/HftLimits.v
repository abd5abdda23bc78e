(** Where the Fenwick trees stop working. *)
From Coq Require Import ZifyBool.
From Verif Require Import Base BaseFacts Mem MemFacts SpecHft Hft HftFacts HftMem HftBuild HftStore HftLayF HftLayL HftOps HftClient.
Ltac Zify.zify_post_hook ::= Z.div_mod_to_equations.

(** ** Searching an empty tree *)
Lemma empty_search sh lay B v (comp : bool) r : is_l lay = false ->
  ft_client sh lay B [] ((if comp then FCompFind v else FFind v) :: r) = Ub UB_ctz0.
Proof.
  intros HL. unfold ft_client, ft_build. rewrite HL. unfold build_f. change (zlen []) with 0. cbn [Z.log2 Z.to_nat zrange foldM bind].
  destruct comp; cbn [ft_run ft_step]; unfold ft_find; cbn [ft_lay ft_size]; rewrite HL; reflexivity.
Qed.

(** ** add(0, inc) *)
Lemma add_zero sh inc : forall fuel t r, 0 <= ft_size t -> add_loop sh fuel t 0 inc <> Ok r.
Proof.
  assert (SZ : forall t i d t', node_add sh t i d = Ok t' -> ft_size t' = ft_size t).
  { intros t i d t'. unfold node_add.
    assert (B1 : forall k w p v, (let* v := load w (arr t k) p in let* m := store w (arr t k) p v in Ok (with_arr t k m)) = Ok v -> ft_size v = ft_size t).
    { intros k w p v. destruct (load w (arr t k) p); cbn [bind]; try discriminate. destruct (store _ _ _ _); cbn [bind]; try discriminate. intros H; inversion H; reflexivity. }
    assert (B2 : forall k (x : res (list Z)) v, (let* m := x in Ok (with_arr t k m)) = Ok v -> ft_size v = ft_size t).
    { intros k x v. destruct x; cbn [bind]; try discriminate. intros H; inversion H; reflexivity. }
    destruct (ft_lay t); cbn zeta;
      repeat match goal with
      | |- (let* _ := ?x in Ok (with_arr _ _ _)) = _ -> _ => apply B2
      | |- bind ?x _ = _ -> _ => destruct x; cbn [bind]; try discriminate
      | |- (let '(p, s) := ?x in _) = _ -> _ => destruct x
      | |- Ok _ = Ok _ -> _ => let H := fresh in intros H; inversion H; reflexivity
      end. }
  induction fuel as [|f IH]; intros t r Hs; cbn [add_loop]; [discriminate|]. destruct (Z.leb_spec 0 (ft_size t)); [|lia].
  destruct (node_add sh t 0 inc) as [t'| |] eqn:E; cbn [bind]; try discriminate. apply IH. rewrite (SZ _ _ _ _ E). exact Hs.
Qed.

(** ** BitL shifts by 64 in every construction *)
Lemma bitl_shift B A : fits BitL B (zlen A) -> A <> [] -> ft_build false BitL B A = Ub UB_shift.
Proof.
  intros (HB & Hn & HL) NE. rewrite (width_bs B HB) in HL. destruct (bound_size_ok B HB) as (_ & Hb & _). set (n := zlen A) in *.
  assert (N0 : 0 < n) by (destruct A as [|x r]; [congruence|unfold n, zlen; cbn [length]; lia]).
  unfold ft_build. cbn [is_l]. fold n. unfold build_l. rewrite levels_of_ok by auto. cbn [bind].
  set (u := level_unit BitL (bound_size B)) in *. assert (Hu : unit_ok u n). { intros h Hh. cbn [u level_unit]. unfold hts in Hh. destruct (Z.eqb_spec n 0); lia. }
  destruct (hts_range n Hn) as (HR & HR2). specialize (HR2 N0). rewrite level_table_ok by auto. cbn [bind]. replace (hts n + 1 - 1) with (hts n) by lia. fold u.
  rewrite geti_lvl by (auto; lia). cbn [bind]. pose proof (Z.log2_nonneg n). replace (Z.to_nat (hts n)) with (S (Z.to_nat (Z.log2 n))) by lia. cbn [zrange foldM].
  match goal with |- bind (fill_level _ _ ?t0 0) _ = _ => set (t := t0) end.
  assert (E : fill_level false A t 0 = Ub UB_shift); [|rewrite E; reflexivity].
  unfold fill_level. cbn [t ft_lay ft_size]. change (2 ^ 0) with 1. change (2 ^ (0 + 1)) with 2.
  replace (Z.to_nat ((n + 1) / 2)) with (S (Z.to_nat ((n + 1) / 2 - 1))) by lia. cbn [zrange foldM].
  unfold l_value. rewrite geti_ok by (fold n; lia). cbn [bind Z.to_nat zrange foldM]. change (1 + 0 * 2) with 1. change (0 + 1) with 1. rewrite shr_ok by lia. cbn [bind]. change (1 / 2 ^ 1) with 0.
  unfold lset. cbn [t ft_lay ft_bound ft_level]. rewrite geti_lvl by (auto; lia). cbn [bind]. unfold Lv. rewrite sumf_empty by lia. rewrite Z.mul_0_r. change (u64 (0 + 0)) with 0. change (0 / 8) with 0. change (0 mod 8) with 0.
  unfold bitwrite_inc. pose proof (Lv_bound u n (hts n) Hu Hn ltac:(lia)) as LB. set (last := Lv u n (hts n)) in *.
  assert (LD : exists v, load 8 (arr t 0) 0 = Ok v).
  { eexists. apply load_ok. rewrite ?Z.add_0_l. lia. cbn [t arr ft_arr nth]. unfold darray, zlen. rewrite repeat_length, Z.mul_1_l, Z.shiftr_div_pow2 by lia. change (Z.of_nat 8) with 8. lia. }
  destruct LD as (v & ->). cbn [bind]. rewrite shr_ok by lia. cbn [bind]. reflexivity.
Qed.

(** ** TypeL does not allocate the arrays when the last level has 64 bits *)
Lemma typel_unallocated sh B A : 0 <= B < 2 ^ 64 -> 0 < zlen A <= 2 ^ 48 -> 64 <= width B + Z.log2 (zlen A) -> ft_build sh TypeL B A = Ub UB_bounds.
Proof.
  intros HB Hn HL. rewrite (width_bs B HB) in HL. destruct (bound_size_ok B HB) as (_ & Hb & _). set (n := zlen A) in *.
  pose proof (Z.log2_nonneg n). assert (Z.log2 n < 49) by (apply Z.log2_lt_pow2; lia).
  destruct (hts_range n ltac:(lia)) as (HR & HR2). specialize (HR2 ltac:(lia)).
  unfold ft_build. cbn [is_l]. fold n. unfold build_l. rewrite levels_of_ok by lia. cbn [bind].
  set (bs := bound_size B) in *. destruct (typel_table_ok bs n ltac:(lia) ltac:(lia)) as (j & E). rewrite E. cbn [bind]. clear E.
  replace (Z.to_nat (Z.min (hts n + 1 - 1) (64 - bs + 1))) with (S (Z.to_nat (Z.min (hts n) (65 - bs) - 1))) by lia. cbn [zrange foldM].
  unfold typel_arrays. replace (hts n + 1 + bs - 1 <=? 64) with false by lia. replace (hts n + 1 + bs - 1 <=? 16) with false by lia. rewrite !andb_false_r.
  match goal with |- bind (fill_level _ _ ?t0 0) _ = _ => set (t := t0) end.
  assert (EF : fill_level sh A t 0 = Ub UB_bounds); [|rewrite EF; reflexivity].
  unfold fill_level. cbn [t ft_lay ft_size]. change (2 ^ 0) with 1. change (2 ^ (0 + 1)) with 2.
  replace (Z.to_nat ((n + 1) / 2)) with (S (Z.to_nat ((n + 1) / 2 - 1))) by lia. cbn [zrange foldM].
  unfold l_value. rewrite geti_ok by (fold n; lia). cbn [bind Z.to_nat zrange foldM]. change (1 + 0 * 2) with 1. change (0 + 1) with 1. rewrite shr_ok by lia. cbn [bind]. change (1 / 2 ^ 1) with 0.
  unfold lset. cbn [t ft_lay ft_bound ft_level]. fold bs. rewrite geti_lvl_t by lia. cbn [bind].
  destruct (type_class bs 0 ltac:(lia) ltac:(lia) ltac:(lia)) as (C1 & C2 & C3). rewrite C1.
  assert (CE : cz bs 0 = 1 \/ cz bs 0 = 2) by (unfold cz; destruct (Z.leb_spec (bs + 0) 8), (Z.leb_spec (bs + 0) 16); lia).
  assert (EA : arr t (Z.to_nat (cz bs 0)) = []) by (destruct CE as [-> | ->]; reflexivity). rewrite EA.
  assert (W : (1 <= type_width (bs + 0))%nat) by (unfold cwz in C2; destruct (cz bs 0 =? 0), (cz bs 0 =? 1); lia).
  unfold store, in_bounds. replace (_ && _) with false; [reflexivity|]. symmetry. change (zlen (@nil Z)) with 0. lia.
Qed.

(** ** BitF shifts by 64 when it reads a node of 64 bits *)
Lemma bitf_shift t : ft_lay t = BitF -> 1 <= bound_size (ft_bound t) <= 64 -> ft_prefix t (2 ^ (64 - bound_size (ft_bound t))) = Ub UB_shift.
Proof.
  intros EL Hb. set (bs := bound_size (ft_bound t)) in *. unfold ft_prefix. cbn [prefix_loop]. assert (0 < 2 ^ (64 - bs)) by (apply Z.pow_pos_nonneg; lia).
  replace (2 ^ (64 - bs) =? 0) with false by lia. unfold node_get. rewrite EL. fold bs. rewrite rho_ok by lia. cbn [bind].
  rewrite (ht_unique (2 ^ (64 - bs)) (64 - bs) 0) by lia. replace (bs + (64 - bs)) with 64 by lia. reflexivity.
Qed.
