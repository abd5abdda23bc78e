(** Every tree a client can have can be written and read back. *)
From Coq Require Import ZifyBool.
From Verif Require Import Base BaseFacts Mem MemFacts SpecHft SpecHftFile Hft HftHybrid HftFile HftFacts HftLayF HftLayL HftOps HftClient HftFileFacts.
Ltac Zify.zify_post_hook ::= Z.div_mod_to_equations.

Lemma bind_inv {X Y} (x : res X) (f : X -> res Y) b : bind x f = Ok b -> exists a, x = Ok a /\ f a = Ok b.
Proof. destruct x; cbn [bind]; intros H; [exists a; auto|discriminate|discriminate]. Qed.

(** ** What no operation changes *)
Definition kept (m m' : list Z) : Prop := zlen m' = zlen m /\ (bytes_ok m -> bytes_ok m').
Lemma kept_trans a b c : kept a b -> kept b c -> kept a c.
Proof. intros (H1 & H2) (H3 & H4). split; [congruence|auto]. Qed.
Lemma store_kept n m p v m' : store n m p v = Ok m' -> kept m m'.
Proof.
  unfold store, in_bounds. destruct (Z.leb_spec 0 p); [|discriminate]. destruct (Z.leb_spec (p + Z.of_nat n) (zlen m)); [|discriminate].
  cbn [andb]. intros [= <-]. split; [apply zlen_wr|]. intros HB. apply bytes_ok_wr; auto.
Qed.
Ltac unbind H := let a := fresh "a" in let E := fresh "E" in apply bind_inv in H; destruct H as (a & E & H).
Lemma bytewrite_kept m p len v m' : bytewrite m p len v = Ok m' -> kept m m'.
Proof. unfold bytewrite. intros H. unbind H. unbind H. eapply store_kept; eauto. Qed.
Lemma bytewrite_inc_kept m p v m' : bytewrite_inc m p v = Ok m' -> kept m m'.
Proof. unfold bytewrite_inc. intros H. unbind H. eapply store_kept; eauto. Qed.
Lemma bitwrite_inc_kept sh m p f len v m' : bitwrite_inc sh m p f len v = Ok m' -> kept m m'.
Proof.
  unfold bitwrite_inc. intros H. unbind H. unbind H. unbind H. destruct ((f + len <=? 64) || (a1 =? 0)).
  - unbind H. eapply store_kept; eauto.
  - unbind H. unbind H. unbind H. unbind H. eapply kept_trans; eapply store_kept; eauto.
Qed.

Definition keeps (t t' : ftree) : Prop :=
  ft_lay t' = ft_lay t /\ ft_bound t' = ft_bound t /\ ft_size t' = ft_size t /\ ft_level t' = ft_level t /\ Forall2 kept (ft_arr t) (ft_arr t').
Lemma kept_refl l : Forall2 kept l l.
Proof. induction l; constructor; auto. split; auto. Qed.
Lemma keeps_refl t : keeps t t.
Proof. repeat split. apply kept_refl. Qed.
Lemma kept2_trans : forall a b c, Forall2 kept a b -> Forall2 kept b c -> Forall2 kept a c.
Proof. intros a b c H. revert c. induction H; intros c H2; inversion H2; subst; constructor; auto. eapply kept_trans; eauto. Qed.
Lemma keeps_trans a b c : keeps a b -> keeps b c -> keeps a c.
Proof. intros (A1 & A2 & A3 & A4 & A5) (B1 & B2 & B3 & B4 & B5). repeat split; try congruence. eapply kept2_trans; eauto. Qed.
Lemma keeps_with t k m : kept (arr t k) m -> keeps t (with_arr t k m).
Proof.
  intros H. repeat split. cbn [with_arr ft_arr]. unfold arr in H. revert k H. induction (ft_arr t) as [|x l IH]; intros k H; [destruct k; constructor|].
  destruct k as [|k]; cbn [upd_nat nth] in *; constructor; auto; [apply kept_refl|]. split; auto.
Qed.

Ltac done H := match type of H with Ok _ = Ok _ => injection H as <- end; apply keeps_with;
  eauto using store_kept, bytewrite_kept, bytewrite_inc_kept, bitwrite_inc_kept.
Ltac bumped H := unbind H; unbind H; done H.

Lemma node_add_keeps sh t i v t' : node_add sh t i v = Ok t' -> keeps t t'.
Proof.
  unfold node_add. intros H. destruct (ft_lay t).
  - bumped H.
  - unbind H. unbind H. unbind H. bumped H.
  - unbind H. done H.
  - unbind H. unbind H. unbind H. unbind H. done H.
  - destruct (u64 (u64 ((bound_size (ft_bound t) + 1) * u64 (i - 1)) + (bound_size (ft_bound t) + 1)) mod 64 =? 0); unbind H; unbind H; unbind H; done H.
  - unbind H. unbind H. unbind H. unbind H. done H.
  - unbind H. bumped H.
  - unbind H. unbind H. unbind H. bumped H.
Qed.
Lemma lset_keeps sh t h i v t' : lset sh t h i v = Ok t' -> keeps t t'.
Proof. unfold lset. intros H. unbind H. destruct (ft_lay t); unbind H; done H. Qed.
Lemma leaf_set_keeps sh t i v t' : leaf_set sh t i v = Ok t' -> keeps t t'.
Proof. unfold leaf_set. intros H. destruct (ft_lay t); try (unbind H; done H); try (unbind H; unbind H; done H). eapply node_add_keeps; eauto. Qed.
Lemma node_combine_keeps sh t i j t' : node_combine sh t i j = Ok t' -> keeps t t'.
Proof.
  unfold node_combine. intros H. destruct (ft_lay t); try (unbind H; eapply node_add_keeps; eassumption). unbind H. unbind H. unbind H. unbind H. done H.
Qed.
Lemma foldM_keeps {X} (f : ftree -> X -> res ftree) : (forall t x t', f t x = Ok t' -> keeps t t') -> forall l t t', foldM f l t = Ok t' -> keeps t t'.
Proof.
  intros Hf. induction l as [|x l IH]; intros t t' H; cbn [foldM] in H; [injection H as <-; apply keeps_refl|]. unbind H. eapply keeps_trans; [eapply Hf; eauto|]. apply IH. exact H.
Qed.
Lemma fill_level_keeps sh seq t l t' : fill_level sh seq t l = Ok t' -> keeps t t'.
Proof. unfold fill_level. apply foldM_keeps. intros u k u' H. unbind H. unbind H. eapply lset_keeps; eauto. Qed.
Lemma add_keeps sh fuel : forall t i v t', add_loop sh fuel t i v = Ok t' -> keeps t t'.
Proof.
  induction fuel as [|f IH]; intros t i v t' H; cbn [add_loop] in H; [discriminate|]. destruct (i <=? ft_size t); [|injection H as <-; apply keeps_refl].
  unbind H. eapply keeps_trans; [eapply node_add_keeps; eauto|]. eapply IH; eauto.
Qed.
Lemma pass_keeps {X} (x : res X) (f : X -> fout) (t : ftree) o t' : (let* a := x in Ok (f a, t)) = Ok (o, t') -> keeps t t'.
Proof. intros H. unbind H. injection H as _ <-. apply keeps_refl. Qed.
Lemma pass2_keeps {X Y} (x : res (X * Y)) (f : X -> Y -> fout) (t : ftree) o t' : (let* '(a, b) := x in Ok (f a b, t)) = Ok (o, t') -> keeps t t'.
Proof. intros H. unbind H. destruct a. injection H as _ <-. apply keeps_refl. Qed.
Lemma ft_add_keeps sh t i v t' : ft_add sh t i v = Ok t' -> keeps t t'.
Proof. unfold ft_add. apply add_keeps. Qed.
Lemma change_keeps (x : res ftree) (t : ftree) o t' : (forall u, x = Ok u -> keeps t u) -> (let* u := x in Ok (FDone, u)) = Ok (o, t') -> keeps t t'.
Proof. intros H1 H. unbind H. injection H as _ <-. auto. Qed.
Lemma step_keeps sh t p o t' : ft_step sh t p = Ok (o, t') -> keeps t t'.
Proof.
  destruct p; unfold ft_step.
  - apply pass_keeps.
  - apply change_keeps. apply ft_add_keeps.
  - apply pass2_keeps.
  - apply pass2_keeps.
  - intros H. injection H as _ <-. apply keeps_refl.
Qed.
Lemma runs_keeps sh : forall ops t o t', ft_runs sh t ops = Ok (o, t') -> keeps t t'.
Proof.
  induction ops as [|p ops IH]; intros t o t' H; cbn [ft_runs] in H; [injection H as _ <-; apply keeps_refl|]. unbind H. destruct a as (o1 & t1). unbind H. destruct a as (l & t2).
  injection H as _ <-. eapply keeps_trans; [eapply step_keeps; eauto|]. eapply IH; eauto.
Qed.

Lemma kept_ok : forall ws a b, Forall2 arr_ok ws a -> Forall2 kept a b -> Forall2 arr_ok ws b.
Proof.
  intros ws a b H. revert b. induction H as [|w x ws a HW _ IH]; intros b HK; inversion HK as [|? y ? ? (K1 & K2)]; subst; constructor; auto.
  destruct HW as (W1 & W2 & W3). split; [auto|]. rewrite K1. auto.
Qed.
Lemma keeps_saveable t t' : keeps t t' -> saveable t -> saveable t'.
Proof. intros (A1 & A2 & A3 & A4 & A5) (B1 & B2 & B3 & B4 & B5). unfold saveable. rewrite A1, A3, A4. repeat (split; [assumption|]). eapply kept_ok; eauto. Qed.

(** ** Trees just built *)
Lemma darray_ok w n L : 1 <= Z.of_nat w -> 0 <= n -> n * Z.of_nat w <= 2 ^ 63 -> L = n * Z.of_nat w -> arr_ok w (repeat 0 (Z.to_nat L)).
Proof.
  intros Hw Hn H ->. assert (0 <= n * Z.of_nat w) by nia. split; [|split].
  - intros k Hk. unfold zn. rewrite nth_repeat. lia.
  - unfold zlen. rewrite repeat_length. rewrite Z2Nat.id by lia. apply Z.mod_mul. lia.
  - unfold zlen. rewrite repeat_length. lia.
Qed.

Lemma f_bytes_bound lay B n : is_l lay = false -> fits lay B n -> 0 <= f_bytes lay B n <= 2 ^ 62 /\ (lay = FixedF -> f_bytes lay B n mod 8 = 0).
Proof.
  intros HL (HB & Hn & HW). rewrite (width_bs B HB) in HW. destruct (bound_size_ok B HB) as (_ & Hb & _). destruct lay; try discriminate HL.
  - rewrite f_bytes_fixedf by auto. lia.
  - split; [|intros X; discriminate X]. rewrite f_bytes_bytef by auto.
    assert (H8 : small_of (bound_size B) = 8 -> n / 2 ^ (8 * small_of (bound_size B) - bound_size B + 9) = 0) by (intros E; exact (proj2 (bp_large0 _ n n Hb HW ltac:(lia) E))).
    pose proof (bp_bound (bound_size B) n Hb Hn ltac:(lia) H8). lia.
  - split; [|intros X; discriminate X]. unfold f_bytes. rewrite fba_ok by lia. pose proof (fba_bound (bound_size B) n Hb Hn). rewrite wrap_small by lia. rewrite Z.shiftr_div_pow2 by lia. lia.
  - split; [|intros X; discriminate X]. unfold f_bytes. rewrite (wrap_small 64 (n + 1)) by lia. rewrite typef_pos_ok by lia. pose proof (tp_bound (bound_size B) (n + 1 - 1) Hb ltac:(lia)). lia.
Qed.

Lemma build_f_keeps sh lay B A n t : build_f sh lay B A n = Ok t ->
  keeps {| ft_lay := lay; ft_bound := B; ft_size := n; ft_level := []; ft_arr := [darray 1 (f_bytes lay B n)] |} t.
Proof.
  unfold build_f. intros H. unbind H. eapply keeps_trans; [|eapply foldM_keeps; [|exact H]].
  - eapply foldM_keeps; [|exact E]. intros u j u' Hu. unbind Hu. eapply leaf_set_keeps; eauto.
  - intros u e u' Hu. unfold combine_round in Hu. eapply foldM_keeps; [|exact Hu]. intros v k v' Hv. exact (node_combine_keeps _ _ _ _ _ Hv).
Qed.

Lemma build_f_saveable sh lay B A t : is_l lay = false -> fits lay B (zlen A) -> build_f sh lay B A (zlen A) = Ok t -> saveable t.
Proof.
  intros HL HF H. apply build_f_keeps in H. apply (keeps_saveable _ _ H). destruct (f_bytes_bound lay B (zlen A) HL HF) as (FB & F8). destruct HF as (_ & Hn & _).
  unfold saveable. cbn [ft_size ft_level ft_lay ft_arr]. split; [lia|]. split; [reflexivity|]. split; [constructor|]. split; [reflexivity|].
  assert (W1 : arr_ok 1 (darray 1 (f_bytes lay B (zlen A)))) by (apply (darray_ok 1 (f_bytes lay B (zlen A))); lia).
  destruct lay; try discriminate HL; cbn [elem_widths]; (apply Forall2_cons; [|apply Forall2_nil]); auto.
  apply (darray_ok 8 (f_bytes FixedF B (zlen A) / 8)); specialize (F8 eq_refl); lia.
Qed.

Lemma lvl_range u n : unit_ok u n -> 0 <= n <= 2 ^ 48 -> Forall (fun v => 0 <= v < 2 ^ 64) (lvl_l u n) /\ zlen (lvl_l u n) < 2 ^ 64.
Proof.
  intros Hu Hn. destruct (hts_range n Hn) as (HR & _). split.
  - unfold lvl_l. apply Forall_map, Forall_forall. intros h Hh. apply in_zrange in Hh. pose proof (Lv_bound u n h Hu Hn ltac:(lia)). lia.
  - unfold lvl_l. rewrite zlen_map. unfold zlen. rewrite length_zrange. lia.
Qed.

Lemma unit_fits lay B n : is_l lay = true -> lay <> TypeL -> fits lay B n -> unit_ok (level_unit lay (bound_size B)) n.
Proof.
  intros HL NT (HB & Hn & HW). rewrite (width_bs B HB) in HW. destruct (bound_size_ok B HB) as (_ & Hb & _). intros h Hh.
  assert (h <= Z.log2 n) by (unfold hts in Hh; destruct (Z.eqb_spec n 0); lia).
  destruct lay; try discriminate HL; try congruence; cbn [level_unit]; try rewrite heightsize_ok; lia.
Qed.

Lemma build_l_saveable sh lay B A t : is_l lay = true -> fits lay B (zlen A) -> build_l sh lay B A (zlen A) = Ok t -> saveable t.
Proof.
  intros HL HF H. pose proof HF as (HB & Hn & HW). rewrite (width_bs B HB) in HW. destruct (bound_size_ok B HB) as (_ & Hb & _). destruct (hts_range (zlen A) Hn) as (HR & _).
  unfold build_l in H. rewrite levels_of_ok in H by auto. cbn [bind] in H. replace (hts (zlen A) + 1 - 1) with (hts (zlen A)) in H by lia.
  assert (D : lay = TypeL \/ lay <> TypeL) by (destruct lay; auto; right; discriminate). destruct D as [-> | NT].
  - destruct (typel_table_ok (bound_size B) (zlen A) Hn Hb) as (j & E). rewrite E in H. cbn [bind] in H. rewrite typel_arrays_ok in H by (auto; lia).
    apply foldM_keeps in H; [|intros u l u' Hu; eapply fill_level_keeps; eauto]. apply (keeps_saveable _ _ H). unfold saveable. cbn [ft_size ft_level ft_lay ft_arr is_l elem_widths].
    assert (LB : Forall (fun v => 0 <= v < 2 ^ 64) (lvl_t (bound_size B) (zlen A)) /\ zlen (lvl_t (bound_size B) (zlen A)) < 2 ^ 64).
    { split; [|unfold lvl_t; rewrite zlen_map; unfold zlen; rewrite length_zrange; fold (zlen A); lia].
      unfold lvl_t. apply Forall_map, Forall_forall. intros h Hh. apply in_zrange in Hh. unfold Lt. pose proof (En_bound (bound_size B) (zlen A) (cz (bound_size B) h) h Hn ltac:(lia)). lia. }
    split; [lia|]. split; [apply LB|]. split; [apply LB|]. split; [discriminate|].
    pose proof (fun e => En_bound (bound_size B) (zlen A) e (hts (zlen A)) Hn ltac:(lia)) as EB. pose proof (EB 0). pose proof (EB 1). pose proof (EB 2).
    repeat (apply Forall2_cons; [|]); try apply Forall2_nil; (apply (darray_ok 1 (En (bound_size B) (zlen A) 0 (hts (zlen A)))) || apply (darray_ok 2 (En (bound_size B) (zlen A) 1 (hts (zlen A)))) || apply (darray_ok 8 (En (bound_size B) (zlen A) 2 (hts (zlen A))))); lia.
  - pose proof (unit_fits lay B (zlen A) HL NT HF) as HU. set (u := level_unit lay (bound_size B)) in *. set (last := Lv u (zlen A) (hts (zlen A))).
    pose proof (Lv_bound u (zlen A) (hts (zlen A)) HU Hn ltac:(lia)) as LB. fold last in LB. destruct (lvl_range u (zlen A) HU Hn) as (R1 & R2).
    assert (X : (let* level := level_table lay (bound_size B) (zlen A) (hts (zlen A) + 1) in let* last := geti level (hts (zlen A)) in
        Ok (level, [match lay with ByteL => darray 1 (u64 (last + 8)) | BitL => darray 1 (Z.shiftr last 3 + 8) | _ => darray 8 last end], hts (zlen A))) =
        Ok (lvl_l u (zlen A), [match lay with ByteL => darray 1 (u64 (last + 8)) | BitL => darray 1 (Z.shiftr last 3 + 8) | _ => darray 8 last end], hts (zlen A))).
    { rewrite level_table_ok by auto. fold u. cbn [bind]. rewrite geti_lvl by (auto; lia). reflexivity. }
    assert (H2 : exists k, foldM (fill_level sh A) (zrange 0 k) {| ft_lay := lay; ft_bound := B; ft_size := zlen A; ft_level := lvl_l u (zlen A);
        ft_arr := [match lay with ByteL => darray 1 (u64 (last + 8)) | BitL => darray 1 (Z.shiftr last 3 + 8) | _ => darray 8 last end] |} = Ok t).
    { destruct lay; try discriminate HL; try congruence; rewrite X in H; cbn [bind] in H; eexists; exact H. }
    clear H X. destruct H2 as (k & H). apply foldM_keeps in H; [|intros v l v' Hv; eapply fill_level_keeps; eauto]. apply (keeps_saveable _ _ H). unfold saveable. cbn [ft_size ft_level ft_lay ft_arr].
    split; [lia|]. split; [exact R2|]. split; [exact R1|]. split; [congruence|].
    destruct lay; try discriminate HL; try congruence; cbn [elem_widths]; (apply Forall2_cons; [|apply Forall2_nil]).
    + apply (darray_ok 8 last); lia.
    + rewrite wrap_small by lia. apply (darray_ok 1 (last + 8)); lia.
    + rewrite Z.shiftr_div_pow2 by lia. apply (darray_ok 1 (last / 2 ^ 3 + 8)); lia.
Qed.

Lemma build_saveable sh lay B A t : fits lay B (zlen A) -> ft_build sh lay B A = Ok t -> saveable t.
Proof.
  unfold ft_build. intros HF H. destruct (is_l lay) eqn:Q; [eapply build_l_saveable; eauto|eapply build_f_saveable; eauto].
Qed.
Lemma build_class sh lay B A t : ft_build sh lay B A = Ok t -> ft_lay t = lay /\ ft_bound t = B /\ ft_size t = zlen A.
Proof.
  unfold ft_build. intros H. destruct (is_l lay) eqn:Q.
  - unfold build_l in H. unbind H. unbind H. destruct a0 as ((lv & ar) & tp). apply foldM_keeps in H; [|intros v l v' Hv; eapply fill_level_keeps; eauto]. destruct H as (K1 & K2 & K3 & _). auto.
  - apply build_f_keeps in H. destruct H as (K1 & K2 & K3 & _). auto.
Qed.

(** ** Clients *)
Lemma run_runs sh : forall ops t outs, ft_run sh t ops = Ok outs <-> exists t', ft_runs sh t ops = Ok (outs, t').
Proof.
  induction ops as [|p ops IH]; intros t outs.
  - cbn [ft_run ft_runs]. split; [intros [= <-]; eauto|intros (t' & [= <- _]); reflexivity].
  - cbn [ft_run ft_runs]. destruct (ft_step sh t p) as [(o & t1)| |]; cbn [bind]; [|split; [discriminate|intros (? & H); discriminate]..].
    specialize (IH t1). split.
    + intros H. unbind H. injection H as <-. apply IH in E. destruct E as (t' & E). rewrite E. cbn [bind]. eauto.
    + intros (t' & H). unbind H. destruct a as (l & t2). injection H as <- <-. rewrite (proj2 (IH l)) by eauto. reflexivity.
Qed.
Lemma runs_app sh : forall ops ops2 t o t', ft_runs sh t (ops ++ ops2) = Ok (o, t') <->
  exists o1 t1 o2, ft_runs sh t ops = Ok (o1, t1) /\ ft_runs sh t1 ops2 = Ok (o2, t') /\ o = o1 ++ o2.
Proof.
  induction ops as [|p ops IH]; intros ops2 t o t'.
  - cbn [app ft_runs]. split; [intros H; exists [], t, o; auto|intros (o1 & t1 & o2 & [= <- <-] & H & ->); exact H].
  - cbn [app ft_runs]. destruct (ft_step sh t p) as [(o0 & t0)| |]; cbn [bind]; [|split; [discriminate|intros (? & ? & ? & H & _); discriminate]..]. split.
    + intros H. unbind H. destruct a as (l & t2). injection H as <- <-. apply IH in E. destruct E as (o1 & t1 & o2 & E1 & E2 & ->). exists (o0 :: o1), t1, o2. rewrite E1. cbn [bind app]. auto.
    + intros (o1 & t1 & o2 & H & H2 & ->). unbind H. destruct a as (l & t2). injection H as <- <-. rewrite (proj2 (IH ops2 t0 (l ++ o2) t')); [reflexivity|]. do 3 eexists. split; [eassumption|]. split; [eassumption|reflexivity].
Qed.

Lemma file_client sh lay B A ops A2 rest ops2 : can_load lay = true -> fits lay B (zlen A) -> fits lay B (zlen A2) -> (lay = BitL -> sh = true) ->
  elems_ok B A -> elems_ok B A2 -> fops_ok B A (ops ++ ops2) -> (searches (ops ++ ops2) -> can_search lay B (zlen A)) ->
  exists o o2, ft_file_client sh lay B A ops A2 rest ops2 = Ok (o, o2, stream rest) /\ fanswers B A (ops ++ ops2) (o ++ o2).
Proof.
  intros _ HF HF2 Hsh HA HA2 HO HS. destruct (client_ok sh lay B A (ops ++ ops2) HF Hsh HA HO HS) as (outs & HC & HAN). unfold ft_client in HC. unbind HC.
  destruct (client_ok sh lay B A2 [] HF2 Hsh HA2 I ltac:(intros (v & [[]|[]]))) as (outs2 & HC2 & _). unfold ft_client in HC2. unbind HC2.
  apply run_runs in HC. destruct HC as (t' & HC). apply runs_app in HC. destruct HC as (o1 & t1 & o2 & H1 & H2 & ->). exists o1, o2. split; [|exact HAN].
  unfold ft_file_client. rewrite E. cbn [bind]. rewrite H1. cbn [bind]. rewrite E0. cbn [bind]. pose proof (runs_keeps _ _ _ _ _ H1) as K.
  pose proof (build_class _ _ _ _ _ E) as (C1 & C2 & _). pose proof (build_class _ _ _ _ _ E0) as (D1 & D2 & _). pose proof K as (K1 & K2 & _).
  rewrite load_save; [|exact (keeps_saveable _ _ K (build_saveable _ _ _ _ _ HF E))|congruence|congruence]. cbn [bind]. rewrite H2. reflexivity.
Qed.
