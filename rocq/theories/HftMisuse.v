(** What no call changes, and the calls that never return. *)
From Coq Require Import ZifyBool.
From Verif Require Import Base BaseFacts Mem MemFacts SpecHft Hft HftFacts HftLayF HftOps HftClient HftLimits.

Definition same (t t' : ftree) : Prop := ft_lay t' = ft_lay t /\ ft_bound t' = ft_bound t /\ ft_size t' = ft_size t.
Lemma same_refl t : same t t. Proof. repeat split. Qed.
Lemma same_trans a b c : same a b -> same b c -> same a c.
Proof. unfold same. intuition congruence. Qed.
Lemma same_with t k m : same t (with_arr t k m). Proof. repeat split. Qed.

Lemma bindM_inv {A B} (e : res A) (f : A -> res B) b : bind e f = Ok b -> exists a, e = Ok a /\ f a = Ok b.
Proof. destruct e; cbn [bind]; intros H; try discriminate. eauto. Qed.
Ltac ibind := repeat match goal with
  | H : bind _ _ = Ok _ |- _ => apply bindM_inv in H; destruct H as (? & ? & H)
  | H : Ok _ = Ok _ |- _ => inversion H; clear H; subst
  | H : (let '(_, _) := ?x in _) = Ok _ |- _ => destruct x
  | H : (match ?x with Ok _ => _ | Ub _ => _ | AssertFail => _ end) = Ok _ |- _ => destruct x eqn:?; try discriminate
  end.

Lemma node_add_same sh t i d t' : node_add sh t i d = Ok t' -> same t t'.
Proof. unfold node_add. destruct (ft_lay t); cbn zeta; intros H; ibind; apply same_with. Qed.
Lemma leaf_set_same sh t i v t' : leaf_set sh t i v = Ok t' -> same t t'.
Proof. unfold leaf_set. destruct (ft_lay t); cbn zeta; intros H; try (eapply node_add_same; exact H); ibind; apply same_with. Qed.
Lemma node_combine_same sh t i o t' : node_combine sh t i o = Ok t' -> same t t'.
Proof. unfold node_combine. destruct (ft_lay t); cbn zeta; intros H; ibind; try (eapply node_add_same; eassumption); apply same_with. Qed.
Lemma lset_same sh t h i v t' : lset sh t h i v = Ok t' -> same t t'.
Proof. unfold lset. destruct (ft_lay t); cbn zeta; intros H; ibind; apply same_with. Qed.

Lemma fold_same {A} (f : ftree -> A -> res ftree) l : (forall s a s', f s a = Ok s' -> same s s') -> forall s s', foldM f l s = Ok s' -> same s s'.
Proof.
  intros Hf. induction l as [|a l IH]; cbn [foldM]; intros s s' H; [inversion H; apply same_refl|].
  apply bindM_inv in H. destruct H as (s1 & H1 & H2). eapply same_trans; eauto.
Qed.

Lemma build_same sh lay B A t : ft_build sh lay B A = Ok t -> ft_lay t = lay /\ ft_bound t = B /\ ft_size t = zlen A.
Proof.
  unfold ft_build. destruct (is_l lay).
  - unfold build_l. cbn zeta. intros H. apply bindM_inv in H. destruct H as (lv & _ & H). apply bindM_inv in H. destruct H as (((l & a) & top) & _ & H).
    apply fold_same in H; [exact H|]. intros s h s'. unfold fill_level. cbn zeta. apply fold_same. intros u k u' E. ibind. eapply lset_same; eauto.
  - unfold build_f. cbn zeta. intros H. apply bindM_inv in H. destruct H as (t1 & H1 & H2).
    apply fold_same in H1; [|intros s j s' E; ibind; eapply leaf_set_same; eauto].
    apply fold_same in H2; [exact (same_trans _ _ _ H1 H2)|]. intros s e s'. unfold combine_round. apply fold_same. intros u k u' E. eapply node_combine_same; eauto.
Qed.

Lemma add_same sh : forall fuel t i d t', add_loop sh fuel t i d = Ok t' -> same t t'.
Proof.
  induction fuel as [|f IH]; cbn [add_loop]; intros t i d t' H; [discriminate|]. destruct (i <=? ft_size t); [|inversion H; apply same_refl].
  apply bindM_inv in H. destruct H as (t1 & H1 & H2). eapply same_trans; [eapply node_add_same; eauto|eauto].
Qed.
Lemma ft_add_same sh t i d t' : ft_add sh t i d = Ok t' -> same t t'.
Proof. unfold ft_add. generalize 65%nat. intros f. apply add_same. Qed.
Lemma step_same sh t p o t' : ft_step sh t p = Ok (o, t') -> same t t'.
Proof.
  unfold ft_step. destruct p.
  - destruct (ft_prefix t i); cbn [bind]; intros H; inversion H. apply same_refl.
  - destruct (ft_add sh t i inc) as [t1| |] eqn:E; cbn [bind]; intros H; inversion H. subst. eapply ft_add_same. exact E.
  - destruct (ft_find false t v) as [[]| |]; cbn [bind]; intros H; inversion H. apply same_refl.
  - destruct (ft_find true t v) as [[]| |]; cbn [bind]; intros H; inversion H. apply same_refl.
  - intros H. inversion H. apply same_refl.
Qed.

(** A call that cannot return on any tree of this kind returns in no client. *)
Lemma run_never sh p (Q : ftree -> Prop) : (forall t t', same t t' -> Q t -> Q t') -> (forall t r, Q t -> ft_step sh t p <> Ok r) ->
  forall ops t outs, Q t -> In p ops -> ft_run sh t ops <> Ok outs.
Proof.
  intros HQ HN. induction ops as [|q r IH]; intros t outs Ht HI; [destruct HI|]. cbn [ft_run]. intros H.
  apply bindM_inv in H. destruct H as ((o & t1) & H1 & H2). apply bindM_inv in H2. destruct H2 as (l & H2 & _). destruct HI as [->|HI].
  - eapply HN; eauto.
  - eapply (IH t1); eauto. eapply HQ; [eapply step_same; eauto|exact Ht].
Qed.
Lemma client_never sh lay B A p (Q : ftree -> Prop) : (forall t t', same t t' -> Q t -> Q t') -> (forall t r, Q t -> ft_step sh t p <> Ok r) ->
  (forall t, ft_lay t = lay -> ft_bound t = B -> ft_size t = zlen A -> Q t) -> forall ops outs, In p ops -> ft_client sh lay B A ops <> Ok outs.
Proof.
  intros H1 H2 H3 ops outs HI H. unfold ft_client in H. apply bindM_inv in H. destruct H as (t & E & H).
  destruct (build_same _ _ _ _ _ E) as (E1 & E2 & E3). eapply (run_never sh p Q); eauto.
Qed.

Lemma step_add sh t i inc r : ft_step sh t (FAdd i inc) = Ok r -> exists t', ft_add sh t i inc = Ok t'.
Proof. unfold ft_step. destruct (ft_add sh t i inc) as [t'| |]; cbn [bind]; intros H; try discriminate. eauto. Qed.
Lemma step_prefix sh t i r : ft_step sh t (FPrefix i) = Ok r -> exists x, ft_prefix t i = Ok x.
Proof. unfold ft_step. destruct (ft_prefix t i) as [t'| |]; cbn [bind]; intros H; try discriminate. eauto. Qed.
Lemma ft_add_zero sh t inc r : 0 <= ft_size t -> ft_add sh t 0 inc <> Ok r.
Proof. unfold ft_add. generalize 65%nat. intros f. apply add_zero. Qed.

Lemma add_zero_never sh lay B A inc ops outs : In (FAdd 0 inc) ops -> ft_client sh lay B A ops <> Ok outs.
Proof.
  apply (client_never sh lay B A (FAdd 0 inc) (fun t => 0 <= ft_size t)).
  - intros t t' (_ & _ & E). rewrite E. auto.
  - intros t r Ht H. apply step_add in H. destruct H as (t' & E). exact (ft_add_zero _ _ _ _ Ht E).
  - intros t _ _ E. rewrite E. apply zlen_nonneg.
Qed.

Lemma empty_search_never sh lay B v p ops outs : is_l lay = false -> p = FFind v \/ p = FCompFind v -> In p ops -> ft_client sh lay B [] ops <> Ok outs.
Proof.
  intros HL HP. apply (client_never sh lay B [] p (fun t => is_l (ft_lay t) = false /\ ft_size t = 0)).
  - intros t t' (E1 & _ & E3). rewrite E1, E3. auto.
  - intros t r (H1 & H2). destruct HP as [->| ->]; cbn [ft_step]; unfold ft_find; rewrite H1, H2; discriminate.
  - intros t E1 _ E3. rewrite E1, E3. auto.
Qed.

Lemma bitf_shift_never sh B A ops outs : 0 <= B < 2 ^ 64 -> In (FPrefix (2 ^ (64 - width B))) ops -> ft_client sh BitF B A ops <> Ok outs.
Proof.
  intros HB. apply (client_never sh BitF B A _ (fun t => ft_lay t = BitF /\ ft_bound t = B)).
  - intros t t' (E1 & E2 & _). rewrite E1, E2. auto.
  - intros t r (H1 & H2) H. apply step_prefix in H. destruct H as (x & H). rewrite (width_bs B HB), <- H2, bitf_shift in H; [discriminate|exact H1|].
    rewrite H2. apply (bound_size_ok B HB).
  - auto.
Qed.

(** Everything that is not UB in a build of BitL starts with an empty input. *)
Lemma bitl_never B A ops outs : fits BitL B (zlen A) -> A <> [] -> ft_client false BitL B A ops <> Ok outs.
Proof. intros HF HA. unfold ft_client. rewrite (bitl_shift B A HF HA). discriminate. Qed.

(** What a search beyond the total returns. *)
Lemma find_beyond sh lay B A v : fits lay B (zlen A) -> (lay = BitL -> sh = true) -> elems_ok B A -> can_search lay B (zlen A) ->
  seq_sum A (zlen A) <= v < 2 ^ 64 -> ft_client sh lay B A [FFind v] = Ok [FPair (zlen A) (v - seq_sum A (zlen A))].
Proof.
  intros HF Hsh HE HC Hv. assert (P0 : 0 <= seq_sum A (zlen A)).
  { unfold seq_sum, zlen. rewrite Nat2Z.id, firstn_all. clear - HE. induction HE; cbn [fold_right]; lia. }
  destruct (client_ok sh lay B A [FFind v]) as (outs & E & F); auto; [split; [cbn; lia|exact I]|].
  destruct outs as [|[|k rest|] [|]]; cbn [fanswers fop_answer] in F; try tauto. rewrite E. destruct F as ((H1 & H2 & H3 & H4) & _).
  assert (k = zlen A) as ->; [|congruence]. destruct (Z.eq_dec k (zlen A)); [auto|]. specialize (H4 (zlen A) ltac:(lia)). lia.
Qed.
