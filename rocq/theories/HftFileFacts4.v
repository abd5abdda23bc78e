(** Lemmas about HftFile.v: the trees of a hybrid. *)
From Coq Require Import ZifyBool.
From Verif Require Import Base BaseFacts Mem SpecHft Hft HftHybrid SpecHftFile HftFile HftFileFacts HftFileFacts2 HftFileFacts3.
Ltac Zify.zify_post_hook ::= Z.div_mod_to_equations.

Lemma state_add sh lay B t i inc t' : ft_state sh lay B t -> ft_add sh t i inc = Ok t' -> ft_state sh lay B t'.
Proof.
  intros (A & ops & o & t0 & HF & HB & HR) H. exists A, (ops ++ [FAdd i inc]), (o ++ [FDone]), t0. split; [exact HF|]. split; [exact HB|].
  apply runs_app. exists o, t, [FDone]. split; [exact HR|]. split; [|reflexivity]. cbn [ft_runs ft_step]. rewrite H. reflexivity.
Qed.
Lemma state_built sh lay B A t : fits lay B (zlen A) -> ft_build sh lay B A = Ok t -> ft_state sh lay B t.
Proof. intros HF HB. exists A, [], [], t. auto. Qed.

Definition hy_good (sh : bool) (top bot : layout) (B cut n : Z) (h : hybrid) : Prop :=
  ft_state sh top (B * 2 ^ cut) (hy_top h) /\ Forall (ft_state sh bot B) (hy_bots h) /\ zlen (hy_bots h) = n / 2 ^ cut + 1 /\ hy_size h = n.

Lemma forall_upd {X} (P : X -> Prop) : forall l n v, Forall P l -> P v -> Forall P (upd_nat l n v).
Proof. induction l as [|x l IH]; intros n v H HV; destruct n; cbn [upd_nat]; inversion H; subst; auto. Qed.
Lemma length_upd {X} : forall (l : list X) n v, length (upd_nat l n v) = length l.
Proof. induction l as [|x l IH]; intros n v; destruct n; cbn [upd_nat length]; auto. Qed.
Lemma getb_in l i b : getb l i = Ok b -> In b l.
Proof. unfold getb. destruct (i <? 0); [discriminate|]. destruct (nth_error l (Z.to_nat i)) eqn:E; [|discriminate]. intros [= <-]. eapply nth_error_In; eauto. Qed.

Lemma step_good sh top bot B cut n h p o h' : hy_good sh top bot B cut n h -> hy_step sh h p = Ok (o, h') -> hy_good sh top bot B cut n h'.
Proof.
  intros G H. destruct p; cbn [hy_step] in H.
  - unbind H. injection H as <- <-. exact G.
  - unbind H. injection H as <- <-. destruct G as (G1 & G2 & G3 & G4). unfold hy_add in E. destruct (Z.land _ _ =? 0).
    + unbind E. injection E as <-. unfold hy_good. cbn [hy_top hy_bots hy_size]. split; [eapply state_add; eauto|auto].
    + unbind E. unbind E. unbind E. injection E as <-. unfold hy_good. cbn [hy_top hy_bots hy_size]. split; [eapply state_add; eauto|]. apply getb_in in E1.
      split; [|split; [unfold zlen in *; rewrite length_upd; exact G3|exact G4]]. apply forall_upd; [exact G2|]. rewrite Forall_forall in G2. eapply state_add; [apply G2; exact E1|eassumption].
  - unbind H. destruct a. injection H as <- <-. exact G.
  - unbind H. destruct a. injection H as <- <-. exact G.
  - injection H as <- <-. exact G.
Qed.
Lemma runs_good sh top bot B cut n : forall ops h o h', hy_good sh top bot B cut n h -> hy_runs sh h ops = Ok (o, h') -> hy_good sh top bot B cut n h'.
Proof.
  induction ops as [|p ops IH]; intros h o h' G H; cbn [hy_runs] in H; [injection H as <- <-; exact G|]. unbind H. destruct a as (o1 & h1). unbind H. destruct a as (l & h2). injection H as <- <-.
  eapply IH; [|eassumption]. eapply step_good; eauto.
Qed.

Lemma fits_less lay B n m : fits lay B n -> 0 <= m <= n -> fits lay B m.
Proof.
  intros (H1 & H2 & H3) H. assert (Z.log2 m <= Z.log2 n) by (apply Z.log2_le_mono; lia). unfold fits. split; [lia|]. split; [lia|]. destruct lay; lia.
Qed.

Lemma build_good sh top bot B cut A h : hybrid_fits top bot B cut (zlen A) -> hy_build sh top bot B cut A = Ok h -> hy_good sh top bot B cut (zlen A) h.
Proof.
  intros (H1 & H2 & H3 & H4 & H5) H. assert (P : 0 < 2 ^ cut) by (apply Z.pow_pos_nonneg; lia). assert (Q : 0 <= zlen A / 2 ^ cut) by (apply Z.div_pos; lia).
  unfold hy_build in H. unbind H. unbind H. unbind H. injection H as <-. unfold hy_good. cbn [hy_top hy_bots hy_size].
  unfold build_top in E. unbind E. replace (top_bound B cut) with (B * 2 ^ cut) in E.
  2:{ unfold top_bound, u64, wrap. rewrite Z.mod_small; [reflexivity|]. destruct H4 as (H4 & _). lia. }
  assert (ES : zlen a2 = zlen A / 2 ^ cut).
  { match type of E2 with foldM ?f _ _ = _ => assert (G : forall r acc l, foldM f r acc = Ok l -> zlen l = zlen acc + zlen r) end.
    { clear. induction r as [|i r IH]; intros acc l H; cbn [foldM] in H; [injection H as <-; unfold zlen; cbn; lia|]. unbind H. apply IH in H. unbind E. injection E as <-.
      unfold zlen in *. rewrite app_length in H. cbn [length] in *. lia. }
    rewrite (G _ _ _ E2). unfold zlen at 2. rewrite length_zrange. rewrite Z.shiftr_div_pow2 by lia. change (zlen []) with 0. rewrite Z2Nat.id by lia. lia. }
  pose proof (build_class _ _ _ _ _ E) as (_ & _ & SZ). rewrite SZ, ES in *.
  split; [|split; [|split; [exact (build_bots_len _ _ _ _ _ _ _ E0 Q)|reflexivity]]].
  - assert (S0 : ft_state sh top (B * 2 ^ cut) a) by (eapply state_built; [rewrite ES; exact H4|exact E]). revert S0 E1. clear.
    generalize (zrange 0 (Z.to_nat (zlen A / 2 ^ cut))). intros r. revert a. induction r as [|i r IH]; intros a S0 H; cbn [foldM] in H; [injection H as <-; exact S0|].
    unbind H. unbind E. unbind E. eapply IH; [|eassumption]. eapply state_add; eauto.
  - unfold build_bots in E0.
    match type of E0 with foldM ?f ?r0 _ = _ => assert (G : forall r acc l, Forall (ft_state sh bot B) acc -> foldM f r acc = Ok l -> Forall (ft_state sh bot B) l); [|exact (G r0 [] _ (Forall_nil _) E0)] end.
    clear E0. intros r. induction r as [|i r IH]; intros acc l G H; cbn [foldM] in H; [injection H as <-; exact G|].
    unbind H. refine (IH _ _ _ H). unbind E0. unbind E0. injection E0 as <-. apply Forall_app. split; [exact G|]. constructor; [|constructor]. eapply state_built; [|eassumption].
    apply (fits_less _ _ _ _ H5). unfold slice in E3. destruct (_ && _) eqn:C in E3; [|discriminate]. apply (f_equal (fun x => match x with Ok v => zlen v | _ => 0 end)) in E3. rewrite <- E3.
    split; [apply Zle_0_nat|]. unfold zlen at 1. rewrite firstn_length, skipn_length. apply andb_prop in C. destruct C as (C1 & C2). apply Z.leb_le in C1, C2. unfold bottom_size in *.
    assert (0 <= Z.land (zlen A) (2 ^ cut - 1) <= 2 ^ cut - 1).
    { rewrite <- (Z.ones_equiv cut) at 1 || idtac. replace (2 ^ cut - 1) with (Z.ones cut) by (rewrite Z.ones_equiv; lia). rewrite Z.land_ones by lia. pose proof (Z.mod_pos_bound (zlen A) (2 ^ cut) P). rewrite Z.ones_equiv. lia. }
    match goal with |- context [if ?b then _ else _] => destruct b end; unfold zlen in *; lia.
Qed.
Lemma state_good sh top bot B cut h : hy_state sh top bot B cut h -> exists n, hybrid_fits top bot B cut n /\ hy_good sh top bot B cut n h.
Proof. intros (A & ops & o & h0 & HF & HB & HR). exists (zlen A). split; [exact HF|]. eapply runs_good; [|exact HR]. apply build_good; auto. Qed.

Lemma hybrid_save sh top bot B cut h : hy_state sh top bot B cut h -> hy_size h / 2 ^ cut < 2 ^ 32 - 1 -> hy_save h = Ub UB_bounds.
Proof.
  intros H HN. destruct (state_good _ _ _ _ _ _ H) as (n & HF & _ & _ & HL & HS). apply hybrid_write. rewrite HL. rewrite HS in HN. destruct HF as (H1 & H2 & _).
  assert (0 <= n / 2 ^ cut) by (apply Z.div_pos; [lia|apply Z.pow_pos_nonneg; lia]). lia.
Qed.
Lemma hybrid_bit_count sh top bot B cut h : hy_state sh top bot B cut h ->
  hy_bits bot h = (hybrid_bits (bits_of (hy_top h)) (map bits_of (hy_bots h)) + 112 * (zlen (elem_widths top) + zlen (hy_bots h) * zlen (elem_widths bot)) + object_bytes bot - 336) mod 2 ^ 64.
Proof. intros H. destruct (state_good _ _ _ _ _ _ H) as (n & _ & H1 & H2 & _). eapply hybrid_bits_eq; eauto. Qed.
