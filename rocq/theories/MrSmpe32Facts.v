(** A pass over the text of the build of SelectMPE32. *)
From Coq Require Import ZifyBool.
From Verif Require Import Base BaseFacts Mem MemFacts Words WordFacts BlockFacts NodeFacts Trees TreeBuild Spec BitmapFacts KernelFacts SpecPoppy PoppyFacts PoppyFacts2 SpecText MrRank MrRankFacts MrSelect MrSelectFacts MrSelectFacts2 MrSelectFacts3 MrMpe MrSmpe MrSmpeFacts MrSmpe32.
Ltac Zify.zify_post_hook ::= Z.div_mod_to_equations.

Lemma small58 (t : list Z) : zlen t < 2 ^ 29 -> zlen t < 2 ^ 58.
Proof. lia. Qed.

Lemma next3_ok32 {S} (p : pass S) L T t Bad J Fin c st : 1 <= L < T -> text_ok t -> zlen t < 2 ^ 29 -> good_pass p L T t Bad J Fin -> 0 <= c -> c + 1 < nbk L t ->
  run3 L T t J c (SS L t (c + 1) - 1) st ->
  (exists st', next3_32 p L T st = Ok st' /\ run3 L T t J (c + 1) (SS L t (c + 1)) st') \/ (next3_32 p L T st = Ub UB_bounds /\ Bad).
Proof.
  intros HL H Hl (G0 & _ & G2 & _) Hc Hn R. assert (F : fullb L t c = true) by (apply full_iff; lia). unfold next3_32.
  destruct (flush3_ok L T t J c st HL ltac:(lia) F R) as (cont & n & -> & Hd). cbn [bind]. rewrite (is_dense_ok L T t J c _ st R).
  destruct R as (R1 & R2 & R3 & R4 & R5 & _). rewrite R3, R5. replace (2 * c + 2) with (2 * (c + 1)) by lia.
  rewrite seen_full in R1 by (auto; lia).
  destruct (G2 c (z_out st) cont n Hc Hn Hd R1) as [(out & -> & J1)|[-> B]]; cbn [bind]; [left|right; auto].
  destruct (G0 (c + 1) 0 out ltac:(lia) J1 (c + 1) ltac:(lia)) as [A1 A2]. destruct (G0 (c + 1) 0 out ltac:(lia) J1 (c + 1 + 1) ltac:(lia)) as [B1 B2].
  replace (2 * (c + 1) + 2) with (2 * (c + 1 + 1)) by lia. rewrite !geti_ok by lia. cbn [bind]. rewrite A2, B2. rewrite raw_diff by lia. replace (c + 1 =? 0) with false by lia.
  pose proof (DD_pos L t (c + 1) ltac:(lia) ltac:(lia)). pose proof (DD_le L t (c + 1) ltac:(lia) ltac:(lia)). rewrite wrap_small by lia.
  rewrite raw_pos by lia. eexists. split; [reflexivity|]. apply enter3_run; [exact J1|]. apply Hd.
Qed.

Lemma step3_ok32 {S} (p : pass S) L T t Bad J Fin q st : 1 <= L < T -> text_ok t -> zlen t < 2 ^ 29 -> good_pass p L T t Bad J Fin ->
  0 <= q < 8 * zlen t -> scanP L T t J Fin q st ->
  (exists st', step3_32 p L T t (K t) (2 * nbk L t) st q = Ok st' /\ scanP L T t J Fin (q + 1) st') \/
  (step3_32 p L T t (K t) (2 * nbk L t) st q = Ub UB_bounds /\ Bad).
Proof.
  intros HL H Hl G Hq [(c & Hc & Hs & R)|[Hs Fi]]; unfold step3_32.
  - assert (R' := R). destruct R' as (R1 & R2 & R3 & R4 & R5 & R6 & R7 & R8 & _). rewrite R8, R4, R3. rewrite (wrap_small 32 q) by lia. destruct (q =? SS L t (c + 1) - 1) eqn:EQ.
    + assert (q = SS L t (c + 1) - 1) by lia. subst q. destruct (2 * c + 2 =? 2 * nbk L t) eqn:EN.
      * destruct (last3_ok p L T t Bad J Fin c st HL H (small58 t Hl) G ltac:(lia) ltac:(lia) R) as [(st' & E & Fi)|X]; [left|auto].
        exists st'. split; [exact E|]. right. split; [|exact Fi]. replace (nbk L t) with (c + 1) by lia. lia.
      * destruct (next3_ok32 p L T t Bad J Fin c st HL H Hl G ltac:(lia) ltac:(lia) R) as [(st' & E & R'')|X]; [left|auto].
        exists st'. split; [exact E|]. left. exists (c + 1). replace (SS L t (c + 1) - 1 + 1) with (SS L t (c + 1)) by lia.
        pose proof (SS_step L t (c + 1) ltac:(lia) ltac:(lia)). split; [lia|]. split; [lia|]. exact R''.
    + destruct (inner3_ok p L T t Bad J Fin c q st HL H (small58 t Hl) G Hc ltac:(lia) R) as [(st' & E & R'')|X]; [left|auto].
      exists st'. split; [exact E|]. left. exists c. split; [lia|]. split; [lia|]. exact R''.
  - left. assert (F' := Fi). destruct F' as (D & _). rewrite D. exists st. split; [reflexivity|]. right. split; [lia|exact Fi].
Qed.

(** A whole pass. *)
Lemma scan_all_ok32 {S} (p : pass S) L T t Bad J Fin cont out : 1 <= L < T -> text_ok t -> zlen t < 2 ^ 29 -> good_pass p L T t Bad J Fin -> 1 <= K t ->
  zlen cont = T / 8 + 1 -> J 0 0 out ->
  (exists st, scan_all32 p L T t (K t) (2 * nbk L t) cont out = Ok st /\ Fin (z_out st) /\ z_sc st = 2 * nbk L t /\ zlen (z_cont st) = T / 8 + 1) \/
  (scan_all32 p L T t (K t) (2 * nbk L t) cont out = Ub UB_bounds /\ Bad).
Proof.
  intros HL H Hl G HK ZC J0. unfold scan_all32. assert (N1 : 0 < nbk L t) by (apply blk_lt; lia). destruct G as [G0 G'].
  destruct (G0 0 0 out ltac:(lia) J0 1 ltac:(lia)) as [A1 A2]. destruct (G0 0 0 out ltac:(lia) J0 0 ltac:(lia)) as [B1 B2]. change (2 * 1) with 2 in *. change (2 * 0) with 0 in *.
  pose proof (SS_bound L t 1 ltac:(lia) ltac:(lia)) as SB1. pose proof (SS_step L t 0 ltac:(lia) ltac:(lia)) as SST. change (0 + 1) with 1 in SST.
  rewrite !geti_ok by lia. cbn [bind]. rewrite A2, B2. pose proof (raw_diff L t 0 ltac:(lia) ltac:(lia)) as RD. change (0 + 1) with 1 in RD. cbn [Z.eqb] in RD. rewrite RD.
  pose proof (DD_pos L t 0 ltac:(lia) ltac:(lia)). pose proof (DD_le L t 0 ltac:(lia) ltac:(lia)). rewrite (wrap_small 32 (DD L t 0 - 1)) by lia.
  replace (DD L t 0 - 1 + 1) with (DD L t 0) by lia. rewrite wrap_small by lia. rewrite raw_pos by lia.
  set (st0 := enter3 _ _ _ _ _ _ _).
  assert (I0 : scanP L T t J Fin 0 st0).
  { left. exists 0. rewrite SS_0 in *. change (0 + 1) with 1. split; [lia|]. split; [lia|]. rewrite <- (SS_0 L t) at 1. unfold st0. change 0 with (2 * 0) at 3.
    change 1 with (0 + 1). apply enter3_run; auto. }
  destruct (foldM_inv_or (step3_32 p L T t (K t) (2 * nbk L t)) (scanP L T t J Fin) UB_bounds Bad (Z.to_nat (8 * zlen t)) 0 st0 I0) as [(st & E & I)|[E B]].
  - intros q st Hq I. apply step3_ok32; auto; [split; auto|lia].
  - left. exists st. split; [exact E|]. replace (0 + Z.of_nat (Z.to_nat (8 * zlen t))) with (8 * zlen t) in I by (pose proof (zlen_nonneg t); lia).
    destruct I as [(c & Hc & Hs & _)|[_ (_ & Fi)]]; [|exact Fi]. pose proof (SS_bound L t (c + 1) ltac:(lia) ltac:(lia)). lia.
  - right. auto.
Qed.
