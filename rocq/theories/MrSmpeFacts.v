(** A pass over the text of the build of SelectMPE64. *)
From Coq Require Import ZifyBool.
From Verif Require Import Base BaseFacts Mem MemFacts Words WordFacts BlockFacts NodeFacts Trees TreeBuild Spec BitmapFacts KernelFacts SpecPoppy PoppyFacts PoppyFacts2 SpecText MrRank MrRankFacts MrSelect MrSelectFacts MrSelectFacts2 MrSelectFacts3 MrMpe MrSmpe.
Ltac Zify.zify_post_hook ::= Z.div_mod_to_equations.

Definition de (L T : Z) (t : list Z) (c : Z) : bool := negb (sp L T t c) && negb (mo L T t c).

(** The ones a sparse block stores. *)
Definition seen (L T : Z) (t : list Z) (c q : Z) : Z := if sp L T t c then ts t (SS L t c) q else 0.
Definition all_seen (L T : Z) (t : list Z) (c : Z) : Z := if sp L T t c then ones_in L t c else 0.

(** bitsContainer at the end of a dense block. *)
Definition held (L T : Z) (t : list Z) (c : Z) (cont : list Z) (n : Z) : Prop :=
  zlen cont = T / 8 + 1 /\
  (de L T t c = true -> n = up8 (ee L t c) /\ n <= zlen cont /\
     forall j, 0 <= j < n -> zn 0 cont j = bpart t (SS L t c + 8 * j) (Z.min 8 (ee L t c - 8 * j))).

(** What a pass has to do, [J] being its invariant. *)
Definition good_pass {S} (p : pass S) (L T : Z) (t : list Z) (Bad : Prop) (J : Z -> Z -> S -> Prop) (Fin : S -> Prop) : Prop :=
  (forall c k out, 0 <= c < nbk L t -> J c k out -> forall c', 0 <= c' <= nbk L t -> 2 * c' < zlen (p_sel p out) /\ zn 0 (p_sel p out) (2 * c') = raw L t c') /\
  (forall c q out, 0 <= c < nbk L t -> sp L T t c = true -> SS L t c <= q < SS L t c + ee L t c -> tb t q = 1 -> J c (ts t (SS L t c) q) out ->
     (exists out', p_one p out q = Ok out' /\ J c (ts t (SS L t c) q + 1) out') \/ (p_one p out q = Ub UB_bounds /\ Bad)) /\
  (forall c out cont n, 0 <= c -> c + 1 < nbk L t -> held L T t c cont n -> J c (all_seen L T t c) out ->
     (exists out', p_end p out (2 * (c + 1)) cont n (DD L t c) (de L T t c) = Ok out' /\ J (c + 1) 0 out') \/
     (p_end p out (2 * (c + 1)) cont n (DD L t c) (de L T t c) = Ub UB_bounds /\ Bad)) /\
  (forall c out cont n, 0 <= c -> c + 1 = nbk L t -> held L T t c cont n -> J c (all_seen L T t c) out ->
     (exists out', p_last p out cont n (de L T t c) = Ok out' /\ Fin out') \/ (p_last p out cont n (de L T t c) = Ub UB_bounds /\ Bad)).

Definition run3 {S} (L T : Z) (t : list Z) (J : Z -> Z -> S -> Prop) (c q : Z) (st : scan3 S) : Prop :=
  J c (seen L T t c q) (z_out st) /\ zlen (z_cont st) = T / 8 + 1 /\ z_sc st = 2 * c /\ z_upto st = SS L t (c + 1) - 1 /\ z_len st = DD L t c /\
  z_sparse st = sp L T t c /\ z_mono st = mo L T t c /\ z_done st = false /\
  (de L T t c = true -> let x := q - SS L t c in z_n st = x / 8 /\ z_byte st = bpart t (SS L t c + 8 * (x / 8)) (x mod 8) /\ z_pos st = 7 - x mod 8 /\
     forall j, 0 <= j < x / 8 -> zn 0 (z_cont st) j = bpart t (SS L t c + 8 * j) 8).

Definition over3 {S} (L T : Z) (t : list Z) (Fin : S -> Prop) (st : scan3 S) : Prop :=
  z_done st = true /\ Fin (z_out st) /\ z_sc st = 2 * nbk L t /\ zlen (z_cont st) = T / 8 + 1.

Definition scanP {S} (L T : Z) (t : list Z) (J : Z -> Z -> S -> Prop) (Fin : S -> Prop) (q : Z) (st : scan3 S) : Prop :=
  (exists c, 0 <= c < nbk L t /\ SS L t c <= q < SS L t (c + 1) /\ run3 L T t J c q st) \/
  (SS L t (nbk L t) <= q /\ over3 L T t Fin st).

Lemma de_true L T t c : de L T t c = true -> sp L T t c = false /\ mo L T t c = false.
Proof. unfold de. destruct (sp L T t c), (mo L T t c); cbn; auto; discriminate. Qed.
Lemma sp_de L T t c : sp L T t c = true -> de L T t c = false.
Proof. intros E. unfold de. rewrite E. reflexivity. Qed.
Lemma mo_de L T t c : mo L T t c = true -> de L T t c = false.
Proof. intros E. unfold de. rewrite E. apply andb_false_r. Qed.
Lemma sp_mo L T t c : sp L T t c = true -> mo L T t c = false.
Proof. intros E. unfold mo. rewrite E. reflexivity. Qed.
Lemma mo_sp L T t c : mo L T t c = true -> sp L T t c = false.
Proof. intros E. unfold mo in E. destruct (sp L T t c); [discriminate|reflexivity]. Qed.

(** A dense block fits bitsContainer. *)
Lemma dense_room L T t c : 1 <= L -> 0 <= c < nbk L t -> de L T t c = true -> 0 <= ee L t c <= T /\ up8 (ee L t c) <= T / 8 + 1.
Proof.
  intros HL Hc D. apply de_true in D. destruct D as [D _]. pose proof (ee_bound L t c HL Hc) as EB.
  assert (ee L t c <= T) by (unfold sp in D; unfold ee in *; destruct (fullb L t c); lia).
  split; [lia|]. unfold up8. set (e := ee L t c) in *. clearbody e. clear - H EB. destruct (e mod 8 >? 0) eqn:E; lia.
Qed.

Lemma all_seen_at L T t c : 1 <= L -> 0 <= c < nbk L t -> seen L T t c (SS L t c + ee L t c) = all_seen L T t c.
Proof. intros HL Hc. unfold seen, all_seen. destruct (sp L T t c); [|reflexivity]. rewrite ee_ones by lia. reflexivity. Qed.
Lemma seen_start L T t c : seen L T t c (SS L t c) = 0.
Proof. unfold seen. rewrite ts_empty. destruct (sp L T t c); reflexivity. Qed.

Lemma inner3_ok {S} (p : pass S) L T t Bad J Fin c q st : 1 <= L < T -> text_ok t -> zlen t < 2 ^ 58 -> good_pass p L T t Bad J Fin -> 0 <= c < nbk L t ->
  SS L t c <= q < SS L t (c + 1) - 1 -> run3 L T t J c q st ->
  (exists st', inner3 p t st q = Ok st' /\ run3 L T t J c (q + 1) st') \/ (inner3 p t st q = Ub UB_bounds /\ Bad).
Proof.
  intros HL H Hl (_ & G1 & _) Hc Hq (R1 & R2 & R3 & R4 & R5 & R6 & R7 & R8 & R9).
  pose proof (SS_bound L t c ltac:(lia) ltac:(lia)) as SB. pose proof (SS_bound L t (c + 1) ltac:(lia) ltac:(lia)) as SB1.
  assert (XE : q + 1 - SS L t c <= ee L t c) by (unfold ee, DD; destruct (fullb L t c); lia).
  unfold inner3. rewrite R7, R6. destruct (mo L T t c) eqn:EM.
  - left. eexists. split; [reflexivity|]. unfold run3. rewrite R6, R7, EM, (mo_de L T t c EM). unfold seen in *. rewrite (mo_sp L T t c EM) in *.
    repeat (split; [auto; fail|]). discriminate.
  - rewrite text_bit_ok by lia. cbn [bind]. destruct (sp L T t c) eqn:ES.
    + unfold seen in R1. rewrite ES in R1. pose proof (ts_succ t (SS L t c) q ltac:(lia)) as TS. destruct (tb_cases t q) as [E|E]; rewrite E; cbn [Z.eqb Pos.eqb].
      * left. eexists. split; [reflexivity|]. unfold run3. rewrite R6, R7, EM, (sp_de L T t c ES). unfold seen. rewrite ES, TS, E, Z.add_0_r.
        repeat (split; [auto; fail|]). discriminate.
      * destruct (G1 c q (z_out st) Hc ES ltac:(lia) E R1) as [(out & -> & J1)|[-> B]]; cbn [bind]; [left|right; auto].
        eexists. split; [reflexivity|]. unfold run3. cbn [z_out z_cont z_n z_sc z_byte z_pos z_upto z_len z_sparse z_mono z_done].
        rewrite (sp_de L T t c ES), EM, ES. unfold seen. rewrite ES, TS, E. repeat (split; [auto; fail|]). discriminate.
    + assert (D : de L T t c = true) by (unfold de; rewrite ES, EM; reflexivity). destruct (R9 D) as (Bc & By & Bp & Rd).
      set (x := q - SS L t c) in *. assert (X0 : 0 <= x) by lia. pose proof (dense_room L T t c ltac:(lia) Hc D) as [DE DR].
      pose proof (up8_gt x (ee L t c) ltac:(lia)) as UG.
      pose proof (byte_step t (SS L t c + 8 * (x / 8)) (x mod 8) ltac:(lia)) as BS. replace (SS L t c + 8 * (x / 8) + x mod 8) with q in BS by lia.
      assert (SE : seen L T t c (q + 1) = seen L T t c q) by (unfold seen; rewrite ES; reflexivity).
      left. rewrite By, Bp, BS. destruct (7 - x mod 8 =? 0) eqn:E7.
      * rewrite seti_ok by lia. cbn [bind]. eexists. split; [reflexivity|]. unfold run3. cbn [z_out z_cont z_n z_sc z_byte z_pos z_upto z_len z_sparse z_mono z_done].
        rewrite zlen_upd, SE, ES, EM. repeat (split; [auto; fail|]). intros _. cbv zeta. replace (q + 1 - SS L t c) with (x + 1) by lia.
        replace ((x + 1) mod 8) with 0 by lia. replace ((x + 1) / 8) with (x / 8 + 1) by lia. rewrite bpart_0.
        split; [lia|]. split; [reflexivity|]. split; [lia|]. intros j Hj. rewrite zn_upd by lia. destruct (j =? z_n st) eqn:EJ.
        -- replace j with (x / 8) by lia. f_equal. lia.
        -- apply Rd. lia.
      * eexists. split; [reflexivity|]. unfold run3. cbn [z_out z_cont z_n z_sc z_byte z_pos z_upto z_len z_sparse z_mono z_done].
        rewrite SE, ES, EM. repeat (split; [auto; fail|]). intros _. cbv zeta. replace (q + 1 - SS L t c) with (x + 1) by lia.
        replace ((x + 1) mod 8) with (x mod 8 + 1) by lia. replace ((x + 1) / 8) with (x / 8) by lia. split; [lia|]. split; [reflexivity|]. split; [lia|]. exact Rd.
Qed.

Lemma is_dense_ok {S} L T t J c q (st : scan3 S) : run3 L T t J c q st -> is_dense st = de L T t c.
Proof. intros (_ & _ & _ & _ & _ & R6 & R7 & _). unfold is_dense, de. rewrite R6, R7. reflexivity. Qed.

Lemma flush3_ok {S} L T t (J : Z -> Z -> S -> Prop) c st : 1 <= L < T -> 0 <= c < nbk L t -> fullb L t c = true ->
  run3 L T t J c (SS L t (c + 1) - 1) st ->
  exists cont n, flush3 st = Ok (cont, n) /\ held L T t c cont n.
Proof.
  intros HL Hc F R. unfold flush3. rewrite (is_dense_ok L T t J c _ st R). destruct R as (R1 & R2 & R3 & R4 & R5 & R6 & R7 & R8 & R9).
  assert (EE : SS L t (c + 1) - 1 - SS L t c = ee L t c) by (unfold ee, DD; rewrite F; lia). rewrite EE in *.
  destruct (de L T t c) eqn:D; cbn [andb].
  - destruct (R9 eq_refl) as (Bc & By & Bp & Rd). pose proof (dense_room L T t c ltac:(lia) Hc D) as [DE DR]. set (x := ee L t c) in *.
    destruct (z_pos st =? 7) eqn:E7; cbn [negb].
    + assert (X8 : x mod 8 = 0) by lia. assert (UX : up8 x = x / 8) by (unfold up8; rewrite X8; cbn; lia).
      do 2 eexists. split; [reflexivity|]. split; [auto|]. intros _. fold x. split; [lia|]. split; [lia|]. intros j Hj. rewrite Rd by lia. f_equal. lia.
    + assert (X8 : x mod 8 > 0) by lia. assert (UX : up8 x = x / 8 + 1) by (unfold up8; replace (x mod 8 >? 0) with true by lia; lia).
      rewrite seti_ok by lia. cbn [bind]. do 2 eexists. split; [reflexivity|]. split; [rewrite zlen_upd; auto|]. intros _. fold x. rewrite zlen_upd.
      split; [lia|]. split; [lia|]. intros j Hj. rewrite zn_upd by lia. destruct (j =? z_n st) eqn:EJ.
      * replace j with (x / 8) by lia. rewrite By. f_equal. lia.
      * rewrite Rd by lia. f_equal. lia.
  - do 2 eexists. split; [reflexivity|]. split; [auto|]. congruence.
Qed.

Lemma enter3_run {S} (J : Z -> Z -> S -> Prop) L T t c out cont : J c 0 out -> zlen cont = T / 8 + 1 ->
  run3 L T t J c (SS L t c) (enter3 L T out cont (2 * c) (SS L t (c + 1) - 1) (DD L t c)).
Proof.
  intros J1 Z1. unfold run3, enter3. cbn [z_out z_cont z_n z_sc z_byte z_pos z_upto z_len z_sparse z_mono z_done]. rewrite seen_start.
  repeat (split; [auto; fail|]). intros _. cbv zeta. replace (SS L t c - SS L t c) with 0 by lia. change (0 / 8) with 0. change (0 mod 8) with 0. rewrite bpart_0.
  split; [auto|]. split; [auto|]. split; [auto|]. intros; lia.
Qed.

Lemma seen_full L T t c : 1 <= L -> 0 <= c < nbk L t -> fullb L t c = true -> seen L T t c (SS L t (c + 1) - 1) = all_seen L T t c.
Proof. intros HL Hc F. rewrite <- all_seen_at by lia. f_equal. unfold ee, DD. rewrite F. lia. Qed.

Lemma next3_ok {S} (p : pass S) L T t Bad J Fin c st : 1 <= L < T -> text_ok t -> zlen t < 2 ^ 58 -> good_pass p L T t Bad J Fin -> 0 <= c -> c + 1 < nbk L t ->
  run3 L T t J c (SS L t (c + 1) - 1) st ->
  (exists st', next3 p L T st = Ok st' /\ run3 L T t J (c + 1) (SS L t (c + 1)) st') \/ (next3 p L T st = Ub UB_bounds /\ Bad).
Proof.
  intros HL H Hl (G0 & _ & G2 & _) Hc Hn R. assert (F : fullb L t c = true) by (apply full_iff; lia). unfold next3.
  destruct (flush3_ok L T t J c st HL ltac:(lia) F R) as (cont & n & -> & Hd). cbn [bind]. rewrite (is_dense_ok L T t J c _ st R).
  destruct R as (R1 & R2 & R3 & R4 & R5 & _). rewrite R3, R5. replace (2 * c + 2) with (2 * (c + 1)) by lia.
  rewrite seen_full in R1 by (auto; lia).
  destruct (G2 c (z_out st) cont n Hc Hn Hd R1) as [(out & -> & J1)|[-> B]]; cbn [bind]; [left|right; auto].
  destruct (G0 (c + 1) 0 out ltac:(lia) J1 (c + 1) ltac:(lia)) as [A1 A2]. destruct (G0 (c + 1) 0 out ltac:(lia) J1 (c + 1 + 1) ltac:(lia)) as [B1 B2].
  replace (2 * (c + 1) + 2) with (2 * (c + 1 + 1)) by lia. rewrite !geti_ok by lia. cbn [bind]. rewrite A2, B2. rewrite raw_diff by lia. replace (c + 1 =? 0) with false by lia.
  pose proof (DD_pos L t (c + 1) ltac:(lia) ltac:(lia)). pose proof (DD_le L t (c + 1) ltac:(lia) ltac:(lia)). rewrite wrap_small by lia.
  rewrite raw_pos by lia. eexists. split; [reflexivity|]. apply enter3_run; [exact J1|]. apply Hd.
Qed.

Lemma last3_ok {S} (p : pass S) L T t Bad J Fin c st : 1 <= L < T -> text_ok t -> zlen t < 2 ^ 58 -> good_pass p L T t Bad J Fin -> 0 <= c -> c + 1 = nbk L t ->
  run3 L T t J c (SS L t (c + 1) - 1) st ->
  (exists st', last3 p L t (K t) st (SS L t (c + 1) - 1) = Ok st' /\ over3 L T t Fin st') \/
  (last3 p L t (K t) st (SS L t (c + 1) - 1) = Ub UB_bounds /\ Bad).
Proof.
  intros HL H Hl (_ & G1 & _ & G3) Hc Hn R. assert (Hcc : 0 <= c < nbk L t) by lia.
  assert (PRE : (exists out cont n, (if K t mod L >? 0 then
      let* b := text_bit t (SS L t (c + 1) - 1) in
      let* out := if z_sparse st && b then p_one p (z_out st) (SS L t (c + 1) - 1) else Ok (z_out st) in
      if is_dense st
      then let* cont := seti (z_cont st) (z_n st) (if b then u8 (z_byte st + 2 ^ z_pos st) else z_byte st) in Ok (out, cont, z_n st + 1)
      else Ok (out, z_cont st, z_n st)
    else let* '(cont, n) := flush3 st in Ok (z_out st, cont, n)) = Ok (out, cont, n) /\ held L T t c cont n /\ J c (all_seen L T t c) out) \/
    ((if K t mod L >? 0 then
      let* b := text_bit t (SS L t (c + 1) - 1) in
      let* out := if z_sparse st && b then p_one p (z_out st) (SS L t (c + 1) - 1) else Ok (z_out st) in
      if is_dense st
      then let* cont := seti (z_cont st) (z_n st) (if b then u8 (z_byte st + 2 ^ z_pos st) else z_byte st) in Ok (out, cont, z_n st + 1)
      else Ok (out, z_cont st, z_n st)
    else let* '(cont, n) := flush3 st in Ok (z_out st, cont, n)) = Ub UB_bounds /\ Bad)).
  { destruct (K t mod L >? 0) eqn:EK.
    - assert (F : fullb L t c = false).
      { destruct (fullb L t c) eqn:F; [|reflexivity]. apply full_iff in F; lia. }
      rewrite (is_dense_ok L T t J c _ st R). set (q := SS L t (c + 1) - 1) in *. destruct R as (R1 & R2 & R3 & R4 & R5 & R6 & R7 & R8 & R9).
      pose proof (SS_step L t c ltac:(lia) Hcc) as SST.
      pose proof (SS_bound L t c ltac:(lia) ltac:(lia)) as SB. pose proof (SS_bound L t (c + 1) ltac:(lia) ltac:(lia)) as SB1.
      assert (EE : ee L t c = q + 1 - SS L t c) by (unfold ee, DD; rewrite F; lia).
      pose proof (K_bound t) as KB. pose proof (proj1 (blk_lt L t c ltac:(lia) ltac:(lia)) ltac:(lia)) as CK.
      assert (B : tb t q = 1).
      { unfold q. rewrite SS_end by lia. destruct (P_spec t (Z.min ((c + 1) * L) (K t)) ltac:(nia)) as (_ & X & _). exact X. }
      assert (AS : seen L T t c (q + 1) = all_seen L T t c) by (rewrite <- all_seen_at by lia; f_equal; lia).
      rewrite text_bit_ok by lia. rewrite B, R6. cbn [bind Z.eqb Pos.eqb]. rewrite andb_true_r. rewrite <- AS. clear AS. unfold seen in *. destruct (sp L T t c) eqn:ES.
      + rewrite (sp_de L T t c ES). pose proof (ts_succ t (SS L t c) q ltac:(lia)) as TS. rewrite B in TS. rewrite TS.
        destruct (G1 c q (z_out st) Hcc ES ltac:(lia) B R1) as [(out & -> & J1)|[-> BB]]; cbn [bind]; [left|right; auto].
        do 3 eexists. split; [reflexivity|]. split; [|exact J1]. split; [auto|]. rewrite (sp_de L T t c ES). discriminate.
      + left. cbn [bind]. destruct (de L T t c) eqn:D.
        * destruct (R9 eq_refl) as (Bc & By & Bp & Rd). pose proof (dense_room L T t c ltac:(lia) Hcc D) as [DE DR]. set (x := q - SS L t c) in *.
          assert (EX : ee L t c = x + 1) by lia. rewrite EX in *.
          assert (UX : up8 (x + 1) = x / 8 + 1) by (unfold up8; destruct ((x + 1) mod 8 >? 0) eqn:E; lia).
          pose proof (byte_step t (SS L t c + 8 * (x / 8)) (x mod 8) ltac:(lia)) as BS. replace (SS L t c + 8 * (x / 8) + x mod 8) with q in BS by lia.
          rewrite B in BS. cbn [Z.eqb Pos.eqb] in BS. rewrite By, Bp, BS. rewrite seti_ok by lia. cbn [bind].
          do 3 eexists. split; [reflexivity|]. split; [|exact R1]. split; [rewrite zlen_upd; auto|]. intros _. rewrite EX, zlen_upd.
          split; [lia|]. split; [lia|]. intros j Hj. rewrite zn_upd by lia. destruct (j =? z_n st) eqn:EJ.
          -- replace j with (x / 8) by lia. f_equal. lia.
          -- rewrite Rd by lia. f_equal. lia.
        * do 3 eexists. split; [reflexivity|]. split; [|exact R1]. split; [auto|]. congruence.
    - assert (F : fullb L t c = true) by (apply full_iff; [lia|lia|]; pose proof (Z.mod_pos_bound (K t) L ltac:(lia)); lia).
      destruct (flush3_ok L T t J c st HL Hcc F R) as (cont & n & -> & Hd). cbn [bind]. left. do 3 eexists. split; [reflexivity|]. split; [exact Hd|].
      destruct R as (R1 & _). rewrite seen_full in R1 by (auto; lia). exact R1. }
  unfold last3. destruct PRE as [(out & cont & n & -> & Hd & J1)|[-> B]]; cbn [bind]; [|right; auto].
  rewrite (is_dense_ok L T t J c _ st R). destruct (G3 c out cont n Hc Hn Hd J1) as [(out' & -> & Fi)|[-> B]]; cbn [bind]; [left|right; auto].
  eexists. split; [reflexivity|]. unfold over3. cbn [z_out z_cont z_n z_sc z_byte z_pos z_upto z_len z_sparse z_mono z_done].
  destruct R as (R1 & R2 & R3 & _). split; [auto|]. split; [auto|]. split; [lia|]. apply Hd.
Qed.

Lemma step3_ok {S} (p : pass S) L T t Bad J Fin q st : 1 <= L < T -> text_ok t -> zlen t < 2 ^ 58 -> good_pass p L T t Bad J Fin ->
  0 <= q < 8 * zlen t -> scanP L T t J Fin q st ->
  (exists st', step3 p L T t (K t) (2 * nbk L t) st q = Ok st' /\ scanP L T t J Fin (q + 1) st') \/
  (step3 p L T t (K t) (2 * nbk L t) st q = Ub UB_bounds /\ Bad).
Proof.
  intros HL H Hl G Hq [(c & Hc & Hs & R)|[Hs Fi]]; unfold step3.
  - assert (R' := R). destruct R' as (R1 & R2 & R3 & R4 & R5 & R6 & R7 & R8 & _). rewrite R8, R4, R3. destruct (q =? SS L t (c + 1) - 1) eqn:EQ.
    + assert (q = SS L t (c + 1) - 1) by lia. subst q. destruct (2 * c + 2 =? 2 * nbk L t) eqn:EN.
      * destruct (last3_ok p L T t Bad J Fin c st HL H Hl G ltac:(lia) ltac:(lia) R) as [(st' & E & Fi)|X]; [left|auto].
        exists st'. split; [exact E|]. right. split; [|exact Fi]. replace (nbk L t) with (c + 1) by lia. lia.
      * destruct (next3_ok p L T t Bad J Fin c st HL H Hl G ltac:(lia) ltac:(lia) R) as [(st' & E & R'')|X]; [left|auto].
        exists st'. split; [exact E|]. left. exists (c + 1). replace (SS L t (c + 1) - 1 + 1) with (SS L t (c + 1)) by lia.
        pose proof (SS_step L t (c + 1) ltac:(lia) ltac:(lia)). split; [lia|]. split; [lia|]. exact R''.
    + destruct (inner3_ok p L T t Bad J Fin c q st HL H Hl G Hc ltac:(lia) R) as [(st' & E & R'')|X]; [left|auto].
      exists st'. split; [exact E|]. left. exists c. split; [lia|]. split; [lia|]. exact R''.
  - left. assert (F' := Fi). destruct F' as (D & _). rewrite D. exists st. split; [reflexivity|]. right. split; [lia|exact Fi].
Qed.

(** A whole pass. *)
Lemma scan_all_ok {S} (p : pass S) L T t Bad J Fin cont out : 1 <= L < T -> text_ok t -> zlen t < 2 ^ 58 -> good_pass p L T t Bad J Fin -> 1 <= K t ->
  zlen cont = T / 8 + 1 -> J 0 0 out ->
  (exists st, scan_all p L T t (K t) (2 * nbk L t) cont out = Ok st /\ Fin (z_out st) /\ z_sc st = 2 * nbk L t /\ zlen (z_cont st) = T / 8 + 1) \/
  (scan_all p L T t (K t) (2 * nbk L t) cont out = Ub UB_bounds /\ Bad).
Proof.
  intros HL H Hl G HK ZC J0. unfold scan_all. assert (N1 : 0 < nbk L t) by (apply blk_lt; lia). destruct G as [G0 G'].
  destruct (G0 0 0 out ltac:(lia) J0 1 ltac:(lia)) as [A1 A2]. destruct (G0 0 0 out ltac:(lia) J0 0 ltac:(lia)) as [B1 B2]. change (2 * 1) with 2 in *. change (2 * 0) with 0 in *.
  pose proof (SS_bound L t 1 ltac:(lia) ltac:(lia)) as SB1. pose proof (SS_step L t 0 ltac:(lia) ltac:(lia)) as SST. change (0 + 1) with 1 in SST.
  rewrite !geti_ok by lia. cbn [bind]. rewrite A2, B2. pose proof (raw_diff L t 0 ltac:(lia) ltac:(lia)) as RD. change (0 + 1) with 1 in RD. cbn [Z.eqb] in RD. rewrite RD.
  pose proof (DD_pos L t 0 ltac:(lia) ltac:(lia)). pose proof (DD_le L t 0 ltac:(lia) ltac:(lia)). rewrite (wrap_small 64 (DD L t 0 - 1)) by lia.
  replace (DD L t 0 - 1 + 1) with (DD L t 0) by lia. rewrite wrap_small by lia. rewrite raw_pos by lia.
  set (st0 := enter3 _ _ _ _ _ _ _).
  assert (I0 : scanP L T t J Fin 0 st0).
  { left. exists 0. rewrite SS_0 in *. change (0 + 1) with 1. split; [lia|]. split; [lia|]. rewrite <- (SS_0 L t) at 1. unfold st0. change 0 with (2 * 0) at 3.
    change 1 with (0 + 1). apply enter3_run; auto. }
  destruct (foldM_inv_or (step3 p L T t (K t) (2 * nbk L t)) (scanP L T t J Fin) UB_bounds Bad (Z.to_nat (8 * zlen t)) 0 st0 I0) as [(st & E & I)|[E B]].
  - intros q st Hq I. apply step3_ok; auto; [split; auto|lia].
  - left. exists st. split; [exact E|]. replace (0 + Z.of_nat (Z.to_nat (8 * zlen t))) with (8 * zlen t) in I by (pose proof (zlen_nonneg t); lia).
    destruct I as [(c & Hc & Hs & _)|[_ (_ & Fi)]]; [|exact Fi]. pose proof (SS_bound L t (c + 1) ltac:(lia) ltac:(lia)). lia.
  - right. auto.
Qed.
