(** Programs over several bitmaps: value semantics, sharing by copies, leaks. *)
From Coq Require Import ZifyBool.
From Verif Require Import Base BaseFacts Mem MemFacts Nodes NodeFacts Trees LevelFacts TreeFacts TreeBuild Words WordFacts Blocks Spec Bitmap Usage BlockFacts BitmapFacts ProgramFacts PropFacts PropFacts2 SpecSystem System SystemFacts.
Ltac Zify.zify_post_hook ::= Z.div_mod_to_equations.

(** ** The exact specification refines value semantics *)
Definition val_rel (ss : sstate) (x : option sobj) (v : option value) : Prop :=
  match x, v with
  | Some x, Some v => so_ty x = va_ty v /\ so_bits x = va_bits v /\
      (va_index v = true -> exists id, so_own x = Some id /\ so_link x = Some id /\ index_at ss id = Some (so_ty x, so_bits x))
  | None, None => True
  | _, _ => False
  end.
Definition vrel (ss : sstate) (vs : vstate) : Prop :=
  length (ss_objs ss) = length vs /\ forall o, val_rel ss (sobj_at ss o) (val_at vs o).

Lemma vrel_at ss vs o v : vrel ss vs -> val_at vs o = Some v -> exists x, sobj_at ss o = Some x /\ val_rel ss (Some x) (Some v).
Proof. intros [_ H] E. specialize (H o). rewrite E in H. destruct (sobj_at ss o) as [x|]; [eauto|contradiction]. Qed.

(** Changing what buffers hold, except those of the objects concerned. *)
Lemma val_frame ss ss' x v : val_rel ss (Some x) (Some v) ->
  (forall id, so_own x = Some id -> index_at ss' id = index_at ss id) -> val_rel ss' (Some x) (Some v).
Proof.
  intros (H1 & H2 & H3) F. split; auto. split; auto. intros Hi. destruct (H3 Hi) as (id & E1 & E2 & E3). exists id. rewrite F; auto.
Qed.

Lemma vrel_put ss vs ss1 d x o v : vrel ss vs -> owners_unique ss -> ss_objs ss1 = ss_objs ss -> sobj_at ss d = Some x ->
  (forall id p y, p <> d -> sobj_at ss p = Some y -> so_own y = Some id -> index_at ss1 id = index_at ss id) ->
  val_rel ss1 (Some o) (Some v) -> vrel (set_obj ss1 d (Some o)) (upd_nat vs d (Some v)).
Proof.
  intros [HL HV] HU EO Ed F HR. split.
  - cbn. rewrite !length_upd_nat, EO. exact HL.
  - intros p. unfold sobj_at, val_at, set_obj. cbn [ss_objs]. rewrite EO.
    specialize (HV d) as HVd. unfold val_at in HVd. rewrite Ed in HVd. destruct (nth d vs None) as [vd|] eqn:Evd; [|contradiction].
    destruct (Nat.eq_dec d p) as [<-|N].
    + erewrite !nth_upd_same by eassumption. exact HR.
    + rewrite !nth_upd_other by auto. specialize (HV p). unfold sobj_at, val_at in HV.
      destruct (nth p (ss_objs ss) None) as [y|] eqn:Ey, (nth p vs None) as [vy|]; auto.
      apply (val_frame ss); auto. intros id Ew. apply (F id p y); auto.
Qed.

Lemma vrel_push ss vs ss1 o v : vrel ss vs -> ss_objs ss1 = ss_objs ss ->
  (forall id p y, sobj_at ss p = Some y -> so_own y = Some id -> index_at ss1 id = index_at ss id) ->
  val_rel ss1 (Some o) (Some v) -> vrel (add_obj ss1 o) (vs ++ [Some v]).
Proof.
  intros [HL HV] EO F HR. split.
  - cbn. rewrite !app_length, EO, HL. reflexivity.
  - intros p. unfold sobj_at, val_at, add_obj. cbn [ss_objs]. rewrite EO, !nth_push, HL.
    destruct (Nat.eqb_spec p (length vs)); [exact HR|]. specialize (HV p). unfold sobj_at, val_at in HV.
    destruct (nth p (ss_objs ss) None) as [y|] eqn:Ey, (nth p vs None) as [vy|]; auto.
    apply (val_frame ss); auto. intros id Ew. apply (F id p y); auto.
Qed.

(** Storing into the buffer of one object. *)
Lemma store_index_spec s own cap need a v s' own' cap' : store_index s own cap need a v = (s', own', cap') ->
  (forall id, own = Some id -> (id < length (ss_index s))%nat) ->
  ss_objs s' = ss_objs s /\ (forall id, own' = Some id -> index_at s' id = v) /\
  (own' = own \/ own' = Some (length (ss_index s))) /\ (cap < need -> own' <> None) /\
  (forall id, own <> Some id -> (id < length (ss_index s))%nat -> index_at s' id = index_at s id).
Proof.
  intros E Hl. unfold store_index in E. destruct (Z.leb_spec need cap).
  - destruct own as [w|]; injection E as <- <- <-.
    + specialize (Hl w eq_refl). split; [reflexivity|]. split.
      * intros id [= <-]. unfold index_at, set_index. cbn [ss_index]. rewrite nth_upd_nat, Nat.eqb_refl by auto. reflexivity.
      * split; auto. split; [lia|]. intros id N _. unfold index_at, set_index. cbn [ss_index]. apply nth_upd_other. congruence.
    + split; [reflexivity|]. split; [discriminate|]. split; auto. split; [lia|]. auto.
  - injection E as <- <- <-. split; [cbn; apply objs_released|].
    assert (L : length (ss_index (release_own s own)) = length (ss_index s)) by (destruct own; cbn; rewrite ?length_upd_nat; reflexivity).
    split; [|split; [auto|split; [congruence|]]].
    + intros id [= <-]. unfold index_at, add_index. cbn [ss_index]. rewrite nth_push, L, Nat.eqb_refl. reflexivity.
    + intros id N Hid. unfold index_at, add_index. cbn [ss_index]. rewrite nth_push, L. destruct (Nat.eqb_spec id (length (ss_index s))); [lia|].
      apply index_released. exact N.
Qed.

Lemma own_bound c sy ss o x id : sim c sy ss -> sobj_at ss o = Some x -> so_own x = Some id -> (id < length (ss_index ss))%nat.
Proof.
  intros HS Ex Ew. destruct (own_live c sy ss o x HS Ex id Ew) as (h & Eh). apply nth_some_lt in Eh. destruct HS as ([<- _] & _). exact Eh.
Qed.

Lemma own_none c sy ss o x : sim c sy ss -> sobj_at ss o = Some x -> so_own x = None -> so_cap x = 0.
Proof.
  intros HS Ex Ew. destruct (sim_own c sy ss o x HS Ex) as (m & Em & Rm).
  destruct Rm as (_ & _ & _ & _ & _ & _ & _ & _ & H9). rewrite Ew in H9. apply H9.
Qed.

Lemma bytes_needed_pos ty input : buildable ty input -> 0 < bytes_needed ty (zlen input).
Proof.
  intros Hb. pose proof (blocks_bound ty input Hb) as Hn. unfold bytes_needed, blocks_of. apply index_bytes_bound. exact Hn.
Qed.

Lemma val_call_other vs o x p : val_at vs o = Some x -> contents_after (va_bits x) p = va_bits x -> val_after vs (ECall o p) = vs.
Proof.
  intros E Hp. cbn [val_after]. rewrite E, Hp. replace {| va_ty := va_ty x; va_bits := va_bits x; va_index := va_index x |} with x by (destruct x; reflexivity).
  unfold val_at in E. clear Hp. revert o E. induction vs as [|w vs IH]; intros [|o] E; cbn in *; try discriminate; [congruence|].
  rewrite IH by auto. reflexivity.
Qed.

Lemma val_step c sy ss vs e : sim c sy ss -> vrel ss vs -> val_allowed c vs e ->
  allowed c ss e /\ vrel (after ss e) (val_after vs e) /\ forall r, event_answer ss e r -> val_answer vs e r.
Proof.
  intros HS HV HA. pose proof HS as (HR & HL & HO & HU & HT & HG).
  destruct e as [ty|o input a|o p|o a|o|d e a|d e|o]; cbn [val_allowed allowed after val_after event_answer val_answer] in *.
  - split; [exact I|]. split; [|auto]. apply (vrel_push ss); auto. split; [reflexivity|]. split; [reflexivity|]. discriminate.
  - destruct HA as (v & Ev & Hb & Ha & Hd). destruct (vrel_at ss vs o v HV Ev) as (x & Ex & H1 & H2 & H3).
    split; [|split; [|auto]].
    + exists x. rewrite H1, H2. auto.
    + rewrite Ex, Ev. destruct (store_index _ _ _ _ _ _) as [[ss1 own'] cap'] eqn:Es.
      destruct (store_index_spec _ _ _ _ _ _ _ _ _ Es) as (S1 & S2 & S3 & S4 & S5).
      { intros id Ew. apply (own_bound c sy ss o x); auto. }
      assert (So : exists id, own' = Some id).
      { destruct own' as [id|]; [eauto|]. exfalso. destruct S3 as [S3|S3]; [|discriminate]. symmetry in S3. pose proof (own_none c sy ss o x HS Ex S3) as E0.
        rewrite H1 in S4. pose proof (bytes_needed_pos (va_ty v) input Hb). apply S4; [lia|reflexivity]. }
      apply (vrel_put ss vs ss1 o x); auto.
      * intros id p y Np Ep Ew. apply S5; [intros Ew'; apply Np; apply (HU p o y x id); auto|apply (own_bound c sy ss p y); auto].
      * split; [exact H1|]. cbn [so_bits va_bits so_ty]. rewrite H1, H2. split; [reflexivity|]. intros _. destruct So as (id & ->). exists id.
        split; auto. split; auto. rewrite (S2 id eq_refl). rewrite H1, H2. reflexivity.
  - destruct HA as (v & Ev & Hv & Hn & Hsel). destruct (vrel_at ss vs o v HV Ev) as (x & Ex & H1 & H2 & H3).
    assert (HX : forall r, (exists x0, sobj_at ss o = Some x0 /\ answer_ok (so_bits x0) p r) -> exists x0, val_at vs o = Some x0 /\ answer_ok (va_bits x0) p r).
    { intros r (x0 & E0 & Hr). rewrite Ex in E0. injection E0 as <-. exists v. rewrite <- H2. auto. }
    split; [|split; [|exact HX]].
    + exists x. rewrite H1, H2. split; auto. split; auto. split; auto. intros Hp. destruct (H3 (Hn Hp)) as (id & E1 & E2 & E3).
      exists x, id. auto.
    + pose proof (val_call_other vs o v p Ev) as HN. cbn [val_after] in HN. rewrite Ex.
      destruct p as [i|i|i|k| |]; try (rewrite HN by reflexivity; exact HV). clear HN.
      cbn [needs_index] in Hn. destruct (H3 (Hn eq_refl)) as (id & E1 & E2 & E3). cbn [val_after contents_after]. rewrite Ev, E2.
      apply (vrel_put ss vs _ o x); auto.
      * intros id' q y Np Ep Ew. unfold index_at, set_index. cbn [ss_index]. apply nth_upd_other. intros ->. apply Np. apply (HU q o y x id'); auto.
      * split; [exact H1|]. cbn [so_bits va_bits so_ty so_own so_link]. split; [rewrite H2; reflexivity|]. intros _. exists id.
        split; auto. split; auto. unfold index_at, set_index. cbn [ss_index]. eapply nth_upd_same. exact E3.
  - destruct HA as (v & Ev & Ha). destruct (vrel_at ss vs o v HV Ev) as (x & Ex & H1 & H2 & H3).
    split; [exists x; rewrite H1; auto|]. split; [|auto]. rewrite Ex, Ev.
    destruct (store_index _ _ _ _ _ _) as [[ss1 own'] cap'] eqn:Es.
    destruct (store_index_spec _ _ _ _ _ _ _ _ _ Es) as (S1 & S2 & S3 & S4 & S5); [discriminate|].
    apply (vrel_push ss); auto.
    + intros id p y Ep Ew. apply S5; [discriminate|]. apply (own_bound c sy ss p y); auto.
    + split; [exact H1|]. split; [exact H2|]. discriminate.
  - destruct (val_at vs o) as [v|] eqn:Ev; [|congruence]. destruct (vrel_at ss vs o v HV Ev) as (x & Ex & HX).
    split; [congruence|]. split; [|auto]. rewrite Ex. apply (vrel_push (set_obj ss o (Some (emptied x)))); auto.
    + apply (vrel_put ss vs ss o x); auto. split; [apply HX|]. split; [reflexivity|]. discriminate.
  - destruct HA as (vx & vy & Evx & Evy & Et & Ha). destruct (vrel_at ss vs d vx HV Evx) as (x & Ex & X1 & X2 & X3), (vrel_at ss vs e vy HV Evy) as (y & Ey & Y1 & Y2 & Y3).
    split.
    + split; [exists x, y; split; auto; split; auto; congruence|]. intros x0 E0. rewrite Ex in E0. injection E0 as <-. rewrite X1. exact Ha.
    + split; [|auto]. rewrite Ex, Ey, Evy. destruct (Nat.eqb d e); [exact HV|].
      destruct (store_index _ _ _ _ _ _) as [[ss1 own'] cap'] eqn:Es.
      destruct (store_index_spec _ _ _ _ _ _ _ _ _ Es) as (S1 & S2 & S3 & S4 & S5).
      { intros id Ew. apply (own_bound c sy ss d x); auto. }
      apply (vrel_put ss vs ss1 d x); auto.
      * intros id p q Np Ep Ew. apply S5; [intros Ew'; apply Np; apply (HU p d q x id); auto|apply (own_bound c sy ss p q); auto].
      * split; [exact Y1|]. split; [exact Y2|]. discriminate.
  - destruct HA as (N & vx & vy & Evx & Evy & Et). destruct (vrel_at ss vs d vx HV Evx) as (x & Ex & X1 & X2 & X3), (vrel_at ss vs e vy HV Evy) as (y & Ey & Y1 & Y2 & Y3).
    split; [split; [|exact N]; exists x, y; split; auto; split; auto; congruence|].
    split; [|auto]. rewrite Ex, Ey, Evy. destruct HV as [VL VV]. split.
    { cbn. rewrite !length_upd_nat, objs_released. exact VL. }
    intros p. unfold sobj_at, val_at, set_obj. cbn [ss_objs]. rewrite objs_released.
    assert (Ed : val_rel (release_own ss (so_own x)) (Some y) (Some vy)).
    { apply (val_frame ss); [split; auto|]. intros id Ew. apply index_released. intros Ew'. apply N. apply (HU d e x y id); auto. }
    destruct (Nat.eq_dec e p) as [<-|Ne].
    + erewrite !nth_upd_same; [split; [exact Y1|split; [reflexivity|discriminate]]| |].
      * rewrite nth_upd_other by auto. exact Evy.
      * rewrite nth_upd_other by auto. exact Ey.
    + rewrite !(nth_upd_other _ e p) by auto. destruct (Nat.eq_dec d p) as [<-|Nd].
      * erewrite !nth_upd_same by eassumption. exact Ed.
      * rewrite !nth_upd_other by auto. specialize (VV p). unfold sobj_at, val_at in VV.
        destruct (nth p (ss_objs ss) None) as [q|] eqn:Eq, (nth p vs None) as [vq|]; auto.
        apply (val_frame ss); auto. intros id Ew. apply index_released. intros Ew'. apply Nd. apply (HU d p x q id); auto.
  - destruct (val_at vs o) as [v|] eqn:Ev; [|congruence]. destruct (vrel_at ss vs o v HV Ev) as (x & Ex & HX).
    split; [congruence|]. split; [|auto]. rewrite Ex. destruct HV as [VL VV]. split.
    { cbn. rewrite !length_upd_nat, objs_released. exact VL. }
    intros p. unfold sobj_at, val_at, set_obj. cbn [ss_objs]. rewrite objs_released. destruct (Nat.eq_dec o p) as [<-|N].
    + erewrite !nth_upd_same by eassumption. exact I.
    + rewrite !nth_upd_other by auto. specialize (VV p). unfold sobj_at, val_at in VV.
      destruct (nth p (ss_objs ss) None) as [q|] eqn:Eq, (nth p vs None) as [vq|]; auto.
      apply (val_frame ss); auto. intros id Ew. apply index_released. intros Ew'. apply N. apply (HU o p x q id); auto.
Qed.

Lemma val_run c : forall es sy ss vs, sim c sy ss -> vrel ss vs -> val_allowed_all c vs es ->
  exists outs sy', sys_run c sy es = Ok (outs, sy') /\ val_answers vs es outs /\
    sim c sy' (after_all ss es) /\ vrel (after_all ss es) (val_after_all vs es).
Proof.
  induction es as [|e es IH]; intros sy ss vs HS HV HA; cbn [sys_run val_answers after_all val_after_all val_allowed_all] in *.
  - exists [], sy. auto.
  - destruct HA as [H1 H2]. destruct (val_step c sy ss vs e HS HV H1) as (A1 & V1 & R1).
    destruct (step_sim c sy ss e HS A1) as (r & sy1 & E1 & Q1 & S1).
    destruct (IH sy1 (after ss e) _ S1 V1 H2) as (l & sy2 & E2 & A2 & S2 & V2). rewrite E1. cbn [bind]. rewrite E2. cbn [bind].
    exists (r :: l), sy2. auto.
Qed.

Lemma vrel_init : vrel ss_init [].
Proof. split; [reflexivity|]. intros [|o]; exact I. Qed.

Theorem val_process c es : val_allowed_all c [] es -> exists outs, process c es = Ok outs /\ val_answers [] es outs.
Proof.
  intros HA. destruct (val_run c es sys_init ss_init [] (sim_init c) vrel_init HA) as (outs & sy & E & A & _).
  exists outs. unfold process. rewrite E. auto.
Qed.
