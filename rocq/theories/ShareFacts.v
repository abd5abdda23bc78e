(** Consequences for copies, moves, rebuilds and the heap. *)
From Coq Require Import ZifyBool.
From Verif Require Import Base BaseFacts Mem MemFacts Nodes NodeFacts Trees LevelFacts TreeFacts TreeBuild Words WordFacts Blocks Spec Bitmap Usage BlockFacts BitmapFacts ProgramFacts PropFacts PropFacts2 SpecSystem System SystemFacts ValueFacts.
Ltac Zify.zify_post_hook ::= Z.div_mod_to_equations.

(** ** Programs in two parts *)
Lemma sys_run_app c es2 : forall es1 sy, sys_run c sy (es1 ++ es2) =
  let* '(l1, sy1) := sys_run c sy es1 in let* '(l2, sy2) := sys_run c sy1 es2 in Ok (l1 ++ l2, sy2).
Proof.
  induction es1 as [|e es1 IH]; intros sy; cbn [app sys_run bind].
  - destruct (sys_run c sy es2) as [[l s]| |]; reflexivity.
  - destruct (sys_step c sy e) as [[r sy1]| |]; cbn [bind]; auto. rewrite IH.
    destruct (sys_run c sy1 es1) as [[l1 sy2]| |]; cbn [bind]; auto.
    destruct (sys_run c sy2 es2) as [[l2 sy3]| |]; cbn [bind]; auto.
Qed.

Lemma val_answers_length : forall es vs outs, val_answers vs es outs -> length outs = length es.
Proof. induction es as [|e es IH]; intros vs [|r outs]; cbn [val_answers]; try contradiction; auto. intros [_ H]. cbn. f_equal. eauto. Qed.

Lemma val_program_run c es vs : val_program c es vs ->
  exists outs sy ss, sys_run c sys_init es = Ok (outs, sy) /\ length outs = length es /\ val_answers [] es outs /\ sim c sy ss /\ vrel ss vs.
Proof.
  intros [HA <-]. destruct (val_run c es sys_init ss_init [] (sim_init c) vrel_init HA) as (outs & sy & E & A & S & V).
  exists outs, sy, (after_all ss_init es). split; auto. split; auto. apply (val_answers_length es []); auto.
Qed.

(** Going on from the values a program left. *)
Lemma val_continue c es vs more : val_program c es vs -> val_allowed_all c vs more ->
  exists outs outs', process c (es ++ more) = Ok (outs ++ outs') /\ length outs = length es /\ val_answers [] es outs /\ val_answers vs more outs'.
Proof.
  intros HP HM. destruct (val_program_run c es vs HP) as (outs & sy & ss & E & L & A & S & V).
  destruct (val_run c more sy ss vs S V HM) as (outs' & sy' & E' & A' & _).
  exists outs, outs'. unfold process. rewrite sys_run_app, E. cbn [bind]. rewrite E'. auto.
Qed.

(** Calls on one object. *)
Lemma upd_same {A} (l : list (option A)) o x : nth o l None = Some x -> upd_nat l o (Some x) = l.
Proof. revert o. induction l as [|a l IH]; intros [|o] E; cbn in *; try discriminate; [congruence|]. rewrite IH by auto. reflexivity. Qed.

Lemma calls_allowed c o : forall ops vs x, val_at vs o = Some x -> va_index x = true ->
  valid_ops (va_bits x) ops -> selects_safe c (va_ty x) (va_bits x) ops -> val_allowed_all c vs (calls o ops).
Proof.
  induction ops as [|p ops IH]; intros vs x Ex Hi Hv Hs; cbn [calls map val_allowed_all] in *; [exact I|].
  destruct Hv as [H1 H2]. cbn [selects_safe] in Hs. destruct Hs as [S1 S2]. split.
  - cbn [val_allowed]. exists x. auto.
  - cbn [val_after]. rewrite Ex. apply (IH _ {| va_ty := va_ty x; va_bits := contents_after (va_bits x) p; va_index := va_index x |}); auto.
    unfold val_at. eapply nth_upd_same. exact Ex.
Qed.

Lemma calls_answers o : forall ops vs x outs, val_at vs o = Some x ->
  val_answers vs (calls o ops) outs -> answers_ok (va_bits x) ops outs.
Proof.
  induction ops as [|p ops IH]; intros vs x [|r outs] Ex HA; cbn [calls map val_answers answers_ok] in *; try contradiction; auto.
  destruct HA as [(x' & E' & Hr) HA]. rewrite Ex in E'. injection E' as <-. split; auto.
  cbn [val_after] in HA. rewrite Ex in HA.
  apply (IH _ {| va_ty := va_ty x; va_bits := contents_after (va_bits x) p; va_index := va_index x |}) in HA; auto.
  unfold val_at. eapply nth_upd_same. exact Ex.
Qed.

Lemma val_allowed_app c es2 : forall es1 vs, val_allowed_all c vs es1 -> val_allowed_all c (val_after_all vs es1) es2 -> val_allowed_all c vs (es1 ++ es2).
Proof. induction es1 as [|e es1 IH]; intros vs H1 H2; cbn [app val_allowed_all val_after_all] in *; auto. destruct H1. split; auto. Qed.

Lemma val_answers_split es2 : forall es1 vs outs, val_answers vs (es1 ++ es2) outs ->
  exists o1 o2, outs = o1 ++ o2 /\ length o1 = length es1 /\ val_answers vs es1 o1 /\ val_answers (val_after_all vs es1) es2 o2.
Proof.
  induction es1 as [|e es1 IH]; intros vs outs H; cbn [app val_after_all] in *.
  - exists [], outs. cbn. auto.
  - destruct outs as [|r outs]; cbn [val_answers] in H; [contradiction|]. destruct H as [H1 H2].
    destruct (IH _ _ H2) as (o1 & o2 & -> & L & A1 & A2). exists (r :: o1), o2. cbn. auto.
Qed.

(** ** C23: objects nobody changes *)
Lemma val_program_calls c es vs more o x ops : val_program c es vs -> val_allowed_all c vs more ->
  val_at (val_after_all vs more) o = Some x -> va_index x = true ->
  valid_ops (va_bits x) ops -> selects_safe c (va_ty x) (va_bits x) ops ->
  exists outs rs, process c (es ++ more ++ calls o ops) = Ok (outs ++ rs) /\ length outs = length (es ++ more) /\ answers_ok (va_bits x) ops rs.
Proof.
  intros HP HM Ex Hi Hv Hs. pose proof (calls_allowed c o ops _ x Ex Hi Hv Hs) as HC.
  destruct (val_continue c es vs (more ++ calls o ops) HP (val_allowed_app c _ more vs HM HC)) as (outs & outs' & E & L & _ & A).
  destruct (val_answers_split _ _ _ _ A) as (o1 & o2 & -> & L1 & _ & A2).
  exists (outs ++ o1), o2. split; [rewrite E; f_equal; apply app_assoc|]. split; [rewrite !app_length; lia|]. apply (calls_answers o ops (val_after_all vs more) x); auto.
Qed.

Lemma val_untouched vs e p : changes p e = false -> (p < length vs)%nat -> val_at (val_after vs e) p = val_at vs p.
Proof.
  intros Hc Lp. assert (P : forall (l : vstate) v, (p < length l)%nat -> nth p (l ++ [v]) None = nth p l None) by (intros; apply app_nth1; auto).
  destruct e as [ty|o input a|o q|o a|o|d e a|d e|o]; cbn [changes val_after] in *; unfold val_at.
  - apply P. auto.
  - destruct (nth o vs None); [|reflexivity]. apply nth_upd_other. apply Nat.eqb_neq. exact Hc.
  - destruct (nth o vs None); [|reflexivity]. apply nth_upd_other. apply Nat.eqb_neq. exact Hc.
  - destruct (nth o vs None); [|reflexivity]. apply P. auto.
  - destruct (nth o vs None); [|reflexivity]. rewrite P by (rewrite length_upd_nat; auto). apply nth_upd_other. apply Nat.eqb_neq. exact Hc.
  - destruct (nth e vs None); [|reflexivity]. destruct (Nat.eqb d e); [reflexivity|]. apply nth_upd_other. apply Nat.eqb_neq. exact Hc.
  - apply Bool.orb_false_iff in Hc. destruct Hc as [H1 H2]. destruct (nth e vs None); [|reflexivity].
    rewrite !nth_upd_other; auto; apply Nat.eqb_neq; auto.
  - apply nth_upd_other. apply Nat.eqb_neq. exact Hc.
Qed.

Lemma val_length vs e : (length vs <= length (val_after vs e))%nat.
Proof.
  destruct e as [ty|o input a|o q|o a|o|d e a|d e|o]; cbn [val_after]; unfold val_at;
    repeat match goal with |- context [match nth ?o vs None with _ => _ end] => destruct (nth o vs None) end;
    try match goal with |- context [Nat.eqb ?a ?b] => destruct (Nat.eqb a b) end;
    rewrite ?app_length, ?length_upd_nat; cbn; lia.
Qed.

Lemma val_untouched_all p : forall es vs, Forall (fun e => changes p e = false) es -> (p < length vs)%nat -> val_at (val_after_all vs es) p = val_at vs p.
Proof.
  induction es as [|e es IH]; intros vs H L; cbn [val_after_all]; [reflexivity|]. inversion H; subst.
  rewrite IH; auto; [apply val_untouched; auto|]. pose proof (val_length vs e). lia.
Qed.

Theorem others_untouched : forall c es vs more p x ops,
  val_program c es vs -> val_at vs p = Some x -> va_index x = true ->
  val_allowed_all c vs more -> Forall (fun e => changes p e = false) more ->
  valid_ops (va_bits x) ops -> selects_safe c (va_ty x) (va_bits x) ops ->
  exists outs rs, process c (es ++ more ++ calls p ops) = Ok (outs ++ rs) /\ length outs = length (es ++ more) /\ answers_ok (va_bits x) ops rs.
Proof.
  intros c es vs more p x ops HP Ex Hi HM HC Hv Hs. apply (val_program_calls c es vs more p x ops); auto.
  rewrite val_untouched_all; auto. apply nth_some_lt in Ex. exact Ex.
Qed.

(** ** C22: moves *)
Theorem move_answers : forall c es vs o x ops,
  val_program c es vs -> val_at vs o = Some x -> va_index x = true ->
  valid_ops (va_bits x) ops -> selects_safe c (va_ty x) (va_bits x) ops ->
  exists outs rs, process c (es ++ EMove o :: calls (length vs) ops) = Ok (outs ++ rs) /\ length outs = S (length es) /\ answers_ok (va_bits x) ops rs.
Proof.
  intros c es vs o x ops HP Ex Hi Hv Hs.
  destruct (val_program_calls c es vs [EMove o] (length vs) x ops) as (outs & rs & E & L & A); auto.
  - cbn [val_allowed_all val_allowed]. split; auto. congruence.
  - cbn [val_after_all val_after]. rewrite Ex. unfold val_at. rewrite nth_push, length_upd_nat, Nat.eqb_refl. reflexivity.
  - exists outs, rs. split; auto. split; auto. rewrite L, app_length. cbn. lia.
Qed.

Theorem move_assign_answers : forall c es vs d o y x ops,
  val_program c es vs -> d <> o -> val_at vs d = Some y -> val_at vs o = Some x -> va_ty y = va_ty x -> va_index x = true ->
  valid_ops (va_bits x) ops -> selects_safe c (va_ty x) (va_bits x) ops ->
  exists outs rs, process c (es ++ EMoveAssign d o :: calls d ops) = Ok (outs ++ rs) /\ length outs = S (length es) /\ answers_ok (va_bits x) ops rs.
Proof.
  intros c es vs d o y x ops HP N Ey Ex Et Hi Hv Hs.
  destruct (val_program_calls c es vs [EMoveAssign d o] d x ops) as (outs & rs & E & L & A); auto.
  - cbn [val_allowed_all val_allowed]. split; auto. split; auto. exists y, x. auto.
  - cbn [val_after_all val_after]. rewrite Ex. unfold val_at. rewrite nth_upd_other by auto. eapply nth_upd_same. exact Ey.
  - exists outs, rs. split; auto. split; auto. rewrite L, app_length. cbn. lia.
Qed.

(** The emptied source can be built again; it then starts from nothing. *)
Lemma block_size_pos bt : 0 < block_size bt.
Proof. destruct bt; reflexivity. Qed.

Lemma rebuilt_nothing bs input : 0 < bs -> rebuilt bs input [] = padded bs input.
Proof.
  intros Hb. pose proof (Z.mod_pos_bound (- zlen input) bs Hb).
  unfold rebuilt, padded. cbv zeta. rewrite skipn_nil. cbn [app]. rewrite firstn_app, firstn_all2 by (unfold zlen; lia). f_equal.
  rewrite firstn_repeat. f_equal. unfold zlen. lia.
Qed.

Theorem source_reusable : forall c es vs o x input a ops,
  val_program c es vs -> val_at vs o = Some x -> buildable (va_ty x) input -> index_addr_ok c (va_ty x) (al_addr a) ->
  debug_counts_ok c (va_ty x) (initial (va_ty x) input) ->
  valid_ops (initial (va_ty x) input) ops -> selects_safe c (va_ty x) (initial (va_ty x) input) ops ->
  exists outs rs, process c (es ++ EMove o :: EBuild o input a :: calls o ops) = Ok (outs ++ rs) /\ length outs = S (S (length es)) /\
    answers_ok (initial (va_ty x) input) ops rs.
Proof.
  intros c es vs o x input a ops HP Ex Hb Ha Hd Hv Hs.
  assert (E1 : nth o (upd_nat vs o (Some (val_empty x)) ++ [Some x]) None = Some (val_empty x)).
  { rewrite nth_push, length_upd_nat. pose proof (nth_some_lt _ _ _ Ex). destruct (Nat.eqb_spec o (length vs)); [lia|]. eapply nth_upd_same. exact Ex. }
  destruct (val_program_calls c es vs [EMove o; EBuild o input a] o {| va_ty := va_ty x; va_bits := initial (va_ty x) input; va_index := true |} ops) as (outs & rs & E & L & A); auto.
  - cbn [val_allowed_all val_allowed val_after]. split; [congruence|]. rewrite Ex. split; [|exact I]. unfold val_at. exists (val_empty x). rewrite E1.
    cbn [val_empty va_ty va_bits]. rewrite rebuilt_nothing by apply block_size_pos. auto.
  - cbn [val_after_all val_after]. rewrite Ex. unfold val_at. rewrite E1. erewrite nth_upd_same by exact E1.
    cbn [val_empty va_ty va_bits]. rewrite rebuilt_nothing by apply block_size_pos. reflexivity.
  - exists outs, rs. split; auto. split; auto. rewrite L, app_length. cbn. lia.
Qed.

(** ** C24: building again *)
Theorem rebuild_answers : forall c es vs o x input a ops,
  let B := rebuilt (block_size (ty_block (va_ty x))) (bits_of_words input) (va_bits x) in
  val_program c es vs -> val_at vs o = Some x -> buildable (va_ty x) input -> index_addr_ok c (va_ty x) (al_addr a) ->
  debug_counts_ok c (va_ty x) B -> valid_ops B ops -> selects_safe c (va_ty x) B ops ->
  exists outs rs, process c (es ++ EBuild o input a :: calls o ops) = Ok (outs ++ rs) /\ length outs = S (length es) /\ answers_ok B ops rs.
Proof.
  intros c es vs o x input a ops B HP Ex Hb Ha Hd Hv Hs.
  destruct (val_program_calls c es vs [EBuild o input a] o {| va_ty := va_ty x; va_bits := B; va_index := true |} ops) as (outs & rs & E & L & A); auto.
  - cbn [val_allowed_all val_allowed]. split; auto. exists x. auto.
  - cbn [val_after_all val_after]. rewrite Ex. unfold val_at. erewrite nth_upd_same by exact Ex. reflexivity.
  - exists outs, rs. split; auto. split; auto. rewrite L, app_length. cbn. lia.
Qed.

Lemma nth_firstn_lt {A} (d : A) k : forall l j, (j < k)%nat -> nth j (firstn k l) d = nth j l d.
Proof. induction k as [|k IH]; intros [|a l] [|j] H; cbn; auto; try lia. apply IH. lia. Qed.
Lemma nth_skipn_add {A} (d : A) k : forall l j, nth j (skipn k l) d = nth (k + j) l d.
Proof. induction k as [|k IH]; intros [|a l] j; cbn; auto. destruct j; reflexivity. Qed.
Lemma nth_falses j n : nth j (repeat false n) false = false.
Proof. revert j. induction n as [|n IH]; intros [|j]; cbn; auto. Qed.

Lemma zlen_rebuilt bs input old : 0 < bs -> zlen (rebuilt bs input old) = zlen (padded bs input).
Proof.
  intros Hb. unfold rebuilt, padded. cbv zeta. pose proof (Z.mod_pos_bound (- zlen input) bs Hb).
  set (r := (- zlen input) mod bs) in *. clearbody r. unfold zlen in *. rewrite firstn_length, !app_length, !repeat_length. lia.
Qed.

Theorem rebuilt_bits : forall bs input old, 0 < bs ->
  zlen (rebuilt bs input old) = zlen (padded bs input) /\
  forall i, 0 <= i < zlen (rebuilt bs input old) -> bit (rebuilt bs input old) i = if i <? zlen input then bit input i else bit old i.
Proof.
  intros bs input old Hb. split; [apply zlen_rebuilt; auto|]. intros i Hi. rewrite zlen_rebuilt in Hi by auto.
  unfold padded in Hi. rewrite zlen_app in Hi. unfold rebuilt. cbv zeta. pose proof (Z.mod_pos_bound (- zlen input) bs Hb).
  set (r := (- zlen input) mod bs) in *. clearbody r. unfold zlen in Hi at 2. rewrite repeat_length in Hi.
  unfold bit, zn. rewrite nth_firstn_lt by lia. destruct (Z.ltb_spec i (zlen input)).
  - apply app_nth1. unfold zlen in *. lia.
  - rewrite app_nth2 by (unfold zlen in *; lia). set (j := (Z.to_nat i - length input)%nat).
    destruct (Nat.lt_ge_cases j (length (skipn (length input) old))) as [L|L].
    + rewrite app_nth1 by auto. rewrite nth_skipn_add. f_equal. unfold j, zlen in *. lia.
    + rewrite app_nth2 by auto. rewrite nth_falses. rewrite skipn_length in L. symmetry. apply nth_overflow. unfold j, zlen in *. lia.
Qed.

Lemma list_ext (A B : list bool) : zlen A = zlen B -> (forall i, 0 <= i < zlen A -> bit A i = bit B i) -> A = B.
Proof.
  intros L H. apply (nth_ext A B false false); [unfold zlen in L; lia|]. intros j Hj. specialize (H (Z.of_nat j)). unfold bit, zn in H.
  rewrite Nat2Z.id in H. apply H. unfold zlen. lia.
Qed.

Theorem rebuilt_padding : forall bs input old, 0 < bs ->
  (rebuilt bs input old = padded bs input <-> forall i, zlen input <= i < zlen (padded bs input) -> bit old i = false).
Proof.
  intros bs input old Hb. destruct (rebuilt_bits bs input old Hb) as [L HB]. destruct (rebuilt_bits bs input [] Hb) as [L' HB'].
  rewrite rebuilt_nothing in HB', L' by auto. split.
  - intros E i Hi. pose proof (zlen_nonneg input). rewrite E in HB. specialize (HB i ltac:(lia)). rewrite HB' in HB by lia.
    destruct (Z.ltb_spec i (zlen input)); [lia|]. rewrite <- HB. unfold bit, zn. destruct (Z.to_nat i); reflexivity.
  - intros H. apply list_ext; auto. intros i Hi. rewrite HB by auto. rewrite HB' by lia. destruct (Z.ltb_spec i (zlen input)); auto.
    rewrite H by lia. unfold bit, zn. destruct (Z.to_nat i); reflexivity.
Qed.

(** ** C21: copies *)

(** Queries of the exact specification leave it alone. *)
Lemma after_query ss o p : no_flip p -> after ss (ECall o p) = ss.
Proof. intros H. cbn [after]. destruct (sobj_at ss o); [|reflexivity]. destruct p; try reflexivity. contradiction. Qed.

Lemma queries_run c B ty : forall qs sy ss, sim c sy ss ->
  (forall o p, In (o, p) qs -> no_flip p /\ valid_op B p /\ (match p with Select k => select_safe c ty B k | _ => True end) /\
     exists x, sobj_at ss o = Some x /\ so_ty x = ty /\ so_bits x = B /\ in_sync ss o) ->
  exists outs sy', sys_run c sy (map (fun q => ECall (fst q) (snd q)) qs) = Ok (outs, sy') /\ answers_ok B (map snd qs) outs /\ sim c sy' ss.
Proof.
  induction qs as [|[o p] qs IH]; intros sy ss HS HQ; cbn [map sys_run fst snd answers_ok].
  - exists [], sy. auto.
  - destruct (HQ o p (or_introl eq_refl)) as (Hf & Hv & Hs & x & Ex & Et & Eb & Hi).
    destruct (step_sim c sy ss (ECall o p) HS) as (r & sy1 & E1 & A1 & S1).
    { cbn [allowed]. exists x. rewrite Eb, Et. auto. }
    rewrite after_query in S1 by auto. destruct (IH sy1 ss S1) as (outs & sy2 & E2 & A2 & S2).
    { intros o' p' H. apply HQ. right. exact H. }
    rewrite E1. cbn [bind]. rewrite E2. cbn [bind]. exists (r :: outs), sy2. split; auto. split; auto. cbn [answers_ok].
    destruct A1 as (x' & E' & A1). rewrite Ex in E'. injection E' as <-. rewrite Eb in A1. split; auto.
    replace (contents_after B p) with B by (destruct p; try reflexivity; contradiction). exact A2.
Qed.

Lemma val_owned ss vs o v : vrel ss vs -> val_at vs o = Some v -> va_index v = true ->
  exists x id, sobj_at ss o = Some x /\ so_ty x = va_ty v /\ so_bits x = va_bits v /\ so_own x = Some id /\ so_link x = Some id /\
    index_at ss id = Some (so_ty x, so_bits x).
Proof.
  intros HV Ev Hi. destruct (vrel_at ss vs o v HV Ev) as (x & Ex & H1 & H2 & H3). destruct (H3 Hi) as (id & E1 & E2 & E3).
  exists x, id. auto 10.
Qed.

(** After copying, both objects refer to the source's index. *)
Lemma copied c sy ss vs o q x id ev : sim c sy ss -> vrel ss vs -> copies c vs o q ev ->
  sobj_at ss o = Some x -> so_own x = Some id -> so_link x = Some id -> index_at ss id = Some (so_ty x, so_bits x) ->
  exists sy' y, sys_step c sy ev = Ok (ONone, sy') /\ sim c sy' (after ss ev) /\ o <> q /\
    sobj_at (after ss ev) o = Some x /\ sobj_at (after ss ev) q = Some y /\
    so_ty y = so_ty x /\ so_bits y = so_bits x /\ so_link y = Some id /\ so_own y <> Some id /\ index_at (after ss ev) id = Some (so_ty x, so_bits x).
Proof.
  intros HS HV (v & Ev & HC) Ex Ew El Ei. destruct (vrel_at ss vs o v HV Ev) as (x' & Ex' & Et & _). rewrite Ex in Ex'. injection Ex' as <-.
  pose proof (nth_some_lt _ _ _ Ex) as Lo. pose proof (own_bound c sy ss o x id HS Ex Ew) as Lb.
  destruct ev as [ | | |o' a| |d o' a| | ]; try contradiction.
  - destruct HC as (-> & -> & Ha). destruct HV as [VL _]. rewrite <- Et in Ha. rewrite <- VL.
    destruct (step_sim c sy ss (ECopy o a) HS) as (r & sy' & E & A & S).
    { exists x. auto. }
    cbn [event_answer] in A. subst r. revert S. cbn [after]. rewrite Ex.
    destruct (store_index _ _ _ _ _ _) as [[ss1 own'] cap'] eqn:Es.
    destruct (store_index_spec _ _ _ _ _ _ _ _ _ Es) as (S1 & S2 & S3 & S4 & S5); [discriminate|]. intros S.
    eexists sy', _. split; [exact E|]. split; [exact S|]. split; [lia|].
    assert (P : forall y q, sobj_at (add_obj ss1 y) q = if Nat.eqb q (length (ss_objs ss)) then Some y else sobj_at ss q).
    { intros y q'. unfold sobj_at, add_obj. cbn [ss_objs]. rewrite S1, nth_push. reflexivity. }
    rewrite !P, Nat.eqb_refl. destruct (Nat.eqb_spec o (length (ss_objs ss))); [lia|]. split; auto. split; [reflexivity|].
    split; auto. split; auto. split; auto. split; [cbn [so_own]; destruct S3 as [->| ->]; [discriminate|intros [= <-]; lia]|].
    change (index_at (add_obj ss1 _) id) with (index_at ss1 id). rewrite S5; auto. discriminate.
  - destruct HC as (-> & -> & Nd & Ha & yv & Ey & Ty). destruct (vrel_at ss vs d yv HV Ey) as (y & Ey' & Ety & _).
    destruct (step_sim c sy ss (EAssign d o a) HS) as (r & sy' & E & A & S).
    { split; [exists y, x; rewrite Ety, Et; auto|]. intros z Ez. rewrite Ey' in Ez. injection Ez as <-. rewrite Ety, Ty. exact Ha. }
    cbn [event_answer] in A. subst r. revert S. cbn [after]. rewrite Ex, Ey'. destruct (Nat.eqb_spec d o); [congruence|].
    assert (HU : so_own y <> Some id).
    { intros W. pose proof HS as (_ & _ & _ & U & _). apply Nd. apply (U d o y x id); auto. }
    destruct (store_index _ _ _ _ _ _) as [[ss1 own'] cap'] eqn:Es.
    destruct (store_index_spec _ _ _ _ _ _ _ _ _ Es) as (S1 & S2 & S3 & S4 & S5).
    { intros w Ww. apply (own_bound c sy ss d y); auto. }
    intros S. eexists sy', _. split; [exact E|]. split; [exact S|]. split; [auto|].
    unfold sobj_at, set_obj. cbn [ss_objs]. rewrite S1, nth_upd_other by auto. split; [exact Ex|].
    split; [eapply nth_upd_same; exact Ey'|]. split; auto. split; auto. split; auto.
    split; [cbn [so_own]; destruct S3 as [->| ->]; [exact HU|intros [= <-]; lia]|].
    transitivity (index_at ss1 id); [reflexivity|]. rewrite S5; auto.
Qed.

Theorem copy_answers : forall c es vs o d x ev qs,
  val_program c es vs -> val_at vs o = Some x -> va_index x = true -> copies c vs o d ev ->
  (forall q p, In (q, p) qs -> (q = o \/ q = d) /\ no_flip p /\ valid_op (va_bits x) p /\
     match p with Select k => select_safe c (va_ty x) (va_bits x) k | _ => True end) ->
  exists outs rs, process c (es ++ ev :: map (fun q => ECall (fst q) (snd q)) qs) = Ok (outs ++ rs) /\
    length outs = S (length es) /\ answers_ok (va_bits x) (map snd qs) rs.
Proof.
  intros c es vs o d v ev qs HP Ev Hi Ha HQ. destruct (val_program_run c es vs HP) as (outs & sy & ss & E & L & A & S & V).
  destruct (val_owned ss vs o v V Ev Hi) as (x & id & Ex & Et & Eb & Ew & El & Ei).
  destruct (copied c sy ss vs o d x id ev S V Ha Ex Ew El Ei) as (sy1 & y & E1 & S1 & _ & Ex1 & Ey1 & Ty & By & Ly & _ & I1).
  destruct (queries_run c (va_bits v) (va_ty v) qs sy1 _ S1) as (rs & sy2 & E2 & A2 & _).
  { intros q p Hq. destruct (HQ q p Hq) as (Hd & Hf & Hv & Hs). split; auto. split; auto. split; auto.
    destruct Hd as [->| ->].
    - exists x. split; auto. split; auto. split; auto. exists x, id. auto.
    - exists y. split; auto. split; [congruence|]. split; [congruence|]. exists y, id. rewrite Ty, By. auto. }
  exists (outs ++ [ONone]), rs. unfold process. rewrite sys_run_app, E. cbn [bind sys_run]. rewrite E1. cbn [bind]. rewrite E2. cbn [bind].
  split; [rewrite <- app_assoc; reflexivity|]. split; auto. rewrite app_length, L. cbn. lia.
Qed.

(** rank of an object over the index of other contents of the same length. *)
Lemma linked c sy ss q x m id B : sim c sy ss -> sobj_at ss q = Some x -> obj_at sy q = Some m -> so_link x = Some id ->
  index_at ss id = Some (so_ty x, B) -> zlen B = zlen (so_bits x) ->
  exists n ws, bits_of_words ws = B /\ winv (so_ty x) n ws (sys_view sy m) /\ zlen (x_words m) = zlen ws.
Proof.
  intros HS Ex Em El Ei Lb.
  destruct (sim_own c sy ss q x HS Ex) as (m' & Em' & Rm). rewrite Em in Em'. injection Em' as <-.
  destruct Rm as (R1 & R2 & R3 & R4 & R5 & R6 & R7 & R8 & R9).
  destruct HS as ([_ HI] & _). destruct (HI _ _ _ Ei) as (h & Eh & Ah & (n & ws & Eb & Hw & Hz)).
  rewrite <- R3, <- Eb, !zlen_bits in Lb. exists n, ws. split; auto. split; [|lia]. apply (winv_view _ _ _ _ _ Hw).
  pose proof Hw as (_ & _ & Lw & _). pose proof (winv_n _ _ _ _ Hw) as Hn.
  destruct (block_size_words (ty_block (so_ty x))) as [_ Ewb].
  split; [|split; [|split]].
  - cbn [built_view v_size sys_view].
    assert (Wn : x_words m <> []).
    { intros E0. rewrite E0 in Lb. change (zlen (@nil Z)) with 0 in Lb. rewrite Ewb in Lw. destruct (ty_block (so_ty x)); cbn [nwords] in Lw; lia. }
    specialize (R8 Wn). rewrite Ewb in *. destruct (ty_block (so_ty x)); cbn [nwords] in *; lia.
  - unfold sys_view. cbn [v_ptr]. rewrite R5, El. reflexivity.
  - unfold sys_view. cbn [v_mem]. rewrite R5, El. cbn [link_to]. rewrite Eh. reflexivity.
  - intros k _. unfold sys_view. cbn [v_nn]. rewrite R4, El. cbn [link_to]. rewrite Eh, Z.add_0_l. reflexivity.
Qed.

Lemma bm_rank_mixed c ty s n ws ws' v i : winv ty n ws' v -> words ws -> zlen ws = zlen ws' -> statics_ok (ty_block ty) s -> 0 <= i < zlen (bits_of_words ws) ->
  exists s', let b := block_size (ty_block ty) * (i / block_size (ty_block ty)) in
    bm_rank c ty s ws v i = Ok (ones_before (bits_of_words ws') b + (rank_spec (bits_of_words ws) i - ones_before (bits_of_words ws) b), s') /\ statics_ok (ty_block ty) s'.
Proof.
  intros Hw HW0 HL Hs Hi. pose proof Hw as (Hsup & HW & E & A & T & HA). cbv zeta.
  pose proof (winv_n _ _ _ _ Hw) as Hn. pose proof (winv_size _ _ _ _ Hw) as Hz. unfold bsz in Hz.
  unfold bm_rank. rewrite massert_true by (rewrite bm_size_ok; lia). cbn [bind]. rewrite zlen_bits in Hi.
  pose proof (block_size_pos (ty_block ty)) as HB.
  pose proof (div_block i (block_size (ty_block ty)) n HB ltac:(lia)) as Hb.
  pose proof (Z.mod_pos_bound i (block_size (ty_block ty)) HB) as Hm.
  pose proof (Z.div_mod i (block_size (ty_block ty)) ltac:(lia)) as Hd.
  rewrite land_bs by lia.
  set (b := i / block_size (ty_block ty)) in *. set (r := i mod block_size (ty_block ty)) in *. clearbody b r.
  pose proof (bsz_cases (ty_block ty)) as BC.
  assert (Hbb : 0 <= block_size (ty_block ty) * b <= i) by nia.
  assert (ES : (if b =? 0 then Ok 0 else tree_sum c (ty_fam ty) (ty_height ty) v (b - 1))
    = Ok (sumf (gbit ws') 0 (block_size (ty_block ty) * b))).
  { destruct (Z.eqb_spec b 0) as [-> | NZ].
    - rewrite Z.mul_0_r, sumf_empty by lia. reflexivity.
    - rewrite (tree_sum_ok c _ _ (bsz ty) n v A) by (auto; lia). f_equal.
      replace (b - 1 + 1) with b by lia.
      apply (sum_blocks ty n ws' v); auto; lia. }
  rewrite ES. cbn [bind].
  destruct (block_rank_ok c (ty_block ty) s (bptr (ty_block ty) ws b) r) as (s' & Er & Hs'); auto.
  { split; [exact HW0|]. cbn [bptr w_arr w_off]. assert (0 < words_in_block (ty_block ty)) by (destruct (ty_block ty); reflexivity). rewrite HL, E. nia. }
  unfold bptr in Er at 1. rewrite Er. cbn [bind]. exists s'. split; auto. do 2 f_equal.
  rewrite bones_gbit by lia. unfold rank_spec. rewrite !ones_words by lia.
  rewrite (sumf_split (gbit ws) 0 (block_size (ty_block ty) * b) (i + 1)) by lia.
  replace (block_size (ty_block ty) * b + (r + 1)) with (i + 1) by lia.
  pose proof (sumf_bound (gbit ws') 1 0 (block_size (ty_block ty) * b) ltac:(lia) ltac:(intros; apply wbit_01)).
  pose proof (sumf_bound (gbit ws) 1 (block_size (ty_block ty) * b) (i + 1) ltac:(lia) ltac:(intros; apply wbit_01)).
  rewrite wrap_small; [ring|]. assert (i < 512 * 2 ^ 24) by nia. lia.
Qed.

Lemma ones_flip B i t : 0 <= i < zlen B -> 0 <= t <= zlen B ->
  ones_before (flip_bit B i) t = ones_before B t + (if i <? t then (if bit B i then -1 else 1) else 0).
Proof.
  intros Hi Ht. rewrite !ones_before_sum by (rewrite ?zlen_flip; lia).
  assert (P : forall lo hi, 0 <= lo -> ~ (lo <= i < hi) -> sumf (fun t => b2z (bit (flip_bit B i) t)) lo hi = sumf (fun t => b2z (bit B t)) lo hi).
  { intros lo hi Hlo N. apply sumf_ext. intros k Hk. rewrite bit_flip by lia. destruct (Z.eqb_spec k i); [lia|reflexivity]. }
  destruct (Z.ltb_spec i t).
  - rewrite !(sumf_split _ 0 i t), !(sumf_split _ i (i + 1) t) by lia. rewrite (P 0 i), (P (i + 1) t) by lia.
    rewrite !sumf_one, bit_flip, Z.eqb_refl by lia. destruct (bit B i); cbn [negb b2z]; lia.
  - rewrite P by lia. lia.
Qed.

(** A flip of either object reaches the other through the shared index: its
    ranks beyond the block of the flip are off by one. *)
Theorem copy_flip_leaks : forall c es vs o d x ev f q i j,
  val_program c es vs -> val_at vs o = Some x -> va_index x = true -> copies c vs o d ev ->
  (f = o /\ q = d \/ f = d /\ q = o) -> 0 <= i < zlen (va_bits x) -> 0 <= j < zlen (va_bits x) ->
  let bs := block_size (ty_block (va_ty x)) in
  exists outs, process c (es ++ [ev; ECall f (Flip i); ECall q (Rank j)]) =
    Ok (outs ++ [ONum (rank_spec (va_bits x) j + (if i / bs <? j / bs then (if bit (va_bits x) i then -1 else 1) else 0))]) /\
    length outs = S (S (length es)).
Proof.
  intros c es vs o d v ev f q i j HP Ev Hi Ha HF Hvi Hvj bs. destruct (val_program_run c es vs HP) as (outs & sy & ss & E & L & A & S & V).
  destruct (val_owned ss vs o v V Ev Hi) as (x & id & Ex & Et & Eb & Ew & El & Ei).
  destruct (copied c sy ss vs o d x id ev S V Ha Ex Ew El Ei) as (sy1 & y & E1 & S1 & Nv & Ex1 & Ey1 & Ty & By & Ly & Wy & I1).
  set (ss1 := after ss ev) in *.
  assert (HX : exists xf xq, f <> q /\ sobj_at ss1 f = Some xf /\ sobj_at ss1 q = Some xq /\ so_ty xf = va_ty v /\ so_ty xq = va_ty v /\
     so_bits xf = va_bits v /\ so_bits xq = va_bits v /\ so_link xf = Some id /\ so_link xq = Some id).
  { destruct HF as [[-> ->]|[-> ->]]; [exists x, y|exists y, x]; intuition (try congruence). }
  destruct HX as (xf & xq & Nfq & Ef & Eq & Tf & Tq & Bf & Bq & Lf & Lq).
  destruct (step_sim c sy1 ss1 (ECall f (Flip i)) S1) as (r & sy2 & E2 & A2 & S2).
  { exists xf. rewrite Bf. split; auto. split; [exact Hvi|]. split; [|exact I]. intros _. exists xf, id. rewrite Tf, Bf, <- Et, <- Eb. auto. }
  assert (r = ONone) by (destruct A2 as (x' & _ & A2); destruct r; cbn in A2; auto; contradiction). subst r.
  cbn [after] in S2. rewrite Ef, Lf in S2. set (ss2 := set_obj _ f _) in S2.
  assert (Eq2 : sobj_at ss2 q = Some xq) by (unfold ss2, sobj_at, set_obj, set_index; cbn [ss_objs]; rewrite nth_upd_other by auto; exact Eq).
  assert (I2 : index_at ss2 id = Some (va_ty v, flip_bit (va_bits v) i)).
  { unfold ss2, index_at, set_obj, set_index. cbn [ss_index]. rewrite <- Tf, <- Bf. eapply nth_upd_same. exact I1. }
  destruct (sim_own c sy2 ss2 q xq S2 Eq2) as (m & Em & Rm).
  destruct (linked c sy2 ss2 q xq m id (flip_bit (va_bits v) i) S2 Eq2 Em Lq) as (n & ws & Eb' & Hw & Hl).
  { rewrite Tq. exact I2. }
  { rewrite zlen_flip, Bq. reflexivity. }
  destruct Rm as (R1 & R2 & R3 & _). pose proof S2 as (_ & _ & _ & _ & _ & HG).
  destruct (bm_rank_mixed c (so_ty xq) (statics_of (sy_stat sy2) (ty_block (so_ty xq))) n (x_words m) ws (sys_view sy2 m) j Hw R2 Hl) as (s' & Er & _).
  { apply gstat_of. exact HG. }
  { rewrite R3, Bq. exact Hvj. }
  exists (outs ++ [ONone; ONone]). split; [|rewrite app_length, L; cbn; lia].
  unfold process. rewrite sys_run_app, E. cbn [bind sys_run]. rewrite E1. cbn [bind]. rewrite E2. cbn [bind sys_step].
  unfold get_obj. rewrite Em. cbn [bind sys_call]. rewrite R1, Er. cbn [bind]. rewrite <- app_assoc. cbn [app]. do 4 f_equal. f_equal. f_equal.
  rewrite R3, Eb', Bq, Tq. fold bs. assert (HB : 0 < bs) by apply block_size_pos.
  pose proof (Z.mul_div_le j bs HB). assert (0 <= j / bs) by (apply Z.div_pos; lia).
  rewrite ones_flip by (auto; nia).
  assert (EB : (i <? bs * (j / bs)) = (i / bs <? j / bs)).
  { destruct (Z.ltb_spec (i / bs) (j / bs)) as [C|C].
    - apply Z.ltb_lt. pose proof (Z.mul_succ_div_gt i bs HB). nia.
    - apply Z.ltb_ge. pose proof (Z.mul_div_le i bs HB). nia. }
  rewrite EB. destruct (i / bs <? j / bs); ring.
Qed.

(** ** Use of a copy whose source is gone *)
Definition fails {A} (r : res A) : Prop := forall a, r <> Ok a.
Lemma fails_bind {A B} (r : res A) (k : A -> res B) : fails r -> fails (bind r k).
Proof. intros H b. destruct r as [a| |]; cbn; try discriminate. exfalso. apply (H a). reflexivity. Qed.
Lemma fails_then {A B} (r : res A) (k : A -> res B) : (forall a, fails (k a)) -> fails (bind r k).
Proof. intros H b. destruct r as [a| |]; cbn; try discriminate. apply H. Qed.

Lemma load_nothing n off : (0 < n)%nat -> fails (load n [] off).
Proof. intros H a. unfold load, in_bounds. destruct (0 <=? off) eqn:E; cbn; [|discriminate]. change (zlen (@nil Z)) with 0. destruct (Z.leb_spec (off + Z.of_nat n) 0); [lia|discriminate]. Qed.

Lemma loadu_nothing w l off : (0 < w * l)%nat -> fails (loadu w l [] off).
Proof. intros H a. unfold loadu, in_bounds. destruct (0 <=? off) eqn:E; cbn [andb]; [|discriminate]. change (zlen (@nil Z)) with 0. destruct (Z.leb_spec (off + Z.of_nat (w * l)) 0); [lia|discriminate]. Qed.

Lemma node_sum_nothing c n p i : fails (node_sum c n [] p i).
Proof.
  unfold node_sum. apply fails_then. intros _. apply fails_bind. unfold load_sm. apply load_nothing. destruct n; cbn; lia.
Qed.

Lemma search_nothing c n p x : fails (node_search c n [] p x).
Proof.
  assert (S0 : forall d, (0 < nd_sb d)%nat -> fails (load_sm d [] p 0)) by (intros d Hd; apply load_nothing; auto).
  assert (HS : forall d, (0 < nd_sb d)%nat -> 1 < nd_nseg d -> fails (search_scalar c d [] p x)).
  { intros d Hd Hn. unfold search_scalar. apply fails_bind. replace (Z.to_nat (nd_nseg d - 1)) with (S (Z.to_nat (nd_nseg d - 2))) by lia.
    cbn [zrange scan_gt]. apply fails_bind. apply load_nothing. auto. }
  assert (H2 : forall d, (0 < nd_sb d * Z.to_nat (nd_nseg d))%nat -> fails (search_avx2 c d [] p x)).
  { intros d Hd. unfold search_avx2. cbv zeta. apply fails_bind. apply loadu_nothing. auto. }
  assert (H5 : forall d, (0 < nd_sb d * Z.to_nat (nd_nseg d))%nat -> fails (search_avx512 c d [] p x)).
  { intros d Hd. unfold search_avx512. cbv zeta. apply fails_bind. apply loadu_nothing. auto. }
  destruct n; unfold node_search.
  1, 4: apply fails_then; intros _; apply fails_bind; destruct (c_avx2 c), (c_avx512 c); (apply H2 || apply H5 || apply HS); cbn; lia.
  all: try (apply fails_bind; apply node_sum_nothing).
  all: apply fails_bind; destruct (c_avx2 c); (apply H2 || apply HS); cbn; lia.
Qed.

Lemma tree_sum_nothing c f H v i : v_mem v = [] -> fails (tree_sum c f H v i).
Proof.
  intros E. unfold tree_sum. apply fails_then. intros _. rewrite E. cbv zeta.
  destruct f, H as [|[|[|[|[|H]]]]]; try (intros a; discriminate);
    repeat (apply fails_bind, node_sum_nothing || apply node_sum_nothing || (apply fails_then; intros)).
Qed.

Lemma tree_search_nothing c f H v x : v_mem v = [] -> fails (tree_search c f H v x).
Proof.
  intros E. unfold tree_search. rewrite E. cbv zeta.
  destruct f, H as [|[|[|[|[|H]]]]]; try (intros a; discriminate); try apply search_nothing; apply fails_bind, search_nothing.
Qed.

(** Destroying the source leaves the copy without an index: every further flip
    or select, and every rank beyond the first block, is undefined or stopped. *)
Theorem copy_outlives_source : forall c es vs o d x ev p,
  val_program c es vs -> val_at vs o = Some x -> va_index x = true -> copies c vs o d ev ->
  (match p with Flip _ | Select _ => True | Rank j => block_size (ty_block (va_ty x)) <= j | _ => False end) ->
  forall outs, process c (es ++ [ev; EDestroy o; ECall d p]) <> Ok outs.
Proof.
  intros c es vs o d v ev p HP Ev Hi Ha Hp. destruct (val_program_run c es vs HP) as (outs & sy & ss & E & L & A & S & V).
  destruct (val_owned ss vs o v V Ev Hi) as (x & id & Ex & Et & Eb & Ew & El & Ei).
  destruct (copied c sy ss vs o d x id ev S V Ha Ex Ew El Ei) as (sy1 & y & E1 & S1 & Nv & Ex1 & Ey1 & Ty & By & Ly & Wy & I1).
  set (ss1 := after ss ev) in *.
  destruct (sim_own c sy1 ss1 o x S1 Ex1) as (m & Em & Rm), (sim_own c sy1 ss1 _ y S1 Ey1) as (my & Emy & Ry).
  destruct (own_live c sy1 ss1 o x S1 Ex1 id Ew) as (h & Eh).
  assert (Xd : x_data m = Some id) by (rewrite <- Ew; apply Rm).
  set (sy2 := put_obj (put_heap sy1 (upd_nat (sy_heap sy1) id None)) o None).
  assert (E2 : sys_step c sy1 (EDestroy o) = Ok (ONone, sy2)).
  { cbn [sys_step]. unfold get_obj. rewrite Em. cbn [bind]. rewrite Xd. cbn [free_blk]. rewrite Eh. reflexivity. }
  assert (Em2 : obj_at sy2 d = Some my) by (unfold sy2, obj_at, put_obj; cbn [sy_objs]; rewrite nth_upd_other by auto; exact Emy).
  assert (Eb2 : blk_at sy2 id = None) by (unfold sy2, blk_at, put_obj, put_heap; cbn [sy_heap]; eapply nth_upd_same; exact Eh).
  assert (Ep : x_ptr my = Some (id, Z.of_nat (ty_height (so_ty y)) * 4)) by (destruct Ry as (_ & _ & _ & _ & -> & _); rewrite Ly; reflexivity).
  assert (Em0 : v_mem (sys_view sy2 my) = []) by (unfold sys_view; cbn [v_mem]; rewrite Ep, Eb2; reflexivity).
  assert (HF : fails (sys_step c sy2 (ECall d p))).
  { cbn [sys_step]. unfold get_obj. rewrite Em2. cbn [bind sys_call]. unfold sys_call. destruct Ry as (R1 & _).
    destruct p as [i|i|j|k| |]; try contradiction.
    - apply fails_then. intros [ws' m']. rewrite Ep. unfold write_blk. rewrite Eb2. intros r. discriminate.
    - apply fails_bind. unfold bm_rank. cbv zeta. apply fails_then. intros _. apply fails_bind. rewrite R1, Ty, Et.
      pose proof (block_size_pos (ty_block (va_ty v))) as HB. assert (1 <= j / block_size (ty_block (va_ty v))) by (apply Z.div_le_lower_bound; lia).
      destruct (Z.eqb_spec (j / block_size (ty_block (va_ty v))) 0); [lia|]. apply tree_sum_nothing. exact Em0.
    - apply fails_bind. unfold bm_select. cbv zeta. apply fails_then. intros _. apply fails_bind. apply tree_search_nothing. exact Em0. }
  intros l. unfold process. rewrite sys_run_app, E. cbn [bind sys_run]. rewrite E1. cbn [bind]. rewrite E2. cbn [bind].
  destruct (sys_step c sy2 (ECall d p)) as [[r s]| |] eqn:E3; cbn; try discriminate. exfalso. apply (HF _ eq_refl).
Qed.

(** ** Every live buffer has an owner *)
Definition owned (sy : sys) (id : nat) : Prop := exists o x, obj_at sy o = Some x /\ x_data x = Some id.
Definition no_orphans (sy : sys) : Prop := forall id h, blk_at sy id = Some h -> owned sy id.

Lemma free_spec sy own sy' : free_blk sy own = Ok sy' ->
  sy_objs sy' = sy_objs sy /\ length (sy_heap sy') = length (sy_heap sy) /\ forall id h, blk_at sy' id = Some h -> own <> Some id /\ blk_at sy id = Some h.
Proof.
  unfold free_blk. destruct own as [w|].
  - destruct (blk_at sy w) as [hw|] eqn:Ew; [|discriminate]. intros [= <-]. split; [reflexivity|]. split; [cbn; apply length_upd_nat|].
    intros id h Eh. unfold blk_at, put_heap in Eh. cbn [sy_heap] in Eh. destruct (nth_upd_none _ _ _ _ _ Eh) as [N|N]; [|discriminate].
    split; [congruence|]. rewrite nth_upd_other in Eh by auto. exact Eh.
  - intros [= <-]. split; [reflexivity|]. split; [reflexivity|]. intros id h Eh. split; [discriminate|exact Eh].
Qed.

Lemma write_spec sy w m sy' : write_blk sy w m = Ok sy' ->
  sy_objs sy' = sy_objs sy /\ forall id h, blk_at sy' id = Some h -> exists h', blk_at sy id = Some h'.
Proof.
  unfold write_blk. destruct (blk_at sy w) as [hw|] eqn:Ew; [|discriminate]. intros [= <-]. split; [reflexivity|].
  intros id h Eh. unfold blk_at, put_heap in Eh. cbn [sy_heap] in Eh. destruct (Nat.eq_dec w id) as [<-|N]; [eauto|].
  rewrite nth_upd_other in Eh by auto. eauto.
Qed.

Lemma store_spec sy own cap m a sy' own' cap' : store_data sy own cap m a = Ok (sy', own', cap') ->
  sy_objs sy' = sy_objs sy /\ forall id h, blk_at sy' id = Some h -> own' = Some id \/ (own <> Some id /\ exists h', blk_at sy id = Some h').
Proof.
  unfold store_data. destruct (zlen m <=? cap).
  - destruct own as [w|].
    + destruct (write_blk sy w m) as [s1| |] eqn:Es; cbn [bind]; try discriminate. intros [= <- <- <-].
      destruct (write_spec _ _ _ _ Es) as [O1 B1]. split; auto. intros id h Eh. destruct (Nat.eq_dec w id) as [->|N]; [auto|].
      right. split; [congruence|eauto].
    + intros [= <- <- <-]. split; auto. intros id h Eh. right. split; [discriminate|eauto].
  - destruct (free_blk sy own) as [s1| |] eqn:Es; cbn [bind]; try discriminate. intros [= <- <- <-].
    destruct (free_spec _ _ _ Es) as (O1 & L1 & B1). split; [exact O1|]. intros id h Eh. unfold blk_at, put_heap in Eh. cbn [sy_heap] in Eh.
    rewrite nth_push in Eh. destruct (Nat.eqb_spec id (length (sy_heap s1))) as [->|N]; [left; reflexivity|].
    destruct (B1 id h Eh). right. eauto.
Qed.

(** Replacing one object; [keep]: what the new one does not own was not owned by the old one. *)
Lemma owned_put sy sy1 o x y id : obj_at sy o = Some x -> sy_objs sy1 = sy_objs sy -> owned sy id ->
  (x_data x = Some id -> x_data y = Some id) -> owned (put_obj sy1 o (Some y)) id.
Proof.
  intros Ex EO (p & q & Ep & Eq) H. unfold owned, obj_at, put_obj. cbn [sy_objs]. rewrite EO. destruct (Nat.eq_dec o p) as [<-|N].
  - exists o, y. rewrite Ex in Ep. injection Ep as ->. split; [eapply nth_upd_same; exact Ex|auto].
  - exists p, q. rewrite nth_upd_other by auto. auto.
Qed.
Lemma owned_push sy sy1 y id : sy_objs sy1 = sy_objs sy -> owned sy id -> owned (push_obj sy1 y) id.
Proof.
  intros EO (p & q & Ep & Eq). exists p, q. unfold obj_at, push_obj. cbn [sy_objs]. rewrite EO, nth_push.
  pose proof (nth_some_lt _ _ _ Ep). destruct (Nat.eqb_spec p (length (sy_objs sy))); [lia|]. auto.
Qed.
Lemma owned_last sy y id : x_data y = Some id -> owned (push_obj sy y) id.
Proof. intros H. exists (length (sy_objs sy)), y. unfold obj_at, push_obj. cbn [sy_objs]. rewrite nth_push, Nat.eqb_refl. auto. Qed.
Lemma owned_self sy o x y id : obj_at sy o = Some x -> x_data y = Some id -> owned (put_obj sy o (Some y)) id.
Proof. intros Ex H. exists o, y. split; auto. unfold obj_at, put_obj. cbn [sy_objs]. eapply nth_upd_same. exact Ex. Qed.

Lemma get_obj_ok sy o x : get_obj sy o = Ok x -> obj_at sy o = Some x.
Proof. unfold get_obj. destruct (obj_at sy o); congruence. Qed.

Ltac step H := match type of H with bind ?e _ = Ok _ => let E := fresh "E" in destruct e eqn:E; cbn [bind] in H; try discriminate H end.

Lemma orphans_step c sy e r sy' : no_orphans sy -> sys_step c sy e = Ok (r, sy') -> no_orphans sy'.
Proof.
  intros HN H. destruct e as [ty|o input a|o p|o a|o|d e a|d e|o]; cbn [sys_step] in H.
  - injection H as <- <-. intros id h Eh. apply (owned_push sy); auto. apply (HN id h). exact Eh.
  - step H. apply get_obj_ok in E. step H. step H. destruct a2 as [[ws m] n]. step H. destruct a2 as [[s1 own'] cap']. injection H as <- <-.
    destruct (store_spec _ _ _ _ _ _ _ _ E2) as [O1 B1]. intros id h Eh. destruct (B1 id h Eh) as [W|(N & h' & Eh')].
    + apply (owned_self s1 o a0); auto. unfold obj_at. rewrite O1. exact E.
    + apply (owned_put sy s1 o a0); auto; [apply (HN id h'); auto|congruence].
  - step H. apply get_obj_ok in E. unfold sys_call in H. destruct p as [i|i|i|k| |].
    + step H. destruct a0 as [ws m]. step H. injection H as <- <-. destruct (x_ptr a) as [[w off]|]; [|discriminate].
      destruct (write_spec _ _ _ _ E1) as [O1 B1]. intros id h Eh. destruct (B1 id h Eh) as (h' & Eh').
      apply (owned_put sy a0 o a); auto. apply (HN id h'); auto.
    + step H. injection H as <- <-. exact HN.
    + step H. destruct a0. injection H as <- <-. exact HN.
    + step H. destruct a0. injection H as <- <-. exact HN.
    + injection H as <- <-. exact HN.
    + injection H as <- <-. exact HN.
  - step H. apply get_obj_ok in E. step H. step H. destruct a2 as [[s1 own'] cap']. injection H as <- <-.
    destruct (store_spec _ _ _ _ _ _ _ _ E1) as [O1 B1]. intros id h Eh. destruct (B1 id h Eh) as [W|(N & h' & Eh')].
    + apply owned_last. exact W.
    + apply (owned_push sy s1); auto. apply (HN id h'); auto.
  - step H. apply get_obj_ok in E. injection H as <- <-. intros id h Eh. destruct (HN id h Eh) as (p & q & Ep & Eq).
    destruct (Nat.eq_dec o p) as [<-|N].
    + rewrite E in Ep. injection Ep as <-. apply owned_last. exact Eq.
    + apply (owned_push (put_obj sy o (Some (moved_from a)))); auto. exists p, q. unfold obj_at, put_obj. cbn [sy_objs]. rewrite nth_upd_other by auto. auto.
  - step H. apply get_obj_ok in E. step H. apply get_obj_ok in E0. destruct (Nat.eqb d e); [injection H as <- <-; exact HN|].
    step H. step H. destruct a3 as [[s1 own'] cap']. injection H as <- <-.
    destruct (store_spec _ _ _ _ _ _ _ _ E2) as [O1 B1]. intros id h Eh. destruct (B1 id h Eh) as [W|(N & h' & Eh')].
    + apply (owned_self s1 d a0); auto. unfold obj_at. rewrite O1. exact E.
    + apply (owned_put sy s1 d a0); auto; [apply (HN id h'); auto|congruence].
  - step H. apply get_obj_ok in E. step H. apply get_obj_ok in E0. step H. injection H as <- <-.
    destruct (free_spec _ _ _ E1) as (O1 & L1 & B1). intros id h Eh. destruct (B1 id h Eh) as [N Eh']. destruct (HN id h Eh') as (p & q & Ep & Eq).
    unfold owned, obj_at, put_obj. cbn [sy_objs]. rewrite O1.
    assert (Np : p <> d) by (intros ->; rewrite E in Ep; injection Ep as <-; congruence).
    destruct (Nat.eq_dec e p) as [<-|Ne].
    + exists d, q. rewrite E0 in Ep. injection Ep as <-. rewrite nth_upd_other by auto. split; auto. eapply nth_upd_same. exact E.
    + exists p, q. rewrite !nth_upd_other by auto. auto.
  - step H. apply get_obj_ok in E. step H. injection H as <- <-.
    destruct (free_spec _ _ _ E0) as (O1 & L1 & B1). intros id h Eh. destruct (B1 id h Eh) as [N Eh']. destruct (HN id h Eh') as (p & q & Ep & Eq).
    exists p, q. unfold obj_at, put_obj. cbn [sy_objs]. rewrite O1. rewrite nth_upd_other; auto. intros ->. rewrite E in Ep. injection Ep as <-. congruence.
Qed.

Theorem no_leak : forall c es outs sy, sys_run c sys_init es = Ok (outs, sy) ->
  (forall o, obj_at sy o = None) -> forall id, blk_at sy id = None.
Proof.
  intros c es outs sy H Hd.
  assert (G : forall es s0 outs sy, no_orphans s0 -> sys_run c s0 es = Ok (outs, sy) -> no_orphans sy).
  { clear. induction es as [|e es IH]; intros s0 outs sy HN H; cbn [sys_run] in H; [injection H as <- <-; exact HN|].
    step H. destruct a as [r s1]. step H. destruct a as [l s2]. injection H as <- <-. apply (IH s1 l); auto. apply (orphans_step c s0 e r s1); auto. }
  intros id. destruct (blk_at sy id) as [h|] eqn:Eh; auto. exfalso.
  destruct (G es sys_init outs sy) with (id := id) (h := h) as (o & x & Ex & _); auto.
  - intros [|i] h' E; discriminate.
  - rewrite Hd in Ex. discriminate.
Qed.
