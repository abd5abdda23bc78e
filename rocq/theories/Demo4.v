(** Concrete threads. *)
From Coq Require Import ZifyBool.
From Verif Require Import Base BaseFacts Mem Nodes Trees Words Blocks BlockFacts Spec Bitmap Usage BitmapFacts ProgramFacts PropFacts System Conc ConcFacts SpecConc ThreadFacts RaceFacts WrongFacts Demo Demo3.

Lemma built_ready c T addr input ts : (forall cs o, In cs ts -> uses cs o -> usable c (T o) (addr o) (input o)) ->
  ready c T (fun o => initial (T o) (input o)) (built c T addr input) ts.
Proof.
  intros U. split; [|split].
  - intros i. apply shape_stat. apply stat_init_ok.
  - intros o x. cbn [built sh_objs]. destruct (new_bitmap c (T o) (addr o) (input o)); intros E; inversion E; reflexivity.
  - intros cs o Hc Hu. specialize (U cs o Hc Hu). destruct (new_bitmap_ok c (T o) (addr o) (input o)) as (b & E & _); [exact U|].
    exists b. cbn [built sh_objs]. rewrite E. split; [reflexivity|].
    exists (addr o), (statics_init (ty_block (T o))), (input o), [], b, [], (statics_init (ty_block (T o))).
    split; [split; [exact U|]; split; [constructor|]; split; exact I|]. split; [exact E|]. split; reflexivity.
Qed.

Lemma calls_statics_none T cs : (forall o p, In (o, p) cs -> call_statics (ty_block (T o)) p = []) -> forall i, ~ uses_static T cs i.
Proof. intros H i (o & p & Hi & Hc). rewrite (H o p Hi) in Hc. destruct Hc. Qed.

Lemma readers_compatible T ts : (forall cs o p, In cs ts -> In (o, p) cs -> no_flip p /\ call_statics (ty_block (T o)) p = []) -> all_compatible T ts.
Proof.
  intros H t u cs ds _ Et Eu. apply nth_error_In in Et, Eu. split; [|split].
  - intros o (i & Hi). destruct (H cs o _ Et Hi) as ([] & _).
  - intros o (i & Hi). destruct (H ds o _ Eu Hi) as ([] & _).
  - intros i Hs. exfalso. revert Hs. apply calls_statics_none. intros o p Hi. apply (H cs o p Et Hi).
Qed.

Lemma separate_compatible T ts : (forall t u cs ds o, t <> u -> nth_error ts t = Some cs -> nth_error ts u = Some ds -> uses cs o -> ~ uses ds o) ->
  (forall cs o p, In cs ts -> In (o, p) cs -> call_statics (ty_block (T o)) p = []) -> all_compatible T ts.
Proof.
  intros H S t u cs ds N Et Eu. split; [|split].
  - intros o (i & Hi) Hu. apply (H t u cs ds o N Et Eu); [exists (Flip i); exact Hi|exact Hu].
  - intros o (i & Hi) Hu. apply (H t u cs ds o N Et Eu); [exact Hu|exists (Flip i); exact Hi].
  - intros i Hs. exfalso. revert Hs. apply calls_statics_none. intros o p Hi. apply (S cs o p); [eapply nth_error_In; eauto|exact Hi].
Qed.

(** Two readers of one bitmap whose rank uses statics, both on the same bitmap. *)
Lemma readers_race c T C s ts t u cs ds o i o' j r : ready c T C s ts -> Forall (calls_valid c T C) ts -> t <> u ->
  nth_error ts t = Some cs -> nth_error ts u = Some ds -> In (o, Rank i) cs -> In (o', Rank j) ds ->
  In r (call_statics (ty_block (T o)) (Rank i)) -> In r (call_statics (ty_block (T o')) (Rank j)) ->
  exists sched, race (exec (start c s ts) sched).
Proof.
  intros Rd V N Et Eu Hi Hj Hr Hr'. eapply incompatible_race; eauto. intros (_ & _ & H). apply (H r); [exists o, (Rank i)|exists o', (Rank j)]; auto.
Qed.

(** ** Data *)
Definition c0 : cfg := {| c_debug := true; c_avx2 := true; c_avx512 := true; c_trap := false |}.
(** 256-bit blocks, loops: no statics. *)
Definition tyL : btyp := {| ty_fam := F2; ty_height := 1; ty_block := B256 RM_builtin_loop SM_builtin_loop_pdep |}.
(** 256-bit blocks, unrolled rank. *)
Definition tyU : btyp := {| ty_fam := F2; ty_height := 1; ty_block := B256 RM_builtin_unrolled SM_builtin_loop_pdep |}.
Definition in0 : list Z := [0; 0; 0; 0; 1; 2; 3; 4].

Lemma tyU_usable a : usable c0 tyU a in0.
Proof. split; [apply buildable_b_ok; vm_compute; reflexivity|]. split; [apply addr_b_ok; reflexivity|apply few_ones; reflexivity]. Qed.
Lemma tyL_usable a : usable c0 tyL a in0.
Proof. split; [apply buildable_b_ok; vm_compute; reflexivity|]. split; [apply addr_b_ok; reflexivity|apply few_ones; reflexivity]. Qed.

(** Threads: one flips and reads bitmap 0, two read bitmap 1. *)
Definition ts0 : list (list (nat * op)) :=
  [[(0%nat, Flip 3); (0%nat, Rank 300); (0%nat, Select 0)]; [(1%nat, Rank 256); (1%nat, Access 65)]; [(1%nat, Rank 511); (1%nat, Select 4)]].

Lemma ts0_ready : ready c0 (fun _ => tyL) (fun _ => initial tyL in0) (built c0 (fun _ => tyL) (fun _ => 0) (fun _ => in0)) ts0.
Proof. apply (built_ready c0 (fun _ => tyL) (fun _ => 0) (fun _ => in0)). intros. apply tyL_usable. Qed.
Lemma ts0_compatible : all_compatible (fun _ => tyL) ts0.
Proof.
  assert (S : forall cs i, In cs ts0 -> ~ uses_static (fun _ => tyL) cs i).
  { intros cs i Hc. apply calls_statics_none. intros o p _. destruct p; reflexivity. }
  intros t u cs ds N Et Eu. pose proof (S cs) as S1. apply nth_error_In in Et as It.
  destruct t as [|[|[|t]]]; cbn [ts0 nth_error] in Et; try (destruct t; discriminate Et);
    destruct u as [|[|[|u]]]; cbn [ts0 nth_error] in Eu; try (destruct u; discriminate Eu); try congruence;
    inversion Et; inversion Eu; subst; (split; [|split; [|intros i Hi; destruct (S1 i It Hi)]]);
    intros o (i & Hi) (p & Hp); cbn [In] in Hi, Hp; repeat (destruct Hi as [Hi|Hi]; [inversion Hi; subst|]); try contradiction;
    repeat (destruct Hp as [Hp|Hp]; [inversion Hp; subst|]); try contradiction.
Qed.
Lemma ts0_valid : Forall (calls_valid c0 (fun _ => tyL) (fun _ => initial tyL in0)) ts0.
Proof.
  assert (Z : zlen (initial tyL in0) = 512) by reflexivity.
  repeat constructor; cbn [calls_valid set_contents Nat.eqb contents_after valid_op]; try (intros _ H; discriminate H);
    try (vm_compute; split; congruence); try (vm_compute; congruence).
Qed.

(** Two ranks that share statics. *)
Definition ts1 : list (list (nat * op)) := [[(0%nat, Rank 64)]; [(0%nat, Rank 256)]].
Lemma ts1_ready : ready c0 (fun _ => tyU) (fun _ => initial tyU in0) (built c0 (fun _ => tyU) (fun _ => 0) (fun _ => in0)) ts1.
Proof. apply (built_ready c0 (fun _ => tyU) (fun _ => 0) (fun _ => in0)). intros. apply tyU_usable. Qed.

Lemma wrong_answer : exists c T C s ts sched a,
  ready c T C s ts /\ Forall (calls_valid c T C) ts /\ (forall cs o p, In cs ts -> In (o, p) cs -> no_flip p) /\
  finished (exec (start c s ts) sched) 0 [a] /\ exists o p, nth_error ts 0 = Some [(o, p)] /\ ~ answer_ok (C o) p a.
Proof.
  destruct (wrong_rank c0 (fun _ => tyU) (fun _ => initial tyU in0) _ 0%nat 64 0%nat 256 (IRank 4 RM_builtin_unrolled) ts1_ready) as (sched & F & _).
  - vm_compute. split; congruence.
  - vm_compute. split; congruence.
  - left. reflexivity.
  - left. reflexivity.
  - exists c0, (fun _ => tyU), (fun _ => initial tyU in0). eexists. exists ts1, sched. eexists. split; [apply ts1_ready|]. split.
    { repeat constructor; vm_compute; congruence. }
    split. { intros cs o p [<-|[<-|[]]] [E|[]]; inversion E; exact I. }
    split; [exact F|]. exists 0%nat, (Rank 64). split; [reflexivity|]. cbn [answer_ok]. vm_compute. congruence.
Qed.

Lemma race_exact c T C s ts : ready c T C s ts -> Forall (calls_valid c T C) ts ->
  (all_compatible T ts <-> forall sched, ~ race (exec (start c s ts) sched)).
Proof.
  intros Rd V. split.
  - intros Cp. destruct (threads_answer c T C s ts Rd Cp V) as (outs & k & _ & H). intros sched. apply H.
  - intros H t u cs ds N Et Eu. destruct (first_clash T ds cs) as [K|(cs1 & x & cs2 & E & _ & Hx)]; [exact K|].
    exfalso. destruct (incompatible_race c T C s ts t u cs ds Rd V N Et Eu) as (sched & R); [|exact (H sched R)].
    intros K. apply Hx. rewrite E in K. apply compat_app_l in K as (_ & K). change (x :: cs2) with ([x] ++ cs2) in K. apply compat_app_l in K. apply K.
Qed.

Lemma readers_answer c T C s ts : ready c T C s ts -> Forall (calls_valid c T C) ts ->
  (forall cs o p, In cs ts -> In (o, p) cs -> no_flip p /\ call_statics (ty_block (T o)) p = []) ->
  forall sched, ~ race (exec (start c s ts) sched) /\
    forall t cs outs, nth_error ts t = Some cs -> finished (exec (start c s ts) sched) t outs -> calls_answered C cs outs.
Proof.
  intros Rd V H sched. destruct (threads_answer c T C s ts Rd (readers_compatible T ts H) V) as (o & k & A & F).
  destruct (F sched) as (R & G). split; [exact R|]. intros t cs outs Et Fi. destruct (G t cs Et) as ([Fi'|(a & E & N)] & _).
  - unfold finished in *. rewrite Fi in Fi'. inversion Fi'. apply A. exact Et.
  - unfold finished in Fi. rewrite Fi in E. inversion E; subst. destruct N. reflexivity.
Qed.

Lemma ts2_case :
  exists ts, ready c0 (fun _ => tyL) (fun _ => initial tyL in0) (built c0 (fun _ => tyL) (fun _ => 0) (fun _ => in0)) ts /\
    Forall (calls_valid c0 (fun _ => tyL) (fun _ => initial tyL in0)) ts /\ length ts = 2%nat /\
    (forall cs o p, In cs ts -> In (o, p) cs -> no_flip p /\ call_statics (ty_block tyL) p = []).
Proof.
  exists [[(1%nat, Rank 256); (1%nat, Access 65)]; [(1%nat, Rank 511); (1%nat, Select 4)]]. split; [|split; [|split; [reflexivity|]]].
  - apply (built_ready c0 (fun _ => tyL) (fun _ => 0) (fun _ => in0)). intros. apply tyL_usable.
  - pose proof ts0_valid as H. inversion H. assumption.
  - intros cs o p [<-|[<-|[]]] [E|[E|[]]]; inversion E; split; reflexivity || exact I.
Qed.
