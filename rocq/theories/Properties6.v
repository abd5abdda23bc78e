(** Threads (C20). *)
From Verif Require Import Base Blocks Spec Bitmap Usage System Conc SpecConc ThreadFacts RaceFacts WrongFacts Demo4.

(** ** C20: calls from several threads *)

(** Threads that flip nothing another thread touches and that share no static
    array: under every schedule there is no data race, no thread is ever stuck,
    and each ends, after a number of its own steps that does not depend on the
    schedule, with the answers it would have got alone. *)
Theorem C20_threads_answer : forall c T C s ts,
  ready c T C s ts -> all_compatible T ts -> Forall (calls_valid c T C) ts ->
  exists outs k, (forall t cs, nth_error ts t = Some cs -> calls_answered C cs (outs t)) /\
    forall sched, ~ race (exec (start c s ts) sched) /\
      forall t cs, nth_error ts t = Some cs ->
        (finished (exec (start c s ts) sched) t (outs t) \/ running (exec (start c s ts) sched) t) /\
        ((k t <= count_occ Nat.eq_dec sched t)%nat -> finished (exec (start c s ts) sched) t (outs t)).
Proof. exact threads_answer. Qed.
Print Assumptions C20_threads_answer.

Example C20_threads_answer_case :
  ready c0 (fun _ => tyL) (fun _ => initial tyL in0) (built c0 (fun _ => tyL) (fun _ => 0) (fun _ => in0)) ts0 /\
  all_compatible (fun _ => tyL) ts0 /\ Forall (calls_valid c0 (fun _ => tyL) (fun _ => initial tyL in0)) ts0.
Proof. exact (conj ts0_ready (conj ts0_compatible ts0_valid)). Qed.

(** Queries only, in modes without static arrays: concurrent use of const member
    functions is as safe as const suggests. *)
Theorem C20_readers_answer : forall c T C s ts,
  ready c T C s ts -> Forall (calls_valid c T C) ts ->
  (forall cs o p, In cs ts -> In (o, p) cs -> no_flip p /\ call_statics (ty_block (T o)) p = []) ->
  forall sched, ~ race (exec (start c s ts) sched) /\
    forall t cs outs, nth_error ts t = Some cs -> finished (exec (start c s ts) sched) t outs -> calls_answered C cs outs.
Proof. exact readers_answer. Qed.
Print Assumptions C20_readers_answer.

Example C20_readers_answer_case :
  exists ts, ready c0 (fun _ => tyL) (fun _ => initial tyL in0) (built c0 (fun _ => tyL) (fun _ => 0) (fun _ => in0)) ts /\
    Forall (calls_valid c0 (fun _ => tyL) (fun _ => initial tyL in0)) ts /\ length ts = 2%nat /\
    (forall cs o p, In cs ts -> In (o, p) cs -> no_flip p /\ call_statics (ty_block tyL) p = []).
Proof. exact ts2_case. Qed.

(** The condition is exact: other threads race under some schedule. *)
Theorem C20_race_exact : forall c T C s ts,
  ready c T C s ts -> Forall (calls_valid c T C) ts ->
  (all_compatible T ts <-> forall sched, ~ race (exec (start c s ts) sched)).
Proof. exact race_exact. Qed.
Print Assumptions C20_race_exact.

(** In particular two rank queries race, even on different bitmaps, if their
    mode keeps its counts in a static array. *)
Theorem C20_rank_race : forall c T C s ts t u cs ds o i o' j r,
  ready c T C s ts -> Forall (calls_valid c T C) ts -> t <> u ->
  nth_error ts t = Some cs -> nth_error ts u = Some ds -> In (o, Rank i) cs -> In (o', Rank j) ds ->
  In r (call_statics (ty_block (T o)) (Rank i)) -> In r (call_statics (ty_block (T o')) (Rank j)) ->
  exists sched, race (exec (start c s ts) sched).
Proof. exact readers_race. Qed.
Print Assumptions C20_rank_race.

(** ... and one of them may count the words of the other's block. *)
Theorem C20_mixed_rank : forall c T C s o i o' j r,
  ready c T C s [[(o, Rank i)]; [(o', Rank j)]] -> 0 <= i < zlen (C o) -> 0 <= j < zlen (C o') ->
  In r (call_statics (ty_block (T o)) (Rank i)) -> In r (call_statics (ty_block (T o')) (Rank j)) ->
  exists sched,
    finished (exec (start c s [[(o, Rank i)]; [(o', Rank j)]]) sched) 0
      [ONum (mixed_rank (block_size (ty_block (T o))) (C o) i (C o') j)] /\
    finished (exec (start c s [[(o, Rank i)]; [(o', Rank j)]]) sched) 1 [ONum (rank_spec (C o') j)].
Proof. exact wrong_rank. Qed.
Print Assumptions C20_mixed_rank.

Example C20_mixed_rank_case :
  ready c0 (fun _ => tyU) (fun _ => initial tyU in0) (built c0 (fun _ => tyU) (fun _ => 0) (fun _ => in0)) [[(0%nat, Rank 64)]; [(0%nat, Rank 256)]] /\
  In (IRank 4 RM_builtin_unrolled) (call_statics (ty_block tyU) (Rank 64)) /\
  rank_spec (initial tyU in0) 64 = 0 /\ mixed_rank 256 (initial tyU in0) 64 (initial tyU in0) 256 = 1.
Proof. exact (conj ts1_ready (conj (or_introl eq_refl) (conj eq_refl eq_refl))). Qed.

(** So the expectation that const queries may run concurrently is false. *)
Theorem C20_readers_refuted : exists c T C s ts sched a,
  ready c T C s ts /\ Forall (calls_valid c T C) ts /\ (forall cs o p, In cs ts -> In (o, p) cs -> no_flip p) /\
  finished (exec (start c s ts) sched) 0 [a] /\ exists o p, nth_error ts 0 = Some [(o, p)] /\ ~ answer_ok (C o) p a.
Proof. exact wrong_answer. Qed.
Print Assumptions C20_readers_refuted.
