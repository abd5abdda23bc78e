(** Facts for C127: calls in different blocks. *)
From Coq Require Import ZifyBool.
From Verif Require Import Base BaseFacts Spec SpecText Words MrRank MrRankProps MrRace MrRaceFacts.

(** [p] is the place of eight words. *)
Definition eight (t : rank_basic) (p : Z) : Prop := forall k, 0 <= k < 8 -> exists w, geti (rb_bits t) (p + k) = Ok w.

Definition in_call (t : rank_basic) (n ptr : Z) (q : query) : Prop :=
  match q with QStart i => 0 <= i < 512 * n | QRead rank i j => 0 <= i < 512 /\ 0 <= j <= i / 64 /\ eight t ptr | QDone _ => True end.

Lemma masks_ok i : 0 <= i -> exists m, geti masks (i - 64 * (i / 64)) = Ok m.
Proof.
  intros H. assert (G : forallb (fun k => match geti masks k with Ok _ => true | _ => false end) (zrange 0 64) = true) by (vm_compute; reflexivity).
  rewrite forallb_forall in G. assert (In (i - 64 * (i / 64)) (zrange 0 64)) as I by (apply in_zrange; lia).
  specialize (G _ I). destruct (geti masks (i - 64 * (i / 64))); try discriminate. eauto.
Qed.

Lemma in_call_step t n f ptr q : (forall i, 0 <= i < 512 * n -> rank_std t i = Ok (f i)) -> in_call t n ptr q ->
  exists ptr' q', q_step t ptr q = Ok (ptr', q') /\ in_call t n ptr' q' /\ (ptr' = ptr \/ eight t ptr') /\ steps_left q' <= Z.max 0 (steps_left q - 1).
Proof.
  intros R K. destruct q as [i|rank i j|x]; cbn [in_call] in K.
  - pose proof (R i K) as R0. unfold rank_std in R0. cbn [q_step]. destruct (geti (rb_ranks t) (2 * (i / 512))) as [rk| |] eqn:E1; cbn [bind] in R0 |- *; try discriminate.
    destruct (geti (rb_ranks t) (2 * (i / 512) + 2)) as [nx| |] eqn:E2; cbn [bind] in R0 |- *; try discriminate.
    destruct (Z.land (u64 (nx - rk)) 511 =? 0) eqn:Z0.
    + eexists. eexists. split; [reflexivity|]. cbn [in_call steps_left]. split; [exact I|]. split; [auto|lia].
    + destruct (geti (rb_ranks t) (2 * (i / 512) + 1)) as [p| |] eqn:E3; cbn [bind] in R0 |- *; try discriminate.
      assert (G : eight t p).
      { intros k Hk. assert (Hq : 0 <= 512 * (i / 512) + 64 * k < 512 * n) by lia. pose proof (R _ Hq) as R1. unfold rank_std in R1.
        replace ((512 * (i / 512) + 64 * k) / 512) with (i / 512) in R1 by lia. replace ((512 * (i / 512) + 64 * k) mod 512) with (64 * k) in R1 by lia.
        rewrite E1, E2, E3 in R1. cbn [bind] in R1. rewrite Z0 in R1. unfold count_block in R1. replace (64 * k / 64) with k in R1 by lia.
        destruct (foldM _ _ rk); cbn [bind] in R1; try discriminate. destruct (geti (rb_bits t) (p + k)); cbn [bind] in R1; try discriminate. eauto. }
      eexists. eexists. split; [reflexivity|]. cbn [in_call steps_left]. pose proof (Z.mod_pos_bound i 512 ltac:(lia)). split; [split; [lia|]; split; [lia|exact G]|]. split; [auto|lia].
  - destruct K as (Hi & Hj & G). cbn [q_step]. destruct (G j ltac:(lia)) as (w & ->). cbn [bind]. destruct (Z.ltb_spec j (i / 64)).
    + eexists. eexists. split; [reflexivity|]. cbn [in_call steps_left]. split; [split; [lia|]; split; [lia|exact G]|]. split; [auto|lia].
    + destruct (masks_ok i ltac:(lia)) as (m & ->). cbn [bind]. eexists. eexists. split; [reflexivity|]. cbn [in_call steps_left]. split; [exact I|]. split; [auto|lia].
  - eexists. eexists. split; [reflexivity|]. cbn [in_call steps_left]. split; [exact I|]. split; [auto|lia].
Qed.

Lemma in_call_other t n ptr ptr' q : in_call t n ptr q -> ptr' = ptr \/ eight t ptr' -> in_call t n ptr' q.
Proof. intros K [->|H]; [exact K|]. destruct q; cbn [in_call] in *; tauto. Qed.

Lemma nth_upd_same {A} (l : list A) : forall k x y, nth_error l k = Some y -> nth_error (upd_nat l k x) k = Some x.
Proof. induction l as [|a l IH]; intros [|k] x y H; cbn in *; try discriminate; [reflexivity|eapply IH; eauto]. Qed.
Lemma nth_upd_other {A} (l : list A) : forall k j x, k <> j -> nth_error (upd_nat l k x) j = nth_error l j.
Proof. induction l as [|a l IH]; intros [|k] [|j] x H; cbn in *; try reflexivity; try congruence. apply IH. congruence. Qed.

Lemma run_in_call t n f : (forall i, 0 <= i < 512 * n -> rank_std t i = Ok (f i)) -> forall ks ptr cs, (forall k q, nth_error cs k = Some q -> in_call t n ptr q) ->
  exists ptr' cs', q_run t (ptr, cs) ks = Ok (ptr', cs') /\ (forall k q, nth_error cs' k = Some q -> in_call t n ptr' q) /\
    forall k q, nth_error cs k = Some q -> exists q', nth_error cs' k = Some q' /\ steps_left q' <= Z.max 0 (steps_left q - Z.of_nat (count_occ Nat.eq_dec ks k)).
Proof.
  intros R. unfold q_run. induction ks as [|k ks IH]; intros ptr cs H; cbn [foldM].
  - exists ptr, cs. split; [reflexivity|]. split; [exact H|]. intros k q N. exists q. split; [exact N|]. cbn. lia.
  - unfold q_turn at 1. cbn [fst snd]. destruct (nth_error cs k) as [q|] eqn:N.
    + destruct (in_call_step t n f ptr q R (H k q N)) as (p1 & q1 & -> & K1 & D & S). cbn [bind].
      destruct (IH p1 (upd_nat cs k q1)) as (ptr' & cs' & E & I' & L).
      { intros j x NJ. destruct (Nat.eq_dec k j) as [<-|J].
        - rewrite (nth_upd_same cs k q1 q N) in NJ. injection NJ as <-. exact K1.
        - rewrite nth_upd_other in NJ by exact J. apply (in_call_other t n ptr p1 x (H j x NJ) D). }
      exists ptr', cs'. split; [exact E|]. split; [exact I'|]. intros j x NJ. cbn [count_occ]. destruct (Nat.eq_dec k j) as [<-|J].
      * destruct (L k q1 (nth_upd_same cs k q1 q N)) as (y & NY & SY). exists y. split; [exact NY|]. rewrite N in NJ. injection NJ as <-. lia.
      * apply L. rewrite nth_upd_other by exact J. exact NJ.
    + cbn [bind]. destruct (IH ptr cs H) as (ptr' & cs' & E & I' & L). exists ptr', cs'. split; [exact E|]. split; [exact I'|].
      intros j x NJ. cbn [count_occ]. destruct (Nat.eq_dec k j) as [<-|J]; [congruence|]. apply L. exact NJ.
Qed.

Lemma race_bounds m t : addresses_ok m -> text_ok t -> zlen t < 2 ^ 58 -> exists r, build_std m t = Ok r /\
  forall qs ptr0 ks, (forall i, In i qs -> 0 <= i < 512 * text_blocks t) ->
  exists ptr cs, q_run r (ptr0, map QStart qs) ks = Ok (ptr, cs) /\
    forall k i, nth_error qs k = Some i -> (9 <= count_occ Nat.eq_dec ks k)%nat -> exists v, nth_error cs k = Some (QDone v).
Proof.
  intros A T L. destruct (basic_rank m t A T L) as (r & E & R). exists r. split; [exact E|]. intros qs ptr0 ks H.
  destruct (run_in_call r (text_blocks t) (ones_before (text_bits t)) R ks ptr0 (map QStart qs)) as (ptr & cs & E2 & I2 & S2).
  - intros k q N. rewrite nth_error_map in N. destruct (nth_error qs k) as [i|] eqn:Q; [|discriminate]. injection N as <-. apply H. eapply nth_error_In; exact Q.
  - exists ptr, cs. split; [exact E2|]. intros k i N C. destruct (S2 k (QStart i)) as (q' & N' & S').
    + rewrite nth_error_map, N. reflexivity.
    + specialize (I2 k q' N'). destruct q' as [x|rk x j|x]; cbn [steps_left in_call] in *; [lia|lia|eauto].
Qed.
