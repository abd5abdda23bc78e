(** Facts for C124. *)
From Coq Require Import ZifyBool.
From Verif Require Import Base BaseFacts SpecOwn MrOwn.

Definition oinv (s : heap) : Prop :=
  (forall id, h_live s id = true -> id < h_next s) /\
  (forall i k id, h_ptr s i k = Some id -> h_alive s i = true /\ 0 <= k <= 2 /\ h_live s id = true) /\
  (forall i k j l id, h_ptr s i k = Some id -> h_ptr s j l = Some id -> i = j /\ k = l) /\
  (forall id, h_live s id = true -> exists i k, h_ptr s i k = Some id).

Lemma oinv_init : oinv no_heap.
Proof. unfold oinv, no_heap; cbn. repeat split; intros; discriminate. Qed.

Lemma release_ok s i k : oinv s -> exists s', release i s k = Ok s' /\ oinv s' /\ h_alive s' = h_alive s /\
  h_ptr s' i k = None /\ forall j l, (j <> i \/ l <> k) -> h_ptr s' j l = h_ptr s j l.
Proof.
  intros O. pose proof O as (A & B & C & D). unfold release. destruct (h_ptr s i k) as [id|] eqn:E; [|exists s; auto 6].
  destruct (B _ _ _ E) as (_ & _ & L). rewrite L. eexists. split; [reflexivity|]. cbn. split; [|split; [reflexivity|split]].
  - unfold oinv; cbn. split; [|split; [|split]].
    + intros x. unfold set1. destruct (x =? id); [discriminate|apply A].
    + intros j l x. unfold set2, set1. destruct ((j =? i) && (l =? k)) eqn:Ej; [discriminate|]. intros X. destruct (B _ _ _ X) as (X1 & X2 & X3).
      split; [exact X1|]. split; [exact X2|]. destruct (x =? id) eqn:Ex; [|exact X3]. assert (x = id) by lia. subst x. destruct (C _ _ _ _ _ X E). lia.
    + intros j l j' l' x. unfold set2. destruct ((j =? i) && (l =? k)); [discriminate|]. destruct ((j' =? i) && (l' =? k)); [discriminate|]. apply C.
    + intros x. unfold set1. destruct (x =? id) eqn:Ex; [discriminate|]. intros X. destruct (D x X) as (j & l & Y). exists j, l. unfold set2.
      destruct ((j =? i) && (l =? k)) eqn:Ej; [|exact Y]. assert (j = i /\ l = k) as (-> & ->) by lia. rewrite E in Y. injection Y as <-. lia.
  - unfold set2. rewrite !Z.eqb_refl. reflexivity.
  - intros j l H. unfold set2. destruct ((j =? i) && (l =? k)) eqn:Ej; [lia|reflexivity].
Qed.

Lemma free_ok s i : oinv s -> exists s', free_memory s i = Ok s' /\ oinv s' /\ h_alive s' = h_alive s /\
  (forall k, h_ptr s' i k = None) /\ forall j l, j <> i -> h_ptr s' j l = h_ptr s j l.
Proof.
  intros O. unfold free_memory. cbn [foldM].
  destruct (release_ok s i 0 O) as (s0 & -> & O0 & A0 & P0 & F0). cbn [bind].
  destruct (release_ok s0 i 1 O0) as (s1 & -> & O1 & A1 & P1 & F1). cbn [bind].
  destruct (release_ok s1 i 2 O1) as (s2 & -> & O2 & A2 & P2 & F2). cbn [bind].
  exists s2. split; [reflexivity|]. split; [exact O2|]. split; [congruence|]. split.
  - intros k. destruct (h_ptr s2 i k) as [id|] eqn:E; [|reflexivity]. pose proof O2 as (_ & B & _). destruct (B _ _ _ E) as (_ & K & _).
    assert (X : k = 0 \/ k = 1 \/ k = 2) by lia. destruct X as [->|[->| ->]].
    + rewrite F2, F1, P0 in E by lia. discriminate.
    + rewrite F2, P1 in E by lia. discriminate.
    + congruence.
  - intros j l H. rewrite F2, F1, F0 by lia. reflexivity.
Qed.

Lemma acquire_ok s i k : oinv s -> h_alive s i = true -> 0 <= k <= 2 -> h_ptr s i k = None ->
  oinv (acquire i k s) /\ h_alive (acquire i k s) = h_alive s /\ forall l, l <> k -> h_ptr (acquire i k s) i l = h_ptr s i l.
Proof.
  intros (A & B & C & D) Hi Hk HP. split; [|split; [reflexivity|]].
  - unfold oinv, acquire; cbn. split; [|split; [|split]].
    + intros x. unfold set1. destruct (x =? h_next s) eqn:E; [lia|]. intros X. apply A in X. lia.
    + intros j l x. unfold set2, set1. destruct ((j =? i) && (l =? k)) eqn:Ej.
      * intros [= <-]. rewrite Z.eqb_refl. assert (j = i) by lia. subst j. split; [exact Hi|]. split; [lia|reflexivity].
      * intros X. destruct (B _ _ _ X) as (X1 & X2 & X3). split; [exact X1|]. split; [exact X2|]. destruct (x =? h_next s); [reflexivity|exact X3].
    + intros j l j' l' x. unfold set2. destruct ((j =? i) && (l =? k)) eqn:E1, ((j' =? i) && (l' =? k)) eqn:E2.
      * lia.
      * intros [= <-] X. destruct (B _ _ _ X) as (_ & _ & X3). apply A in X3. lia.
      * intros X [= <-]. destruct (B _ _ _ X) as (_ & _ & X3). apply A in X3. lia.
      * apply C.
    + intros x. unfold set1. destruct (x =? h_next s) eqn:E.
      * intros _. exists i, k. unfold set2. rewrite !Z.eqb_refl. cbn. f_equal. lia.
      * intros X. destruct (D x X) as (j & l & Y). exists j, l. unfold set2. destruct ((j =? i) && (l =? k)) eqn:Ej; [|exact Y].
        assert (j = i /\ l = k) as (-> & ->) by lia. congruence.
  - intros l H. unfold acquire, set2; cbn. destruct ((i =? i) && (l =? k)) eqn:E; [lia|reflexivity].
Qed.

Lemma init_ok mpe s i : oinv s -> h_alive s i = true -> (forall k, h_ptr s i k = None) ->
  oinv (initialize mpe s i) /\ h_alive (initialize mpe s i) = h_alive s /\ forall l, l <> 2 -> h_ptr (initialize mpe s i) i l = None.
Proof.
  intros O Hi HP. unfold initialize. destruct mpe; [|auto]. destruct (acquire_ok s i 2 O Hi ltac:(lia) (HP 2)) as (O' & A & F).
  split; [exact O'|]. split; [exact A|]. intros l Hl. rewrite F by exact Hl. apply HP.
Qed.

(** Objects with a buffer have it as long as they exist. *)
Definition obuf (mpe : bool) (s : heap) : Prop := mpe = true -> forall x, h_alive s x = true -> has_buffer s x = true.

Lemma buf_acquire i k s x : has_buffer s x = true \/ (x = i /\ k = 2) -> has_buffer (acquire i k s) x = true.
Proof.
  unfold has_buffer, acquire, set2; cbn [h_ptr]. intros [H|(-> & ->)]; [destruct ((x =? i) && (2 =? k)); [reflexivity|exact H]|].
  rewrite Z.eqb_refl. reflexivity.
Qed.

Lemma buf_free s i s' x : oinv s -> free_memory s i = Ok s' -> x <> i -> has_buffer s' x = has_buffer s x.
Proof. intros O E N. destruct (free_ok s i O) as (t & F & _ & _ & _ & P). rewrite E in F. injection F as <-. unfold has_buffer. rewrite P by exact N. reflexivity. Qed.

Lemma buf_init s i x : x = i \/ has_buffer s x = true -> has_buffer (initialize true s i) x = true.
Proof. intros H. unfold initialize. apply buf_acquire. destruct H; auto. Qed.

Lemma Ok_inj {A} (a b : A) : Ok a = Ok b -> a = b.
Proof. congruence. Qed.

Lemma obuf_step mpe s o s' : oinv s -> obuf mpe s -> no_copy o = true -> o_step mpe s o = Ok s' -> obuf mpe s'.
Proof.
  intros O Bf NC E M. subst mpe. specialize (Bf eq_refl). revert E.
  assert (I : forall t i, h_alive (initialize true t i) = h_alive t) by reflexivity.
  destruct o as [i|i a b|i|i|i|i j|i j]; try discriminate NC; cbn [o_step]; destruct (h_alive s i) eqn:Hi; try discriminate.
  - intros E x. apply Ok_inj in E. subst s'. rewrite I. cbn [with_alive h_alive]. unfold set1. intros X. apply buf_init. destruct (x =? i) eqn:Q; [left; lia|right]. apply (Bf x X).
  - destruct (free_ok s i O) as (s1 & F & _ & A1 & _). rewrite F. cbn [bind]. intros E x X. apply Ok_inj in E. subst s'.
    assert (Y : h_alive s x = true) by (rewrite <- A1; destruct a, b; exact X).
    assert (Z1 : has_buffer (initialize true s1 i) x = true).
    { apply buf_init. destruct (Z.eq_dec x i) as [->|N]; [auto|right]. rewrite (buf_free s i s1 x O F N). apply Bf. exact Y. }
    set (t := initialize true s1 i) in *. clearbody t. destruct a, b; repeat (apply buf_acquire; left); exact Z1.
  - cbn [andb]. destruct (negb (has_buffer s i)); [discriminate|]. destruct (usable s i 0 && usable s i 1 && usable s i 2); [|discriminate]. intros [= <-]. exact Bf.
  - destruct (free_ok s i O) as (s1 & F & _ & A1 & _). rewrite F. cbn [bind]. intros E x X. apply Ok_inj in E. subst s'. rewrite I, A1 in X.
    apply buf_init. destruct (Z.eq_dec x i) as [->|N]; [auto|right]. rewrite (buf_free s i s1 x O F N). apply Bf. exact X.
  - destruct (free_ok s i O) as (s1 & F & _ & A1 & _). rewrite F. cbn [bind]. intros E x X. apply Ok_inj in E. subst s'. cbn [with_alive h_alive] in X. unfold set1 in X.
    destruct (x =? i) eqn:Q; [discriminate|]. rewrite A1 in X. change (has_buffer s1 x = true). rewrite (buf_free s i s1 x O F) by lia. apply Bf. exact X.
Qed.

Lemma oinv_step mpe s o : oinv s -> obuf mpe s -> no_copy o = true -> match o_step mpe s o with Ok s' => oinv s' | Ub k => k = UB_uninit | AssertFail => False end.
Proof.
  intros O Bf NC. destruct o as [i|i a b|i|i|i|i j|i j]; try discriminate NC; cbn [o_step].
  - destruct (h_alive s i) eqn:Hi; [reflexivity|].
    assert (O' : oinv (with_alive s i true)).
    { destruct O as (A & B & C & D). unfold oinv, with_alive; cbn. split; [exact A|]. split; [|split; [exact C|exact D]].
      intros j k id X. destruct (B _ _ _ X) as (X1 & X2 & X3). split; [unfold set1; destruct (j =? i); auto|auto]. }
    apply (init_ok mpe _ i O'); [cbn; unfold set1; rewrite Z.eqb_refl; reflexivity|].
    intros k. cbn. destruct (h_ptr s i k) eqn:E; [|reflexivity]. destruct O as (_ & B & _). destruct (B _ _ _ E). congruence.
  - destruct (h_alive s i) eqn:Hi; [|reflexivity]. destruct (free_ok s i O) as (s1 & -> & O1 & A1 & P1 & _). cbn [bind].
    destruct (init_ok mpe s1 i O1 ltac:(congruence) P1) as (O2 & A2 & P2). set (s2 := initialize mpe s1 i) in *. clearbody s2.
    assert (X : exists s3, (if a then acquire i 0 s2 else s2) = s3 /\ oinv s3 /\ h_alive s3 i = true /\ h_ptr s3 i 1 = None).
    { destruct a; eexists; (split; [reflexivity|]).
      - destruct (acquire_ok s2 i 0 O2 ltac:(congruence) ltac:(lia) (P2 0 ltac:(lia))) as (O3 & A3 & F3). split; [exact O3|]. split; [congruence|]. rewrite F3 by lia. apply P2. lia.
      - split; [exact O2|]. split; [congruence|]. apply P2. lia. }
    destruct X as (s3 & -> & O3 & A3 & P3). destruct b; [|exact O3]. apply acquire_ok; auto; lia.
  - destruct (h_alive s i) eqn:Hi; [|reflexivity]. destruct O as (A & B & C & D).
    assert (U : forall k, usable s i k = true). { intros k. unfold usable. destruct (h_ptr s i k) eqn:E; [|reflexivity]. apply (B _ _ _ E). }
    assert (X : mpe && negb (has_buffer s i) = false) by (destruct mpe; [rewrite (Bf eq_refl i Hi)|]; reflexivity).
    rewrite X, !U. cbn. unfold oinv. auto.
  - destruct (h_alive s i) eqn:Hi; [|reflexivity]. destruct (free_ok s i O) as (s1 & -> & O1 & A1 & P1 & _). cbn [bind]. apply init_ok; auto. congruence.
  - destruct (h_alive s i) eqn:Hi; [|reflexivity]. destruct (free_ok s i O) as (s1 & -> & O1 & A1 & P1 & _). cbn [bind].
    destruct O1 as (A & B & C & D). unfold oinv, with_alive; cbn. split; [exact A|]. split; [|split; [exact C|exact D]].
    intros j k id X. destruct (B _ _ _ X) as (X1 & X2 & X3). split; [|auto]. unfold set1. destruct (j =? i) eqn:E; [|exact X1].
    assert (j = i) by lia. subst j. rewrite P1 in X. discriminate.
Qed.

Lemma obuf_init mpe : obuf mpe no_heap.
Proof. intros _ x X. discriminate. Qed.

Lemma oinv_run mpe ops : forall s, oinv s -> obuf mpe s -> forallb no_copy ops = true ->
  match o_run mpe s ops with Ok s' => oinv s' | Ub k => k = UB_uninit | AssertFail => False end.
Proof.
  unfold o_run. induction ops as [|o r IH]; intros s O Bf; cbn [foldM forallb]; [intros _; exact O|]. intros H. apply Bool.andb_true_iff in H. destruct H as (H1 & H2).
  pose proof (oinv_step mpe s o O Bf H1) as S. destruct (o_step mpe s o) eqn:E; cbn [bind]; [exact (IH _ S (obuf_step _ _ _ _ O Bf H1 E) H2)|exact S|exact S].
Qed.

(** ** The theorems *)
Lemma obuf_run mpe ops : forall s s', oinv s -> obuf mpe s -> forallb no_copy ops = true -> o_run mpe s ops = Ok s' -> obuf mpe s'.
Proof.
  unfold o_run. induction ops as [|o r IH]; intros s s' O Bf; cbn [foldM forallb]; [intros _ [= <-]; exact Bf|]. intros H. apply Bool.andb_true_iff in H. destruct H as (H1 & H2).
  pose proof (oinv_step mpe s o O Bf H1) as S. destruct (o_step mpe s o) eqn:E; cbn [bind]; try discriminate. exact (IH _ _ S (obuf_step _ _ _ _ O Bf H1 E) H2).
Qed.

Lemma alive_step mpe s o s' : oinv s -> no_copy o = true -> o_step mpe s o = Ok s' ->
  forall x, h_alive s' x = match o with ONew i => (x =? i) || h_alive s x | ODrop i => negb (x =? i) && h_alive s x | _ => h_alive s x end.
Proof.
  intros O NC. assert (I : forall t i, h_alive (initialize mpe t i) = h_alive t) by (intros; unfold initialize; destruct mpe; reflexivity).
  destruct o as [i|i a b|i|i|i|i j|i j]; try discriminate NC; cbn [o_step]; destruct (h_alive s i) eqn:Hi; try discriminate.
  - intros [= <-] x. rewrite I. cbn. unfold set1. destruct (x =? i); reflexivity.
  - destruct (free_ok s i O) as (s1 & -> & _ & A1 & _). cbn [bind]. intros [= <-] x. destruct a, b; cbn; rewrite I, A1; reflexivity.
  - destruct (mpe && negb (has_buffer s i)); [discriminate|]. destruct (usable s i 0 && usable s i 1 && usable s i 2); [|discriminate]. intros [= <-] x. reflexivity.
  - destruct (free_ok s i O) as (s1 & -> & _ & A1 & _). cbn [bind]. intros [= <-] x. rewrite I, A1. reflexivity.
  - destruct (free_ok s i O) as (s1 & -> & _ & A1 & _). cbn [bind]. intros [= <-] x. cbn. unfold set1. rewrite A1. destruct (x =? i); reflexivity.
Qed.

Lemma scoped_ext ops : forall e e', (forall x, e x = e' x) -> scoped e ops = scoped e' ops.
Proof.
  induction ops as [|o r IH]; intros e e' H; cbn; [reflexivity|]. destruct o; rewrite ?H; f_equal; apply IH; intros; rewrite ?H; reflexivity.
Qed.

Lemma scoped_run mpe ops : forall s, oinv s -> obuf mpe s -> forallb no_copy ops = true -> if scoped (h_alive s) ops then exists s', o_run mpe s ops = Ok s' /\ oinv s' else o_run mpe s ops = Ub UB_uninit.
Proof.
  unfold o_run. induction ops as [|o r IH]; intros s O Bf H; [exists s; auto|]. cbn [forallb] in H. apply Bool.andb_true_iff in H. destruct H as (H1 & H2).
  cbn [foldM]. pose proof (oinv_step mpe s o O Bf H1) as S. pose proof (alive_step mpe s o) as A.
  destruct (o_step mpe s o) as [s1|k|] eqn:E; [|subst k|elim S]; cbn [bind].
  - specialize (A s1 O H1 eq_refl). specialize (IH s1 S (obuf_step mpe s o s1 O Bf H1 E) H2). revert E IH.
    destruct o as [i|i a b|i|i|i|i j|i j]; try discriminate H1; cbn [o_step scoped]; destruct (h_alive s i); try discriminate; intros _; cbn [negb andb];
      rewrite (scoped_ext r _ _ A); auto.
  - revert E. destruct o as [i|i a b|i|i|i|i j|i j]; try discriminate H1; cbn [o_step scoped]; destruct (h_alive s i) eqn:Hi; try discriminate; cbn [negb andb]; try reflexivity.
    + destruct (free_ok s i O) as (x & -> & _). discriminate.
    + destruct (mpe && negb (has_buffer s i)); [discriminate|]. destruct (usable s i 0 && usable s i 1 && usable s i 2); discriminate.
    + destruct (free_ok s i O) as (x & -> & _). discriminate.
    + destruct (free_ok s i O) as (x & -> & _). discriminate.
Qed.

Lemma own_safe mpe ops : forallb no_copy ops = true -> scoped (fun _ => false) ops = true ->
  exists s, o_run mpe no_heap ops = Ok s /\ ((forall i, h_alive s i = false) -> forall id, h_live s id = false).
Proof.
  intros H SC. pose proof (scoped_run mpe ops no_heap oinv_init (obuf_init mpe) H) as R. cbn [no_heap h_alive] in R. rewrite SC in R. destruct R as (s & R & O). exists s. split; [exact R|].
  intros E id. destruct (h_live s id) eqn:L; [|reflexivity]. destruct O as (_ & B & _ & D). destruct (D id L) as (i & k & P). destruct (B _ _ _ P) as (X & _). rewrite E in X. discriminate.
Qed.

Lemma own_unique mpe ops s : forallb no_copy ops = true -> o_run mpe no_heap ops = Ok s ->
  forall id, h_live s id = true -> exists i k, h_alive s i = true /\ h_ptr s i k = Some id /\ forall j l, h_ptr s j l = Some id -> j = i /\ l = k.
Proof.
  intros H R id L. pose proof (oinv_run mpe ops _ oinv_init (obuf_init mpe) H) as O. rewrite R in O. destruct O as (A & B & C & D).
  destruct (D id L) as (i & k & P). exists i, k. destruct (B _ _ _ P) as (X & _). split; [exact X|]. split; [exact P|]. intros j l Q. eapply C; eauto.
Qed.

Lemma run_app mpe a b s : o_run mpe s (a ++ b) = let* s := o_run mpe s a in o_run mpe s b.
Proof. unfold o_run. revert s. induction a as [|o r IH]; intros s; cbn; [reflexivity|]. destruct (o_step mpe s o); cbn; auto. Qed.

Lemma release_dead s i k id : h_ptr s i k = Some id -> h_live s id = false -> release i s k = Ub UB_freed.
Proof. intros E L. unfold release. rewrite E, L. reflexivity. Qed.

Lemma release_any s i k : release i s k = Ub UB_freed \/ exists s', release i s k = Ok s' /\
  (forall id, h_live s id = false -> h_live s' id = false) /\ forall j l, (j <> i \/ l <> k) -> h_ptr s' j l = h_ptr s j l.
Proof.
  unfold release. destruct (h_ptr s i k) as [id|]; [|right; exists s; auto]. destruct (h_live s id); [|left; reflexivity].
  right. eexists. split; [reflexivity|]. cbn. split.
  - intros x Hx. unfold set1. destruct (x =? id); auto.
  - intros j l H. unfold set2. destruct ((j =? i) && (l =? k)) eqn:E; [lia|reflexivity].
Qed.

Lemma free_dead s i k id : 0 <= k <= 2 -> h_ptr s i k = Some id -> h_live s id = false -> free_memory s i = Ub UB_freed.
Proof.
  intros Hk E L. unfold free_memory. cbn [foldM]. assert (X : k = 0 \/ k = 1 \/ k = 2) by lia. destruct X as [->|[->| ->]].
  - rewrite (release_dead s i 0 id E L). reflexivity.
  - destruct (release_any s i 0) as [->|(s0 & -> & L0 & P0)]; [reflexivity|]. cbn [bind].
    rewrite (release_dead s0 i 1 id) by (try rewrite P0; auto; lia). reflexivity.
  - destruct (release_any s i 0) as [->|(s0 & -> & L0 & P0)]; [reflexivity|]. cbn [bind].
    destruct (release_any s0 i 1) as [->|(s1 & -> & L1 & P1)]; [reflexivity|]. cbn [bind].
    rewrite (release_dead s1 i 2 id); [reflexivity| |auto]. rewrite P1, P0 by lia. exact E.
Qed.

(** A copy of [j], destroyed: the blocks of [j] are gone. *)
Lemma copy_drop s i j : oinv s -> h_alive s i = false -> h_alive s j = true ->
  exists s', free_memory (copy_ptrs s i j) i = Ok s' /\ h_alive s' j = true /\ (forall k, h_ptr s' j k = h_ptr s j k) /\
    forall k id, h_ptr s j k = Some id -> h_live s' id = false.
Proof.
  intros O Hi Hj. assert (i <> j) by congruence. pose proof O as (A & B & C & D).
  assert (R : forall t k, 0 <= k <= 2 -> h_alive t j = true -> (forall l, k <= l <= 2 -> h_ptr t i l = h_ptr s j l) -> (forall l, h_ptr t j l = h_ptr s j l) ->
      (forall l id, k <= l <= 2 -> h_ptr s j l = Some id -> h_live t id = true) -> (forall l id, 0 <= l < k -> h_ptr s j l = Some id -> h_live t id = false) ->
      exists t', release i t k = Ok t' /\ h_alive t' j = true /\ (forall l, k + 1 <= l <= 2 -> h_ptr t' i l = h_ptr s j l) /\ (forall l, h_ptr t' j l = h_ptr s j l) /\
      (forall l id, k + 1 <= l <= 2 -> h_ptr s j l = Some id -> h_live t' id = true) /\ (forall l id, 0 <= l < k + 1 -> h_ptr s j l = Some id -> h_live t' id = false)).
  { intros t k Hk Ta Ti Tj Tl Td. unfold release. rewrite Ti by lia. destruct (h_ptr s j k) as [id|] eqn:E.
    - rewrite (Tl k id) by (auto; lia). eexists. split; [reflexivity|]. cbn. split; [exact Ta|]. split; [|split; [|split]].
      + intros l Hl. unfold set2. destruct ((i =? i) && (l =? k)) eqn:X; [lia|]. apply Ti. lia.
      + intros l. unfold set2. destruct ((j =? i) && (l =? k)) eqn:X; [lia|]. apply Tj.
      + intros l x Hl Px. unfold set1. destruct (x =? id) eqn:X; [|apply (Tl l); auto; lia]. assert (x = id) by lia. subst x. destruct (C _ _ _ _ _ Px E). lia.
      + intros l x Hl Px. unfold set1. destruct (x =? id) eqn:X; [reflexivity|]. destruct (Z.eq_dec l k) as [->|N]; [rewrite E in Px; injection Px as <-; lia|]. apply (Td l); auto; lia.
    - exists t. split; [reflexivity|]. split; [exact Ta|]. split; [intros; apply Ti; lia|]. split; [exact Tj|]. split; [intros l x Hl; apply Tl; lia|].
      intros l x Hl Px. destruct (Z.eq_dec l k) as [->|N]; [congruence|]. apply (Td l); auto; lia. }
  destruct (R (copy_ptrs s i j) 0 ltac:(lia)) as (t0 & E0 & R01 & R02 & R03 & R04 & R05).
  - cbn. unfold set1. destruct (j =? i); auto.
  - intros l _. cbn. rewrite Z.eqb_refl. reflexivity.
  - intros l. cbn. destruct (j =? i) eqn:E; [lia|reflexivity].
  - intros l id _ P. cbn. apply (B _ _ _ P).
  - intros; lia.
  - destruct (R t0 1 ltac:(lia) R01 R02 R03 R04 R05) as (t1 & E1 & R11 & R12 & R13 & R14 & R15).
    destruct (R t1 2 ltac:(lia) R11 R12 R13 R14 R15) as (t2 & E2 & R21 & R22 & R23 & R24 & R25).
    exists t2. unfold free_memory. cbn [foldM]. rewrite E0. cbn [bind]. rewrite E1. cbn [bind]. rewrite E2. cbn [bind].
    split; [reflexivity|]. split; [exact R21|]. split; [exact R23|]. intros k id P. destruct (B _ _ _ P) as (_ & K & _). apply (R25 k); [lia|exact P].
Qed.

Lemma own_copy mpe ops s i j k id : forallb no_copy ops = true -> o_run mpe no_heap ops = Ok s -> h_alive s i = false -> h_ptr s j k = Some id ->
  o_run mpe no_heap (ops ++ [OCopy i j; ODrop i; OUse j]) = Ub UB_freed /\
  o_run mpe no_heap (ops ++ [OCopy i j; ODrop i; ODrop j]) = Ub UB_freed.
Proof.
  intros H R Hi P. pose proof (oinv_run mpe ops _ oinv_init (obuf_init mpe) H) as O. rewrite R in O. pose proof O as (_ & B & _). destruct (B _ _ _ P) as (Hj & Hk & L).
  assert (i <> j) by congruence.
  destruct (copy_drop s i j O Hi Hj) as (s' & E & A' & P' & L').
  assert (S1 : o_step mpe s (OCopy i j) = Ok (copy_ptrs s i j)) by (cbn [o_step]; rewrite Hi, Hj; reflexivity).
  assert (S2 : o_step mpe (copy_ptrs s i j) (ODrop i) = Ok (with_alive s' i false)).
  { cbn [o_step]. assert (X : h_alive (copy_ptrs s i j) i = true) by (cbn; unfold set1; rewrite Z.eqb_refl; reflexivity). rewrite X, E. reflexivity. }
  assert (A2 : h_alive (with_alive s' i false) j = true) by (cbn; unfold set1; destruct (j =? i) eqn:Q; [lia|exact A']).
  rewrite !run_app, R. cbn [bind]. unfold o_run. cbn [foldM]. rewrite S1. cbn [bind]. rewrite S2. cbn [bind o_step]. rewrite A2.
  assert (HB : mpe && negb (has_buffer (with_alive s' i false) j) = false).
  { destruct mpe; [|reflexivity]. unfold has_buffer. cbn. rewrite P'. pose proof (obuf_run true ops no_heap s oinv_init (obuf_init true) H R eq_refl j Hj) as X.
    unfold has_buffer in X. destruct (h_ptr s j 2); [reflexivity|discriminate]. }
  rewrite HB. split.
  - assert (U : usable (with_alive s' i false) j k = false) by (unfold usable; cbn; rewrite P', P; apply (L' k); exact P).
    assert (X : k = 0 \/ k = 1 \/ k = 2) by lia. destruct X as [->|[->| ->]]; rewrite U; rewrite ?Bool.andb_false_r; reflexivity.
  - rewrite (free_dead (with_alive s' i false) j k id Hk); [reflexivity| |apply (L' k); exact P].
    cbn. rewrite P'. exact P.
Qed.

(** ** Memory that no object refers to stays *)
Definition lost (id : Z) (s : heap) : Prop := id < h_next s /\ h_live s id = true /\ forall a l, h_ptr s a l <> Some id.

Lemma lost_release id i s k s' : lost id s -> release i s k = Ok s' -> lost id s'.
Proof.
  intros L. pose proof L as (A & B & C). unfold release. destruct (h_ptr s i k) as [x|] eqn:E; [|intros [= <-]; exact L].
  destruct (h_live s x); [|discriminate]. intros [= <-]. unfold lost; cbn. split; [exact A|]. split.
  - unfold set1. destruct (id =? x) eqn:X; [|exact B]. assert (id = x) by lia. subst x. elim (C _ _ E).
  - intros a l. unfold set2. destruct ((a =? i) && (l =? k)); [discriminate|apply C].
Qed.

Lemma lost_free id s i s' : lost id s -> free_memory s i = Ok s' -> lost id s'.
Proof.
  intros L. unfold free_memory. cbn [foldM]. destruct (release i s 0) as [s0| |] eqn:E0; cbn [bind]; try discriminate.
  destruct (release i s0 1) as [s1| |] eqn:E1; cbn [bind]; try discriminate. destruct (release i s1 2) as [s2| |] eqn:E2; cbn [bind]; try discriminate.
  intros [= <-]. eapply lost_release; [|exact E2]. eapply lost_release; [|exact E1]. eapply lost_release; [exact L|exact E0].
Qed.

Lemma lost_acquire id i k s : lost id s -> lost id (acquire i k s).
Proof.
  intros (A & B & C). unfold lost, acquire; cbn. split; [lia|]. split; [unfold set1; destruct (id =? h_next s); auto|].
  intros a l. unfold set2. destruct ((a =? i) && (l =? k)); [intros [= X]; lia|apply C].
Qed.

Lemma lost_init id mpe s i : lost id s -> lost id (initialize mpe s i).
Proof. intros L. unfold initialize. destruct mpe; [apply lost_acquire|]; exact L. Qed.

Lemma lost_copy id s i j : lost id s -> lost id (copy_ptrs s i j).
Proof. intros (A & B & C). unfold lost, copy_ptrs; cbn. split; [exact A|]. split; [exact B|]. intros a l. destruct (a =? i); apply C. Qed.

Lemma lost_step id mpe s o s' : lost id s -> o_step mpe s o = Ok s' -> lost id s'.
Proof.
  intros L. destruct o as [i|i a b|i|i|i|i j|i j]; cbn [o_step].
  - destruct (h_alive s i); [discriminate|]. intros [= <-]. apply lost_init. exact L.
  - destruct (h_alive s i); [|discriminate]. destruct (free_memory s i) as [t| |] eqn:F; cbn [bind]; try discriminate. intros [= <-].
    pose proof (lost_init id mpe t i (lost_free id s i t L F)) as L2. destruct a, b; repeat apply lost_acquire; exact L2.
  - destruct (h_alive s i); [|discriminate]. destruct (mpe && negb (has_buffer s i)); [discriminate|]. destruct (usable s i 0 && usable s i 1 && usable s i 2); [|discriminate]. intros [= <-]. exact L.
  - destruct (h_alive s i); [|discriminate]. destruct (free_memory s i) as [t| |] eqn:F; cbn [bind]; try discriminate. intros [= <-]. apply lost_init, (lost_free id s i); auto.
  - destruct (h_alive s i); [|discriminate]. destruct (free_memory s i) as [t| |] eqn:F; cbn [bind]; try discriminate. intros [= <-]. exact (lost_free id s i t L F).
  - destruct (h_alive s j && negb (h_alive s i)); [|discriminate]. intros [= <-]. apply lost_copy. exact L.
  - destruct (h_alive s j && h_alive s i); [|discriminate]. intros [= <-]. apply lost_copy. exact L.
Qed.

Lemma lost_run id mpe ops : forall s s', lost id s -> o_run mpe s ops = Ok s' -> lost id s'.
Proof.
  unfold o_run. induction ops as [|o r IH]; intros s s' L; cbn [foldM]; [intros [= <-]; exact L|].
  destruct (o_step mpe s o) as [t| |] eqn:E; cbn [bind]; try discriminate. apply IH. eapply lost_step; eauto.
Qed.

Lemma own_assign mpe ops s i j k id : forallb no_copy ops = true -> o_run mpe no_heap ops = Ok s -> h_alive s j = true -> i <> j -> h_ptr s i k = Some id ->
  forall more s', o_run mpe no_heap (ops ++ OAssign i j :: more) = Ok s' -> h_live s' id = true /\ forall a l, h_ptr s' a l <> Some id.
Proof.
  intros H R Hj N P more s'. pose proof (oinv_run mpe ops _ oinv_init (obuf_init mpe) H) as O. rewrite R in O. destruct O as (A & B & C & D). destruct (B _ _ _ P) as (Hi & _ & L).
  rewrite run_app, R. cbn [bind]. unfold o_run. cbn [foldM o_step]. rewrite Hi, Hj. cbn [andb bind]. intros E.
  apply (lost_run id mpe more (copy_ptrs s i j)); [|exact E]. unfold lost, copy_ptrs; cbn. split; [apply A; exact L|]. split; [exact L|].
  intros a l X. destruct (a =? i) eqn:Q; [destruct (C _ _ _ _ _ P X); congruence|destruct (C _ _ _ _ _ P X); lia].
Qed.

Lemma own_copy_refuted mpe : exists ops, scoped (fun _ => false) ops = true /\ o_run mpe no_heap ops = Ub UB_freed.
Proof. exists [ONew 0; OBuild 0 true true; OCopy 1 0; ODrop 1; ODrop 0]. split; [reflexivity|]. destruct mpe; vm_compute; reflexivity. Qed.

Lemma own_leak_refuted : exists ops s id, scoped (fun _ => false) ops = true /\ o_run false no_heap ops = Ok s /\ (forall i, h_alive s i = false) /\ h_live s id = true.
Proof.
  exists [ONew 0; OBuild 0 true true; ONew 1; OAssign 0 1; ODrop 0; ODrop 1]. eexists. exists 0. split; [reflexivity|]. split; [vm_compute; reflexivity|].
  split; [|vm_compute; reflexivity]. intros i. cbn [h_alive].
  destruct i as [|[p|p|]|p]; reflexivity.
Qed.
