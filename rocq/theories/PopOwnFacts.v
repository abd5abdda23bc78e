(** Facts for C126. *)
From Coq Require Import ZifyBool.
From Verif Require Import Base BaseFacts SpecPopOwn MrOwn MrOwnFacts PopOwn.

(** Ownership alone: as in MrOwnFacts, for any number of members. *)
Definition pown (s : heap) : Prop :=
  (forall id, h_live s id = true -> id < h_next s) /\
  (forall i k id, h_ptr s i k = Some id -> h_live s id = true) /\
  (forall i k j l id, h_ptr s i k = Some id -> h_ptr s j l = Some id -> i = j /\ k = l) /\
  (forall id, h_live s id = true -> exists i k, h_ptr s i k = Some id).
Definition pinv (st : pheap) : Prop := pown (fst st) /\
  forall i k id, h_ptr (fst st) i k = Some id -> h_alive (fst st) i = true /\ 0 <= k < 2 + snd st i.

Lemma pinv_init : pinv no_pheap.
Proof. split; [split; [|split; [|split]]|]; cbn; intros; discriminate. Qed.

Lemma prelease_ok s i k : pown s -> exists s', release i s k = Ok s' /\ pown s' /\ h_alive s' = h_alive s /\
  h_ptr s' i k = None /\ forall j l, (j <> i \/ l <> k) -> h_ptr s' j l = h_ptr s j l.
Proof.
  intros O. pose proof O as (A & B & C & D). unfold release. destruct (h_ptr s i k) as [id|] eqn:E; [|exists s; auto 6].
  rewrite (B _ _ _ E). eexists. split; [reflexivity|]. cbn. split; [|split; [reflexivity|split]].
  - unfold pown; cbn. split; [|split; [|split]].
    + intros x. unfold set1. destruct (x =? id); [discriminate|apply A].
    + intros j l x. unfold set2, set1. destruct ((j =? i) && (l =? k)) eqn:Ej; [discriminate|]. intros X. pose proof (B _ _ _ X) as X3.
      destruct (x =? id) eqn:Ex; [|exact X3]. assert (x = id) by lia. subst x. destruct (C _ _ _ _ _ X E). lia.
    + intros j l j' l' x. unfold set2. destruct ((j =? i) && (l =? k)); [discriminate|]. destruct ((j' =? i) && (l' =? k)); [discriminate|]. apply C.
    + intros x. unfold set1. destruct (x =? id) eqn:Ex; [discriminate|]. intros X. destruct (D x X) as (j & l & Y). exists j, l. unfold set2.
      destruct ((j =? i) && (l =? k)) eqn:Ej; [|exact Y]. assert (j = i /\ l = k) as (-> & ->) by lia. rewrite E in Y. injection Y as <-. lia.
  - unfold set2. rewrite !Z.eqb_refl. reflexivity.
  - intros j l H. unfold set2. destruct ((j =? i) && (l =? k)) eqn:Ej; [lia|reflexivity].
Qed.

Lemma prelease_all i l : forall s, pown s -> exists s', foldM (release i) l s = Ok s' /\ pown s' /\ h_alive s' = h_alive s /\
  (forall k, In k l \/ h_ptr s i k = None -> h_ptr s' i k = None) /\ forall j k, j <> i -> h_ptr s' j k = h_ptr s j k.
Proof.
  induction l as [|k r IH]; intros s O; cbn [foldM].
  - exists s. split; [reflexivity|]. split; [exact O|]. split; [reflexivity|]. split; [|reflexivity]. intros k [[]|H]. exact H.
  - destruct (prelease_ok s i k O) as (s1 & -> & O1 & A1 & P1 & F1). cbn [bind]. destruct (IH s1 O1) as (s2 & -> & O2 & A2 & P2 & F2).
    exists s2. split; [reflexivity|]. split; [exact O2|]. split; [congruence|]. split.
    + intros x H. apply P2. destruct (Z.eq_dec x k) as [->|N]; [auto|]. rewrite F1 by auto. destruct H as [[H|H]|H]; [lia|auto|auto].
    + intros j x H. rewrite F2, F1 by auto. reflexivity.
Qed.

Lemma pacquire_ok s i k : pown s -> h_ptr s i k = None -> pown (acquire i k s) /\
  (forall j l id, h_ptr (acquire i k s) j l = Some id -> h_ptr s j l = Some id \/ (j = i /\ l = k)) /\ (forall l, l <> k -> h_ptr (acquire i k s) i l = h_ptr s i l) /\
  exists id, h_ptr (acquire i k s) i k = Some id /\ h_live (acquire i k s) id = true.
Proof.
  intros (A & B & C & D) HP. split; [|split; [|split]].
  - unfold pown, acquire; cbn. split; [|split; [|split]].
    + intros x. unfold set1. destruct (x =? h_next s) eqn:E; [lia|]. intros X. apply A in X. lia.
    + intros j l x. unfold set2, set1. destruct ((j =? i) && (l =? k)) eqn:Ej.
      * intros [= <-]. rewrite Z.eqb_refl. reflexivity.
      * intros X. destruct (x =? h_next s); [reflexivity|exact (B _ _ _ X)].
    + intros j l j' l' x. unfold set2. destruct ((j =? i) && (l =? k)) eqn:E1, ((j' =? i) && (l' =? k)) eqn:E2.
      * lia.
      * intros [= <-] X. apply B, A in X. lia.
      * intros X [= <-]. apply B, A in X. lia.
      * apply C.
    + intros x. unfold set1. destruct (x =? h_next s) eqn:E.
      * intros _. exists i, k. unfold set2. rewrite !Z.eqb_refl. cbn. f_equal. lia.
      * intros X. destruct (D x X) as (j & l & Y). exists j, l. unfold set2. destruct ((j =? i) && (l =? k)) eqn:Ej; [|exact Y].
        assert (j = i /\ l = k) as (-> & ->) by lia. congruence.
  - intros j l id. unfold acquire, set2; cbn. destruct ((j =? i) && (l =? k)) eqn:E; [right; lia|auto].
  - intros l H. unfold acquire, set2; cbn. destruct ((i =? i) && (l =? k)) eqn:E; [lia|reflexivity].
  - exists (h_next s). unfold acquire, set1, set2; cbn. rewrite !Z.eqb_refl. auto.
Qed.

Lemma pacquire_all i n : forall lo s, pown s -> (forall k, 2 + lo <= k -> h_ptr s i k = None) ->
  let s' := fold_left (fun s c => acquire i (2 + c) s) (zrange lo n) s in
  pown s' /\ h_alive s' = h_alive s /\ (forall j l id, h_ptr s' j l = Some id -> h_ptr s j l = Some id \/ (j = i /\ 2 + lo <= l < 2 + lo + Z.of_nat n)).
Proof.
  induction n as [|n IH]; intros lo s O H; cbn [zrange fold_left]; [split; [exact O|split; [reflexivity|auto]]|].
  destruct (pacquire_ok s i (2 + lo) O (H (2 + lo) ltac:(lia))) as (O1 & P1 & F1 & _). replace (Z.succ lo) with (lo + 1) in * by lia.
  destruct (IH (lo + 1) (acquire i (2 + lo) s) O1) as (O2 & A2 & P2); [intros k Hk; rewrite F1 by lia; apply H; lia|].
  split; [exact O2|]. split; [exact A2|]. intros j l id X. destruct (P2 j l id X) as [Y|(-> & Y)]; [|right; lia]. destruct (P1 j l id Y) as [Z1|(-> & ->)]; [auto|right; lia].
Qed.

Lemma pinv_step st o e : pinv st -> (forall x, e x = h_alive (fst st) x) -> pscoped e [o] = true ->
  exists st', p_step st o = Ok st' /\ pinv st' /\
    forall x, h_alive (fst st') x = match o with PNew i _ _ _ => (x =? i) || e x | PDrop i => negb (x =? i) && e x | _ => e x end.
Proof.
  destruct st as (s & cnt). intros (O & G) HE SC. cbn [fst snd] in *. destruct o as [i nbits e1 e2|i|i|i j]; cbn [pscoped] in SC; [| | |discriminate].
  - assert (Hi : h_alive s i = false) by (rewrite <- HE; destruct (e i); [discriminate|reflexivity]). assert (E1 : e1 = 0) by lia. assert (E2 : e2 = 0) by lia. subst e1 e2.
    assert (HN : 0 <= nbits < 2 ^ 48 + 2 ^ 32) by lia. clear SC.
    cbn [p_step]. rewrite Hi. set (n := Z.max (Z.shiftr nbits 32) 1).
    assert (Hn : 1 <= n <= 2 ^ 16) by (unfold n; rewrite Z.shiftr_div_pow2 by lia; assert (nbits / 2 ^ 32 < 2 ^ 16 + 1) by (apply Z.div_lt_upper_bound; lia); lia). clearbody n.
    assert (N0 : forall k, h_ptr s i k = None) by (intros k; destruct (h_ptr s i k) eqn:E; [destruct (G _ _ _ E); congruence|reflexivity]).
    unfold memalign. cbn [Z.ltb Z.eqb Z.compare bind].
    set (s0 := with_alive s i true). assert (O0 : pown s0) by exact O.
    destruct (pacquire_ok s0 i 0 O0 (N0 0)) as (O1 & P1 & F1 & id1 & X1 & L1). set (s1 := acquire i 0 s0) in *.
    assert (A1 : h_alive s1 = h_alive s0) by reflexivity.
    assert (Y1 : h_ptr s1 i 1 = None) by (rewrite F1 by lia; apply N0).
    destruct (pacquire_ok s1 i 1 O1 Y1) as (O2 & P2 & F2 & id2 & X2 & L2). set (s2 := acquire i 1 s1) in *.
    assert (A2 : h_alive s2 = h_alive s0) by reflexivity.
    assert (X1' : h_ptr s2 i 0 = Some id1) by (rewrite F2 by lia; exact X1).
    unfold written. rewrite X1'. pose proof O2 as (_ & B2 & _). rewrite (B2 _ _ _ X1'). cbn [bind]. rewrite X2, L2. cbn [bind].
    destruct (Z.ltb_spec (2 ^ 16) n) as [Q|_]; [lia|].
    assert (N2 : forall k, 2 + 0 <= k -> h_ptr s2 i k = None) by (intros k Hk; rewrite F2, F1 by lia; apply N0).
    destruct (pacquire_all i (Z.to_nat n) 0 s2 O2 N2) as (O3 & A3 & P3). eexists. split; [reflexivity|]. cbn [fst snd]. split; [split|].
    + exact O3.
    + cbn [fst snd]. rewrite A3, A2. intros j k id X. cbn [s0 with_alive h_alive]. unfold s0, set1.
      cbn [with_alive h_alive].
      assert (K : h_ptr s j k = Some id \/ (j = i /\ 0 <= k < 2 + n)).
      { destruct (P3 j k id X) as [Y|(-> & Y)]; [|right; lia]. destruct (P2 j k id Y) as [Z1|(-> & ->)]; [|right; lia]. destruct (P1 j k id Z1) as [Z2|(-> & ->)]; [auto|right; lia]. }
      destruct (j =? i) eqn:Q; [|destruct K as [K|K]; [apply (G _ _ _ K)|lia]]. assert (j = i) by lia. subst j. destruct K as [K|K]; [rewrite N0 in K; discriminate|]. split; [reflexivity|lia].
    + intros x. rewrite A3, A2. cbn. unfold set1. rewrite HE. destruct (x =? i); reflexivity.
  - assert (Hi : h_alive s i = true) by (rewrite <- HE; destruct (e i); [reflexivity|discriminate]). cbn [p_step]. rewrite Hi.
    assert (U : forallb (usable s i) (members (cnt i)) = true).
    { apply forallb_forall. intros k _. unfold usable. destruct (h_ptr s i k) eqn:E; [|reflexivity]. destruct O as (_ & B & _). exact (B _ _ _ E). }
    rewrite U. eexists. split; [reflexivity|]. split; [split; [exact O|exact G]|]. intros x. cbn. auto.
  - assert (Hi : h_alive s i = true) by (rewrite <- HE; destruct (e i); [reflexivity|discriminate]). cbn [p_step]. rewrite Hi.
    destruct (prelease_all i (members (cnt i)) s O) as (s1 & -> & O1 & A1 & P1 & F1). cbn [bind]. eexists. split; [reflexivity|]. cbn [fst snd]. split; [split|].
    + exact O1.
    + cbn [fst snd with_alive h_alive h_ptr]. intros j k id X. unfold set1. destruct (Z.eq_dec j i) as [->|N].
      * rewrite P1 in X; [discriminate|]. destruct (h_ptr s i k) eqn:E; [|auto]. left. destruct (G _ _ _ E) as (_ & K). unfold members. apply in_zrange. lia.
      * rewrite F1 in X by exact N. destruct (j =? i) eqn:Q; [lia|]. rewrite A1. apply (G _ _ _ X).
    + intros x. cbn. unfold set1. rewrite A1, HE. destruct (x =? i); reflexivity.
Qed.

Lemma pscoped_ext ops : forall e e', (forall x, e x = e' x) -> pscoped e ops = pscoped e' ops.
Proof. induction ops as [|o r IH]; intros e e' H; cbn; [reflexivity|]. destruct o; rewrite ?H; try reflexivity; f_equal; apply IH; intros; rewrite ?H; reflexivity. Qed.

Lemma pinv_run ops : forall st e, pinv st -> (forall x, e x = h_alive (fst st) x) -> pscoped e ops = true -> exists st', p_run st ops = Ok st' /\ pinv st'.
Proof.
  unfold p_run. induction ops as [|o r IH]; intros st e I HE SC; [exists st; auto|]. cbn [foldM].
  assert (S1 : pscoped e [o] = true /\ pscoped (fun x => match o with PNew i _ _ _ => (x =? i) || e x | PDrop i => negb (x =? i) && e x | _ => e x end) r = true).
  { destruct o as [i nb e1 e2|i|i|i j]; cbn [pscoped] in SC |- *; [| | |discriminate].
    - apply Bool.andb_true_iff in SC. destruct SC as (S1 & S2). rewrite S1. auto.
    - apply Bool.andb_true_iff in SC. destruct SC as (S1 & S2). rewrite S1. auto.
    - apply Bool.andb_true_iff in SC. destruct SC as (S1 & S2). rewrite S1. auto. }
  destruct S1 as (S1 & S2). destruct (pinv_step st o e I HE S1) as (st1 & -> & I1 & A1). cbn [bind]. eapply IH; [exact I1| |exact S2]. intros x. rewrite A1. reflexivity.
Qed.

(** ** The theorems *)
Lemma pop_safe ops : pscoped (fun _ => false) ops = true ->
  exists s cnt, p_run no_pheap ops = Ok (s, cnt) /\ ((forall i, h_alive s i = false) -> forall id, h_live s id = false).
Proof.
  intros SC. destruct (pinv_run ops no_pheap (fun _ => false) pinv_init ltac:(reflexivity) SC) as ((s & cnt) & R & (O & G)). exists s, cnt. split; [exact R|].
  intros E id. destruct (h_live s id) eqn:L; [|reflexivity]. destruct O as (_ & _ & _ & D). destruct (D id L) as (i & k & P). destruct (G _ _ _ P) as (X & _). cbn [fst] in X. rewrite E in X. discriminate.
Qed.

Lemma pop_run_app a b st : p_run st (a ++ b) = let* st := p_run st a in p_run st b.
Proof. unfold p_run. revert st. induction a as [|o r IH]; intros st; cbn; [reflexivity|]. destruct (p_step st o); cbn; auto. Qed.

Lemma pop_failed ops s cnt i nbits e1 e2 : pscoped (fun _ => false) ops = true -> p_run no_pheap ops = Ok (s, cnt) -> h_alive s i = false ->
  0 <= e1 -> 0 <= e2 -> 0 < e1 \/ 0 < e2 -> p_run no_pheap (ops ++ [PNew i nbits e1 e2]) = Ub UB_uninit.
Proof.
  intros SC R Hi H1 H2 HF. rewrite pop_run_app, R. cbn [bind]. unfold p_run. cbn [foldM p_step]. rewrite Hi.
  destruct (pinv_run ops no_pheap (fun _ => false) pinv_init ltac:(reflexivity) SC) as (st & R' & I). rewrite R in R'. injection R' as <-. destruct I as (O & G). cbn [fst snd] in *.
  assert (N0 : forall k, h_ptr s i k = None) by (intros k; destruct (h_ptr s i k) eqn:E; [destruct (G _ _ _ E); congruence|reflexivity]).
  unfold memalign. destruct (Z.ltb_spec e1 0); [lia|]. cbn [bind]. destruct (Z.ltb_spec e2 0); [lia|]. cbn [bind].
  assert (O0 : pown (with_alive s i true)) by exact O.
  unfold written. destruct (Z.eqb_spec e1 0) as [->|N1].
  - destruct (Z.eqb_spec e2 0) as [->|N2]; [lia|]. destruct (pacquire_ok (with_alive s i true) i 0 O0 (N0 0)) as (_ & _ & F1 & id1 & X1 & L1). rewrite X1, L1. cbn [bind].
    rewrite F1 by lia. change (h_ptr (with_alive s i true) i 1) with (h_ptr s i 1). rewrite N0. reflexivity.
  - assert (X : h_ptr (if e2 =? 0 then acquire i 1 (with_alive s i true) else with_alive s i true) i 0 = None).
    { destruct (e2 =? 0); [|apply N0]. destruct (pacquire_ok (with_alive s i true) i 1 O0 (N0 1)) as (_ & _ & F1 & _). rewrite F1 by lia. apply N0. }
    rewrite X. reflexivity.
Qed.

Lemma pop_large ops s cnt i nbits : pscoped (fun _ => false) ops = true -> p_run no_pheap ops = Ok (s, cnt) -> h_alive s i = false ->
  2 ^ 48 + 2 ^ 32 <= nbits -> p_run no_pheap (ops ++ [PNew i nbits 0 0]) = Ub UB_bounds.
Proof.
  intros SC R Hi HN. rewrite pop_run_app, R. cbn [bind]. unfold p_run. cbn [foldM p_step]. rewrite Hi.
  destruct (pinv_run ops no_pheap (fun _ => false) pinv_init ltac:(reflexivity) SC) as (st & R' & I). rewrite R in R'. injection R' as <-. destruct I as (O & G). cbn [fst snd] in *.
  assert (N0 : forall k, h_ptr s i k = None) by (intros k; destruct (h_ptr s i k) eqn:E; [destruct (G _ _ _ E); congruence|reflexivity]).
  unfold memalign. cbn [Z.ltb Z.eqb Z.compare bind]. assert (O0 : pown (with_alive s i true)) by exact O.
  destruct (pacquire_ok (with_alive s i true) i 0 O0 (N0 0)) as (O1 & _ & F1 & id1 & X1 & _).
  assert (Y1 : h_ptr (acquire i 0 (with_alive s i true)) i 1 = None) by (rewrite F1 by lia; apply N0).
  destruct (pacquire_ok _ i 1 O1 Y1) as (O2 & _ & F2 & id2 & X2 & L2). rewrite <- F2 in X1 by lia. pose proof O2 as (_ & B2 & _).
  unfold written. rewrite X1, (B2 _ _ _ X1). cbn [bind]. rewrite X2, L2. cbn [bind].
  assert (2 ^ 16 + 1 <= nbits / 2 ^ 32) by (apply Z.div_le_lower_bound; lia). rewrite Z.shiftr_div_pow2 by lia.
  destruct (Z.ltb_spec (2 ^ 16) (Z.max (nbits / 2 ^ 32) 1)) as [_|Q]; [reflexivity|lia].
Qed.

(** ** Copies *)
Lemma zrange_nodup n : forall lo, NoDup (zrange lo n).
Proof.
  induction n as [|n IH]; intros lo; cbn [zrange]; constructor; [|apply IH]. intros H. apply in_zrange in H. lia.
Qed.

Lemma prelease_copy s i j l : pown s -> i <> j -> NoDup l -> forall t, (forall k, In k l -> h_ptr t i k = h_ptr s j k) -> (forall k, h_ptr t j k = h_ptr s j k) ->
  (forall k id, In k l -> h_ptr s j k = Some id -> h_live t id = true) ->
  exists t', foldM (release i) l t = Ok t' /\ h_alive t' = h_alive t /\ (forall k, h_ptr t' j k = h_ptr s j k) /\
    (forall id, h_live t id = false -> h_live t' id = false) /\ forall k id, In k l -> h_ptr s j k = Some id -> h_live t' id = false.
Proof.
  intros O N ND. pose proof O as (_ & _ & C & _). induction ND as [|k r NI ND IH]; intros t Ti Tj Tl; cbn [foldM].
  - exists t. split; [reflexivity|]. split; [reflexivity|]. split; [exact Tj|]. split; [auto|intros k id []].
  - assert (X : exists t1, release i t k = Ok t1 /\ h_alive t1 = h_alive t /\ (forall l, l <> k -> h_ptr t1 i l = h_ptr t i l) /\ (forall l, h_ptr t1 j l = h_ptr t j l) /\
       (forall id, h_ptr s j k <> Some id -> h_live t1 id = h_live t id) /\ (forall id, h_live t id = false -> h_live t1 id = false) /\ forall id, h_ptr s j k = Some id -> h_live t1 id = false).
    { unfold release. rewrite (Ti k) by (left; reflexivity). destruct (h_ptr s j k) as [x|] eqn:E.
      - rewrite (Tl k x) by (auto; left; reflexivity). eexists. split; [reflexivity|]. cbn. split; [reflexivity|]. unfold set1, set2. split; [|split; [|split; [|split]]].
        + intros l Hl. destruct ((i =? i) && (l =? k)) eqn:Q; [lia|reflexivity].
        + intros l. destruct ((j =? i) && (l =? k)) eqn:Q; [lia|reflexivity].
        + intros id H. destruct (id =? x) eqn:Q; [|reflexivity]. elim H. f_equal. lia.
        + intros id H. destruct (id =? x); auto.
        + intros id [= <-]. rewrite Z.eqb_refl. reflexivity.
      - exists t. split; [reflexivity|]. split; [reflexivity|]. split; [reflexivity|]. split; [reflexivity|]. split; [reflexivity|]. split; [auto|discriminate]. }
    destruct X as (t1 & -> & A1 & I1 & J1 & L1 & D1 & K1). cbn [bind].
    destruct (IH t1) as (t2 & E2 & A2 & J2 & D2 & K2).
    + intros l Hl. rewrite I1 by (intros ->; exact (NI Hl)). apply Ti. right. exact Hl.
    + intros l. rewrite J1. apply Tj.
    + intros l id Hl P. rewrite L1; [apply (Tl l); [right; exact Hl|exact P]|]. intros Q. destruct (C _ _ _ _ _ P Q) as (_ & ->). exact (NI Hl).
    + exists t2. split; [exact E2|]. split; [congruence|]. split; [exact J2|]. split; [auto|]. intros l id [<-|Hl] P; [apply D2, K1; exact P|apply (K2 l); auto].
Qed.

Lemma prelease_dead i k id l : In k l -> forall s, h_ptr s i k = Some id -> h_live s id = false -> foldM (release i) l s = Ub UB_freed.
Proof.
  induction l as [|x r IH]; intros HI s P L; [elim HI|]. cbn [foldM]. destruct (Z.eq_dec x k) as [->|N].
  - rewrite (release_dead s i k id P L). reflexivity.
  - destruct HI as [HI|HI]; [congruence|]. destruct (release_any s i x) as [->|(s1 & -> & L1 & P1)]; [reflexivity|]. cbn [bind]. apply IH; auto. rewrite P1 by auto. exact P.
Qed.

Lemma pop_copy ops s cnt i j k id : pscoped (fun _ => false) ops = true -> p_run no_pheap ops = Ok (s, cnt) -> h_alive s i = false -> h_ptr s j k = Some id ->
  p_run no_pheap (ops ++ [PCopy i j; PDrop i; PUse j]) = Ub UB_freed /\ p_run no_pheap (ops ++ [PCopy i j; PDrop i; PDrop j]) = Ub UB_freed.
Proof.
  intros SC R Hi P. destruct (pinv_run ops no_pheap (fun _ => false) pinv_init ltac:(reflexivity) SC) as (st & R' & I). rewrite R in R'. injection R' as <-. destruct I as (O & G). cbn [fst snd] in *.
  destruct (G _ _ _ P) as (Hj & Hk). assert (N : i <> j) by congruence. pose proof O as (_ & B & _).
  assert (IK : In k (members (cnt j))) by (unfold members; apply in_zrange; lia).
  assert (S1 : p_step (s, cnt) (PCopy i j) = Ok (copy_ptrs s i j, set1 cnt i (cnt j))) by (cbn [p_step]; rewrite Hi, Hj; reflexivity).
  destruct (prelease_copy s i j (members (cnt j)) O N (zrange_nodup _ _) (copy_ptrs s i j)) as (t & E & A & J & _ & D).
  - intros l _. cbn. rewrite Z.eqb_refl. reflexivity.
  - intros l. cbn. destruct (j =? i) eqn:Q; [lia|reflexivity].
  - intros l x _ X. cbn. exact (B _ _ _ X).
  - assert (S2 : p_step (copy_ptrs s i j, set1 cnt i (cnt j)) (PDrop i) = Ok (with_alive t i false, set1 cnt i (cnt j))).
    { cbn [p_step]. assert (X : h_alive (copy_ptrs s i j) i = true) by (cbn; unfold set1; rewrite Z.eqb_refl; reflexivity).
      assert (Y : set1 cnt i (cnt j) i = cnt j) by (unfold set1; rewrite Z.eqb_refl; reflexivity). rewrite X, Y, E. reflexivity. }
    assert (A2 : h_alive (with_alive t i false) j = true) by (cbn; unfold set1; rewrite A; cbn; unfold set1; destruct (j =? i) eqn:Q; [lia|exact Hj]).
    assert (C2 : set1 cnt i (cnt j) j = cnt j) by (unfold set1; destruct (j =? i); reflexivity).
    assert (P2 : h_ptr (with_alive t i false) j k = Some id) by (cbn; rewrite J; exact P).
    assert (L2 : h_live (with_alive t i false) id = false) by (cbn; apply (D k); auto).
    rewrite !pop_run_app, R. cbn [bind]. unfold p_run. cbn [foldM]. rewrite S1. cbn [bind]. rewrite S2. cbn [bind p_step]. rewrite A2, C2. split.
    + destruct (forallb (usable (with_alive t i false) j) (members (cnt j))) eqn:F; [|reflexivity]. rewrite forallb_forall in F. specialize (F k IK). unfold usable in F. rewrite P2, L2 in F. discriminate.
    + rewrite (prelease_dead j k id (members (cnt j)) IK (with_alive t i false) P2 L2). reflexivity.
Qed.
