(** Facts for C127. *)
From Coq Require Import ZifyBool.
From Verif Require Import Base BaseFacts Spec SpecText Words MrRank MrRankProps MrRace.

(** What is left of a call once it has [ptr] for itself. *)
Definition rest (t : rank_basic) (ptr rank i j : Z) : res Z :=
  let* rank := foldM (fun r j => let* w := geti (rb_bits t) (ptr + j) in Ok (u64 (r + popcount w))) (zrange j (Z.to_nat (i / 64 - j))) rank in
  let* w := geti (rb_bits t) (ptr + i / 64) in
  let* m := geti masks (i - 64 * (i / 64)) in
  Ok (u64 (rank + popcount (Z.land w m))).

Lemma rest_start t p rank i : 0 <= i -> rest t p rank i 0 = count_block (rb_bits t) p i rank.
Proof. intros H. unfold rest, count_block. rewrite Z.sub_0_r. reflexivity. Qed.

Lemma rest_step t ptr rank i j v : 0 <= j <= i / 64 -> rest t ptr rank i j = Ok v ->
  (j < i / 64 /\ exists r', q_step t ptr (QRead rank i j) = Ok (ptr, QRead r' i (j + 1)) /\ rest t ptr r' i (j + 1) = Ok v) \/
  (j = i / 64 /\ q_step t ptr (QRead rank i j) = Ok (ptr, QDone v)).
Proof.
  intros Hj E. unfold rest in E. cbn [q_step]. destruct (Z.ltb_spec j (i / 64)) as [L|L].
  - left. split; [exact L|]. replace (Z.to_nat (i / 64 - j)) with (S (Z.to_nat (i / 64 - (j + 1)))) in E by lia. cbn [zrange foldM] in E.
    destruct (geti (rb_bits t) (ptr + j)) as [w| |]; cbn [bind] in E |- *; try discriminate. eexists. split; [reflexivity|]. unfold rest. replace (j + 1) with (Z.succ j) in * by lia. exact E.
  - right. assert (Q : j = i / 64) by lia. split; [exact Q|]. replace (Z.to_nat (i / 64 - j)) with 0%nat in E by lia. cbn [zrange foldM bind] in E. rewrite <- Q in E |- *.
    destruct (geti (rb_bits t) (ptr + j)) as [w| |]; cbn [bind] in E |- *; try discriminate. destruct (geti masks (i - 64 * j)) as [m| |]; cbn [bind] in E |- *; try discriminate.
    injection E as <-. reflexivity.
Qed.

(** A call of rank([i0]) whose answer is [v], when [ptr] is the place of its block. *)
Definition q_ok (t : rank_basic) (ptr i0 v : Z) (q : query) : Prop :=
  match q with
  | QStart i => i = i0
  | QRead rank i j => i = i0 mod 512 /\ 0 <= j <= i / 64 /\ geti (rb_ranks t) (2 * (i0 / 512) + 1) = Ok ptr /\ rest t ptr rank i j = Ok v
  | QDone x => x = v
  end.

Lemma q_ok_step t ptr i0 v q : 0 <= i0 -> rank_std t i0 = Ok v -> q_ok t ptr i0 v q ->
  exists ptr' q', q_step t ptr q = Ok (ptr', q') /\ q_ok t ptr' i0 v q' /\ (ptr' = ptr \/ geti (rb_ranks t) (2 * (i0 / 512) + 1) = Ok ptr').
Proof.
  intros H0 R K. destruct q as [i|rank i j|x]; cbn [q_ok] in K.
  - subst i. unfold rank_std in R. cbn [q_step]. destruct (geti (rb_ranks t) (2 * (i0 / 512))) as [rk| |]; cbn [bind] in R |- *; try discriminate.
    destruct (geti (rb_ranks t) (2 * (i0 / 512) + 2)) as [nx| |]; cbn [bind] in R |- *; try discriminate.
    destruct (Z.land (u64 (nx - rk)) 511 =? 0).
    + injection R as <-. eexists. eexists. split; [reflexivity|]. split; [reflexivity|auto].
    + destruct (geti (rb_ranks t) (2 * (i0 / 512) + 1)) as [p| |] eqn:E; cbn [bind] in R |- *; try discriminate. eexists. eexists. split; [reflexivity|]. split; [|auto].
      cbn [q_ok]. split; [reflexivity|]. split; [lia|]. split; [exact E|]. rewrite rest_start by lia. exact R.
  - destruct K as (E & Hj & G & X). destruct (rest_step t ptr rank i j v Hj X) as [(L & r' & S & X')|(L & S)].
    + rewrite S. eexists. eexists. split; [reflexivity|]. split; [|auto]. cbn [q_ok]. split; [exact E|]. split; [lia|]. auto.
    + rewrite S. eexists. eexists. split; [reflexivity|]. split; [reflexivity|auto].
  - subst x. eexists. eexists. split; [reflexivity|]. split; [reflexivity|auto].
Qed.

(** Other calls in the same block do no harm. *)
Lemma q_ok_other t ptr ptr' i0 b v q : i0 / 512 = b -> q_ok t ptr i0 v q -> ptr' = ptr \/ geti (rb_ranks t) (2 * b + 1) = Ok ptr' -> q_ok t ptr' i0 v q.
Proof.
  intros B K H. destruct q as [i|rank i j|x]; cbn [q_ok] in *; auto. destruct K as (E & Hj & G & X).
  assert (ptr' = ptr) by (destruct H as [H|H]; [exact H|rewrite B in G; congruence]). subst ptr'. auto.
Qed.

Definition all_ok (t : rank_basic) (f : Z -> Z) (b : Z) (qs : list Z) (st : Z * list query) : Prop :=
  Forall2 (fun i q => q_ok t (fst st) i (f i) q) qs (snd st).

Lemma forall2_upd {A B} (P Q : A -> B -> Prop) l : forall l' k a q', Forall2 P l l' -> (forall a b, In a l -> P a b -> Q a b) -> nth_error l k = Some a -> Q a q' -> Forall2 Q l (upd_nat l' k q').
Proof.
  induction l as [|x r IH]; intros l' k a q' F H N K; [destruct k; discriminate|]. inversion F as [|? y ? r' P1 F1]; subst. destruct k as [|k]; cbn in N |- *.
  - injection N as ->. constructor; [exact K|]. clear - F1 H. assert (G : forall a b, In a r -> P a b -> Q a b) by (intros; apply H; [right|]; auto). clear H. induction F1; constructor; [apply G; [left; reflexivity|auto]|]. apply IHF1. intros; apply G; [right|]; auto.
  - constructor; [apply H; [left; reflexivity|exact P1]|]. eapply IH; eauto. intros; apply H; [right|]; auto.
Qed.

Lemma forall2_nth {A B} (P : A -> B -> Prop) l l' k b : Forall2 P l l' -> nth_error l' k = Some b -> exists a, nth_error l k = Some a /\ In a l /\ P a b.
Proof.
  intros F. revert k. induction F as [|x y l l' H F IH]; intros k N; [destruct k; discriminate|]. destruct k as [|k]; cbn in N.
  - injection N as ->. exists x. cbn. auto.
  - destruct (IH k N) as (a & X & Y & Z1). exists a. cbn. auto.
Qed.

Lemma q_run_ok t f b qs : (forall i, In i qs -> 0 <= i /\ i / 512 = b /\ rank_std t i = Ok (f i)) ->
  forall ks st, all_ok t f b qs st -> exists st', q_run t st ks = Ok st' /\ all_ok t f b qs st'.
Proof.
  intros H. unfold q_run. induction ks as [|k ks IH]; intros st A; cbn [foldM]; [exists st; auto|].
  assert (X : exists st1, q_turn t st k = Ok st1 /\ all_ok t f b qs st1).
  { unfold q_turn. destruct (nth_error (snd st) k) as [q|] eqn:N; [|exists st; auto]. destruct (forall2_nth _ _ _ _ _ A N) as (i & NI & II & K). destruct (H i II) as (H0 & HB & HR).
    destruct (q_ok_step t (fst st) i (f i) q H0 HR K) as (ptr' & q' & -> & K' & D). cbn [bind]. eexists. split; [reflexivity|]. unfold all_ok. cbn [fst snd].
    eapply forall2_upd; [exact A| |exact NI|exact K']. intros a c IA PA. destruct (H a IA) as (_ & HB' & _). apply (q_ok_other t (fst st) ptr' a b (f a) c HB' PA). rewrite HB in D. exact D. }
  destruct X as (st1 & -> & A1). cbn [bind]. apply IH. exact A1.
Qed.

(** ** The theorems *)
Lemma race_same m t : addresses_ok m -> text_ok t -> zlen t < 2 ^ 58 -> exists r, build_std m t = Ok r /\
  forall b qs ptr0 ks, (forall i, In i qs -> 0 <= i < 512 * text_blocks t /\ i / 512 = b) ->
  exists ptr cs, q_run r (ptr0, map QStart qs) ks = Ok (ptr, cs) /\
    forall k v, nth_error cs k = Some (QDone v) -> exists i, nth_error qs k = Some i /\ v = ones_before (text_bits t) i.
Proof.
  intros A T L. destruct (basic_rank m t A T L) as (r & E & R). exists r. split; [exact E|]. intros b qs ptr0 ks H.
  destruct (q_run_ok r (ones_before (text_bits t)) b qs) with (ks := ks) (st := (ptr0, map QStart qs)) as ((ptr & cs) & E2 & A2).
  - intros i Hi. destruct (H i Hi). split; [lia|]. split; [assumption|]. apply R. assumption.
  - unfold all_ok. cbn [fst snd]. clear H. induction qs as [|i q IH]; cbn; constructor; [reflexivity|exact IH].
  - exists ptr, cs. split; [exact E2|]. intros k v N. destruct (forall2_nth _ _ _ _ _ A2 N) as (i & NI & _ & K). cbn [snd] in N. exists i. split; [exact NI|exact K].
Qed.

Definition steps_left (q : query) : Z := match q with QStart _ => 9 | QRead _ i j => 8 - j | QDone _ => 0 end.

Lemma race_alone m t : addresses_ok m -> text_ok t -> zlen t < 2 ^ 58 -> exists r, build_std m t = Ok r /\
  forall i ptr0 n, 0 <= i < 512 * text_blocks t -> (9 <= n)%nat -> exists ptr, q_run r (ptr0, [QStart i]) (repeat 0%nat n) = Ok (ptr, [QDone (ones_before (text_bits t) i)]).
Proof.
  intros A T L. destruct (basic_rank m t A T L) as (r & E & R). exists r. split; [exact E|]. intros i ptr0 n Hi Hn. specialize (R i Hi). set (v := ones_before (text_bits t) i) in *.
  assert (G : forall n ptr q, q_ok r ptr i v q -> steps_left q <= Z.of_nat n -> exists ptr', q_run r (ptr, [q]) (repeat 0%nat n) = Ok (ptr', [QDone v])).
  { clear n Hn. unfold q_run. induction n as [|n IH]; intros ptr q K S; cbn [repeat foldM].
    - destruct q as [x|rk x j|x]; cbn [steps_left q_ok] in *; [lia| |subst; eauto]. destruct K as (-> & Hj & _). pose proof (Z.mod_pos_bound i 512 ltac:(lia)). lia.
    - unfold q_turn at 1. cbn [fst snd nth_error]. destruct (q_ok_step r ptr i v q ltac:(lia) R K) as (p' & q' & ES & K' & _). rewrite ES. cbn [bind upd_nat]. apply IH; [exact K'|].
      revert ES. destruct q as [x|rk x j|x]; cbn [q_step steps_left q_ok] in *.
      + destruct (geti (rb_ranks r) (2 * (x / 512))); cbn [bind]; try discriminate. destruct (geti (rb_ranks r) (2 * (x / 512) + 2)); cbn [bind]; try discriminate.
        destruct (Z.land (u64 (a0 - a)) 511 =? 0); [intros [= _ <-]; cbn; lia|]. destruct (geti (rb_ranks r) (2 * (x / 512) + 1)); cbn [bind]; try discriminate. intros [= _ <-]. cbn [steps_left]. lia.
      + destruct (geti (rb_bits r) (ptr + j)); cbn [bind]; try discriminate. destruct (j <? x / 64); [intros [= _ <-]; cbn [steps_left]; lia|].
        destruct (geti masks (x - 64 * (x / 64))); cbn [bind]; try discriminate. intros [= _ <-]. cbn [steps_left]. lia.
      + intros [= _ <-]. cbn [steps_left]. lia. }
  apply G; [reflexivity|cbn; lia].
Qed.

(** Two blocks of words with 8 and with 16 ones: the first call counts in the block of the second. *)
Lemma race_bad : exists m t r qs ks ptr cs v, addresses_ok m /\ text_ok t /\ build_std m t = Ok r /\ (forall i, In i qs -> 0 <= i < 512 * text_blocks t) /\
  q_run r (0, map QStart qs) ks = Ok (ptr, cs) /\ nth_error qs 0 = Some 256 /\ nth_error cs 0 = Some (QDone v) /\ v <> ones_before (text_bits t) 256.
Proof.
  exists (mem_of 0 0), (repeat 1 64 ++ repeat 3 64). destruct (build_std (mem_of 0 0) (repeat 1 64 ++ repeat 3 64)) as [r| |] eqn:E; [|vm_compute in E; discriminate|vm_compute in E; discriminate].
  exists r, [256; 768], [0; 1; 0; 0; 0; 0; 0]%nat. vm_compute in E. injection E as <-. eexists. eexists. exists 64.
  split; [apply mem_of_ok; [lia|reflexivity]|]. split; [repeat constructor; lia|]. split; [reflexivity|].
  split; [intros i [<-|[<-|[]]]; vm_compute; split; congruence|]. split; [vm_compute; reflexivity|]. split; [reflexivity|]. split; [reflexivity|]. vm_compute. congruence.
Qed.
