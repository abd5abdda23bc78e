(** Facts for C122 and C123. *)
From Coq Require Import ZifyBool.
From Verif Require Import Base BaseFacts SpecDarray Darray.

Lemma lor_ones p x : 0 <= p -> Z.lor (2 ^ p - 1) x = x / 2 ^ p * 2 ^ p + (2 ^ p - 1).
Proof.
  intros Hp. replace (2 ^ p - 1) with (Z.ones p) by (rewrite Z.ones_equiv; lia).
  rewrite <- Z.shiftr_div_pow2, <- Z.shiftl_mul_pow2 by lia.
  assert (E0 : Z.land (Z.shiftl (Z.shiftr x p) p) (Z.ones p) = 0).
  { apply Z.bits_inj'. intros n Hn. rewrite Z.land_spec, Z.bits_0, Z.testbit_ones_nonneg by lia.
    rewrite Z.shiftl_spec by lia. destruct (n <? p) eqn:E; [rewrite Z.testbit_neg_r by lia; reflexivity|apply Bool.andb_false_r]. }
  rewrite (Z.add_nocarry_lxor _ _ E0), (Z.lxor_lor _ _ E0).
  apply Z.bits_inj'. intros n Hn. rewrite !Z.lor_spec, Z.testbit_ones_nonneg, Z.shiftl_spec by lia.
  destruct (n <? p) eqn:E; [rewrite Bool.orb_true_r; reflexivity|].
  rewrite Bool.orb_false_r, Bool.orb_false_l, Z.shiftr_spec by lia. f_equal. lia.
Qed.

Lemma pow_split p : 0 <= p <= 64 -> 2 ^ 64 = 2 ^ p * 2 ^ (64 - p).
Proof. intros. rewrite <- Z.pow_add_r by lia. f_equal. lia. Qed.

Lemma page_mod p w n : 0 <= p <= 64 -> page_aligned p w n = u64 ((u64 (n * w - 1) / 2 ^ p + 1) * 2 ^ p).
Proof.
  intros Hp. unfold page_aligned. rewrite lor_ones by lia. f_equal.
  replace (u64 (u64 (n * w) - 1)) with (u64 (n * w - 1)); [ring|].
  unfold wrap. rewrite Zminus_mod_idemp_l. reflexivity.
Qed.

Lemma pages_good p w n : 0 <= p <= 64 -> 0 <= n * w -> n * w + 2 ^ p <= 2 ^ 64 -> whole_pages (2 ^ p) (n * w) (page_aligned p w n).
Proof.
  intros Hp H0 H. rewrite page_mod by lia. pose proof (Z.pow_pos_nonneg 2 p ltac:(lia) ltac:(lia)) as P.
  set (b := n * w) in *. destruct (Z.eq_dec b 0) as [E|E].
  - rewrite E. replace (u64 (0 - 1)) with (2 ^ 64 - 1) by (vm_compute; reflexivity).
    replace ((2 ^ 64 - 1) / 2 ^ p + 1) with (2 ^ (64 - p)).
    + rewrite Z.mul_comm, <- pow_split by lia. unfold wrap. rewrite Z.mod_same by lia. split; [apply Z.mod_0_l; lia|lia].
    + replace ((2 ^ 64 - 1) / 2 ^ p) with (2 ^ (64 - p) - 1); [ring|]. pose proof (pow_split p Hp).
      apply Z.div_unique with (r := 2 ^ p - 1); [left; lia|rewrite (pow_split p Hp) at 1; ring].
  - rewrite (wrap_small 64 (b - 1)) by lia.
    pose proof (Z.div_mod (b - 1) (2 ^ p) ltac:(lia)). pose proof (Z.mod_pos_bound (b - 1) (2 ^ p) ltac:(lia)).
    rewrite wrap_small by nia. split; [apply Z.mod_mul; lia|nia].
Qed.

Lemma pages_none p w n : 0 <= p <= 64 -> 2 ^ 64 - 2 ^ p < n * w <= 2 ^ 64 -> page_aligned p w n = 0.
Proof.
  intros Hp H. rewrite page_mod by lia. pose proof (Z.pow_pos_nonneg 2 p ltac:(lia) ltac:(lia)) as P.
  assert (2 ^ p <= 2 ^ 64) by (apply Z.pow_le_mono_r; lia).
  rewrite (wrap_small 64 (n * w - 1)) by lia.
  replace ((n * w - 1) / 2 ^ p) with (2 ^ (64 - p) - 1).
  - replace ((2 ^ (64 - p) - 1 + 1) * 2 ^ p) with (2 ^ 64) by (rewrite (pow_split p) by lia; ring). apply Z.mod_same. lia.
  - apply Z.div_unique with (r := n * w - 1 - (2 ^ (64 - p) - 1) * 2 ^ p); [|ring].
    pose proof (pow_split p Hp). left. lia.
Qed.

Lemma pages_periodic p w n : page_aligned p w n = page_aligned p 1 ((n * w) mod 2 ^ 64).
Proof. unfold page_aligned, wrap. rewrite Z.mul_1_r, Z.mod_mod by lia. reflexivity. Qed.

(** ** Ownership *)
Definition owned (p w : Z) (s : world) : Prop :=
  (forall id b, w_live s id = Some b -> id < w_next s) /\
  (forall i d id, w_vars s i = Some d -> da_buf d = At id -> w_live s id = Some (page_aligned p w (da_size d))) /\
  (forall i j d e id, w_vars s i = Some d -> w_vars s j = Some e -> da_buf d = At id -> da_buf e = At id -> i = j) /\
  (forall id b, w_live s id = Some b -> exists i d, w_vars s i = Some d /\ da_buf d = At id).

Lemma set_same {A} (f : Z -> A) i v : set_at f i v i = v.
Proof. unfold set_at. rewrite Z.eqb_refl. reflexivity. Qed.
Lemma set_other {A} (f : Z -> A) i v j : j <> i -> set_at f i v j = f j.
Proof. intros. unfold set_at. destruct (j =? i) eqn:E; [lia|reflexivity]. Qed.

Lemma owned_init p w : owned p w no_world.
Proof. unfold owned, no_world; cbn. repeat split; intros; discriminate. Qed.

(** A new variable without a mapping. *)
Lemma owned_plain p w s i d : owned p w s -> w_vars s i = None -> (forall id, da_buf d <> At id) -> owned p w (with_vars s (set_at (w_vars s) i (Some d))).
Proof.
  intros (A & B & C & D) Hi Hd. unfold owned, with_vars; cbn. split; [exact A|]. split; [|split].
  - intros j e id. unfold set_at. destruct (j =? i) eqn:E; [intros [= <-] X; elim (Hd _ X)|apply B].
  - intros j k e f id. unfold set_at. destruct (j =? i); [intros [= <-] _ X; elim (Hd _ X)|].
    destruct (k =? i); [intros _ [= <-] _ X; elim (Hd _ X)|apply C].
  - intros id b L. destruct (D id b L) as (j & e & Hj & He). exists j, e. split; [|exact He].
    rewrite set_other; [exact Hj|congruence].
Qed.

Lemma owned_new dbg p w fails s i n s' : owned p w s -> w_vars s i = None -> da_new dbg p w fails s i n = Ok s' -> owned p w s'.
Proof.
  intros O Hi. unfold da_new. destruct (page_aligned p w n =? 0); [intros [= <-]; apply owned_plain; auto; discriminate|].
  destruct (fails _); [destruct dbg; [discriminate|]; intros [= <-]; apply owned_plain; auto; discriminate|].
  intros [= <-]. destruct O as (A & B & C & D). unfold owned; cbn. split; [|split; [|split]].
  - intros id b. unfold set_at. destruct (id =? w_next s) eqn:E; [lia|]. intros L. apply A in L. lia.
  - intros j d id. unfold set_at at 1. destruct (j =? i) eqn:E.
    + intros [= <-] [= <-]. cbn. apply set_same.
    + intros Hj Hd. pose proof (B _ _ _ Hj Hd) as L. rewrite set_other; [exact L|]. apply A in L. lia.
  - intros j k d e id. unfold set_at. destruct (j =? i) eqn:E; destruct (k =? i) eqn:E'.
    + lia.
    + intros [= <-] Hk [= <-] He. pose proof (A _ _ (B _ _ _ Hk He)). lia.
    + intros Hj [= <-] Hd [= <-]. pose proof (A _ _ (B _ _ _ Hj Hd)). lia.
    + apply C.
  - intros id b. unfold set_at at 1. destruct (id =? w_next s) eqn:E.
    + intros _. exists i. eexists. split; [apply set_same|]. cbn. f_equal. lia.
    + intros L. destruct (D id b L) as (j & e & Hj & He). exists j, e. split; [|exact He]. rewrite set_other; [exact Hj|congruence].
Qed.

(** Exchange of what two variables hold. *)
Lemma owned_vars p w s v (f : Z -> Z) : owned p w s ->
  (forall i d id, v i = Some d -> da_buf d = At id -> w_vars s (f i) = Some d) ->
  (forall i j, f i = f j -> i = j) ->
  (forall i d id, w_vars s i = Some d -> da_buf d = At id -> exists j, v j = Some d) ->
  owned p w (with_vars s v).
Proof.
  intros (A & B & C & D) V J S. unfold owned, with_vars; cbn. split; [exact A|]. split; [|split].
  - intros i d id Hi Hd. eauto.
  - intros i j d e id Hi Hj Hd He. apply J. eapply C; eauto.
  - intros id b L. destruct (D id b L) as (i & d & Hi & Hd). destruct (S _ _ _ Hi Hd) as (j & Hj). eauto.
Qed.

Definition exch (i j k : Z) : Z := if k =? i then j else if k =? j then i else k.
Lemma exch_inj i j a b : exch i j a = exch i j b -> a = b.
Proof. unfold exch. intros. destruct (a =? i) eqn:?, (b =? i) eqn:?, (a =? j) eqn:?, (b =? j) eqn:?; lia. Qed.

Lemma owned_move p w s i j b : owned p w s -> w_vars s i = None -> w_vars s j = Some b -> owned p w (da_move s i j b).
Proof.
  intros O Hi Hj. assert (i <> j) by congruence. apply (owned_vars p w s _ (exch i j)); [exact O| |apply exch_inj|].
  - intros k d id. unfold set_at, exch. destruct (k =? j) eqn:E; [intros [= <-]; discriminate|].
    destruct (k =? i) eqn:E'; [intros [= <-]; auto|auto].
  - intros k d id Hk Hd. destruct (Z.eq_dec k j) as [->|N].
    + exists i. rewrite set_other, set_same by lia. congruence.
    + exists k. rewrite set_other by lia. rewrite set_other by congruence. exact Hk.
Qed.

Lemma owned_swap p w s i j a b : owned p w s -> w_vars s i = Some a -> w_vars s j = Some b -> owned p w (da_swap s i j a b).
Proof.
  intros O Hi Hj. apply (owned_vars p w s _ (exch i j)); [exact O| |apply exch_inj|].
  - intros k d id. unfold set_at, exch. destruct (k =? j) eqn:E, (k =? i) eqn:E'; intros X _; try congruence.
    assert (i = j) by lia. congruence.
  - intros k d id Hk Hd. destruct (Z.eq_dec k j) as [->|N].
    + destruct (Z.eq_dec i j) as [->|N']; [exists j; rewrite set_same; congruence|]. exists i. rewrite set_other, set_same by lia. congruence.
    + destruct (Z.eq_dec k i) as [->|N']; [exists j; rewrite set_same; congruence|]. exists k. rewrite !set_other by lia. exact Hk.
Qed.

Lemma owned_drop_plain p w s i a : owned p w s -> w_vars s i = Some a -> (forall id, da_buf a <> At id) -> owned p w (with_vars s (set_at (w_vars s) i None)).
Proof.
  intros O Hi Hb. apply (owned_vars p w s _ (fun k => k)); [exact O| |auto|].
  - intros k d id. unfold set_at. destruct (k =? i); [discriminate|auto].
  - intros k d id Hk Hd. exists k. rewrite set_other; [exact Hk|]. intros ->. rewrite Hi in Hk. injection Hk as <-. elim (Hb _ Hd).
Qed.

Lemma owned_drop dbg p w s i a s' : owned p w s -> w_vars s i = Some a -> da_drop dbg p w s i a = Ok s' -> owned p w s'.
Proof.
  intros O Hi. unfold da_drop. destruct (da_buf a) as [| |id] eqn:Ea.
  - intros [= <-]. eapply owned_drop_plain; eauto. rewrite Ea. discriminate.
  - destruct dbg; [discriminate|]. intros [= <-]. eapply owned_drop_plain; eauto. rewrite Ea. discriminate.
  - destruct (w_live s id) as [b|] eqn:L; [|discriminate]. destruct (b =? _) eqn:E; [|discriminate]. intros [= <-].
    destruct O as (A & B & C & D). unfold owned; cbn. split; [|split; [|split]].
    + intros x c. unfold set_at. destruct (x =? id); [discriminate|apply A].
    + intros k d x. unfold set_at at 1. destruct (k =? i) eqn:Ek; [discriminate|]. intros Hk Hd. rewrite set_other; [eauto|].
      intros ->. assert (k = i) by (eapply C; eauto). lia.
    + intros j k d e x. unfold set_at. destruct (j =? i); [discriminate|]. destruct (k =? i); [discriminate|]. apply C.
    + intros x c. unfold set_at at 1. destruct (x =? id) eqn:Ex; [discriminate|]. intros Lx. destruct (D x c Lx) as (k & d & Hk & Hd).
      exists k, d. split; [|exact Hd]. rewrite set_other; [exact Hk|]. intros ->. rewrite Hi in Hk. injection Hk as <-. rewrite Ea in Hd. injection Hd as <-. lia.
Qed.

Lemma drop_not_freed dbg p w s i a : owned p w s -> w_vars s i = Some a -> da_drop dbg p w s i a <> Ub UB_freed.
Proof.
  intros (A & B & C & D) Hi. unfold da_drop. destruct (da_buf a) as [| |id] eqn:Ea; [discriminate|destruct dbg; discriminate|].
  rewrite (B _ _ _ Hi Ea), Z.eqb_refl. discriminate.
Qed.
Lemma at_not_freed p w s i a k : owned p w s -> w_vars s i = Some a -> da_at w s a k <> Ub UB_freed.
Proof.
  intros (A & B & C & D) Hi. unfold da_at. destruct (da_buf a) as [| |id] eqn:Ea; [discriminate|discriminate|].
  rewrite (B _ _ _ Hi Ea). destruct (_ && _); discriminate.
Qed.

Lemma owned_step dbg p w fails s o : owned p w s ->
  match d_step dbg p w fails s o with Ok (_, s') => owned p w s' | Ub k => k <> UB_freed | AssertFail => True end.
Proof.
  intros O. destruct o as [i n|i j|i j|i j|i|i k|i k v|i]; cbn.
  - destruct (w_vars s i) eqn:Hi; [discriminate|]. destruct (da_new dbg p w fails s i n) eqn:E; cbn; [eapply owned_new; eauto| |exact I].
    unfold da_new in E. destruct (_ =? 0); [discriminate|]. destruct (fails _); [destruct dbg|]; discriminate.
  - destruct (w_vars s i) eqn:Hi; [discriminate|]. destruct (w_vars s j) eqn:Hj; [|discriminate]. apply owned_move; auto.
  - destruct (w_vars s i) eqn:Hi; [|discriminate]. destruct (w_vars s j) eqn:Hj; [|discriminate]. apply owned_swap; auto.
  - destruct (w_vars s i) eqn:Hi; [|discriminate]. destruct (w_vars s j) eqn:Hj; [|discriminate]. apply owned_swap; auto.
  - destruct (w_vars s i) eqn:Hi; [|discriminate]. pose proof (drop_not_freed dbg p w s i _ O Hi). destruct (da_drop dbg p w s i d) eqn:E; cbn; [eapply owned_drop; eauto|congruence|exact I].
  - destruct (w_vars s i) eqn:Hi; [|discriminate]. pose proof (at_not_freed p w s i _ k O Hi). destruct (da_at w s d k) eqn:E; cbn; [exact O|congruence|exact I].
  - destruct (w_vars s i) eqn:Hi; [|discriminate]. pose proof (at_not_freed p w s i _ k O Hi). destruct (da_at w s d k) eqn:E; cbn; [exact O|congruence|exact I].
  - destruct (w_vars s i) eqn:Hi; [exact O|discriminate].
Qed.

Lemma owned_run dbg p w fails ops : forall s, owned p w s ->
  match d_run dbg p w fails s ops with Ok (_, s') => owned p w s' | Ub k => k <> UB_freed | AssertFail => True end.
Proof.
  induction ops as [|o r IH]; intros s O; [exact O|]. cbn. pose proof (owned_step dbg p w fails s o O) as S.
  destruct (d_step dbg p w fails s o) as [[a s']| |]; cbn; [|exact S|exact I].
  specialize (IH s' S). destruct (d_run dbg p w fails s' r) as [[b s'']| |]; cbn; auto.
Qed.

Lemma run_not_freed dbg p w fails ops : d_run dbg p w fails no_world ops <> Ub UB_freed.
Proof. intros E. pose proof (owned_run dbg p w fails ops _ (owned_init p w)) as H. rewrite E in H. congruence. Qed.

Lemma run_owners dbg p w fails ops outs s : d_run dbg p w fails no_world ops = Ok (outs, s) ->
  forall id b, w_live s id = Some b -> exists i d, w_vars s i = Some d /\ da_buf d = At id /\ b = page_aligned p w (da_size d) /\
    forall j e, w_vars s j = Some e -> da_buf e = At id -> j = i.
Proof.
  intros E id b L. pose proof (owned_run dbg p w fails ops _ (owned_init p w)) as H. rewrite E in H. destruct H as (A & B & C & D).
  destruct (D _ _ L) as (i & d & Hi & Hd). exists i, d. split; [exact Hi|]. split; [exact Hd|]. pose proof (B _ _ _ Hi Hd). split; [congruence|].
  intros j e Hj He. eapply C; eauto.
Qed.

(** ** Values *)
Definition holds (w limit : Z) (cell : Z -> Z -> Z) (a : option (Z * (Z -> Z))) (d : option darr) : Prop :=
  match a, d with
  | None, None => True
  | Some (n, f), Some d => da_size d = n /\ 0 <= n /\ n * w <= limit /\
      match da_buf d with Null => n = 0 | Failed => False | At id => forall k, 0 <= k < n -> cell id k = f k end
  | _, _ => False
  end.
Definition agree (w limit : Z) (st : values) (s : world) : Prop := forall i, holds w limit (w_cell s) (st i) (w_vars s i).

Lemma holds_empty w limit cell : 0 <= limit -> holds w limit cell (Some (0, fun _ => 0)) (Some {| da_size := 0; da_buf := Null |}).
Proof. cbn. repeat split; lia. Qed.

Lemma agree_step dbg p w fails limit st s o a st' : 0 <= p <= 64 -> 1 <= w -> 0 <= limit -> limit + 2 ^ p <= 2 ^ 64 ->
  (forall b, 0 < b < limit + 2 ^ p -> fails b = false) -> owned p w s -> agree w limit st s -> value_step w limit st o = Some (a, st') ->
  exists s', d_step dbg p w fails s o = Ok (a, s') /\ agree w limit st' s'.
Proof.
  intros Hp Hw Hl Hlim F O G. pose proof (Z.pow_pos_nonneg 2 p ltac:(lia) ltac:(lia)) as P.
  destruct o as [i n|i j|i j|i j|i|i k|i k v|i]; cbn.
  - pose proof (G i) as Gi. destruct (st i); [discriminate|]. destruct (w_vars s i) eqn:Hi; [elim Gi|].
    destruct ((0 <=? n) && (n * w <=? limit)) eqn:E; [|discriminate]. intros [= <- <-].
    destruct (pages_good p w n Hp ltac:(nia) ltac:(lia)) as (Pm & Pb).
    unfold da_new. destruct (page_aligned p w n =? 0) eqn:E0.
    + eexists. split; [reflexivity|]. intros j. unfold set_at, with_vars; cbn. unfold set_at. destruct (j =? i); [cbn; repeat split; nia|apply G].
    + rewrite F by (split; [nia|lia]). eexists. split; [reflexivity|]. intros j. unfold set_at at 1. cbn. destruct (j =? i) eqn:Ej.
      * unfold set_at. rewrite Ej. cbn. repeat split; try lia. intros k Hk. rewrite Z.eqb_refl. reflexivity.
      * rewrite !set_other by lia. pose proof (G j) as Gj. unfold holds in *. destruct (st j) as [[m f]|]; destruct (w_vars s j) eqn:Hj; auto.
        destruct Gj as (G1 & G2 & G3 & G4). split; [assumption|]. split; [assumption|]. split; [assumption|]. destruct (da_buf d) eqn:Ed; auto. intros k Hk.
        destruct O as (A & B & _). pose proof (A _ _ (B _ _ _ Hj Ed)). rewrite set_other by lia. auto.
  - pose proof (G i) as Gi. pose proof (G j) as Gj. destruct (st i); [discriminate|]. destruct (w_vars s i) eqn:Hi; [elim Gi|].
    destruct (st j); [|discriminate]. destruct (w_vars s j) eqn:Hj; [|destruct p0; elim Gj]. intros [= <- <-].
    eexists. split; [reflexivity|]. intros k. unfold da_move, with_vars, set_at; cbn [w_vars w_cell]. destruct (k =? j); [apply holds_empty; lia|]. destruct (k =? i); [exact Gj|apply G].
  - pose proof (G i) as Gi. pose proof (G j) as Gj. destruct (st i) as [q|]; [|discriminate]. destruct (w_vars s i) eqn:Hi; [|destruct q; elim Gi].
    destruct (st j) as [q'|]; [|discriminate]. destruct (w_vars s j) eqn:Hj; [|destruct q'; elim Gj]. intros [= <- <-].
    eexists. split; [reflexivity|]. intros k. unfold da_swap, with_vars, set_at; cbn [w_vars w_cell]. destruct (k =? j); [exact Gi|]. destruct (k =? i); [exact Gj|apply G].
  - pose proof (G i) as Gi. pose proof (G j) as Gj. destruct (st i) as [q|]; [|discriminate]. destruct (w_vars s i) eqn:Hi; [|destruct q; elim Gi].
    destruct (st j) as [q'|]; [|discriminate]. destruct (w_vars s j) eqn:Hj; [|destruct q'; elim Gj]. intros [= <- <-].
    eexists. split; [reflexivity|]. intros k. unfold da_swap, with_vars, set_at; cbn [w_vars w_cell]. destruct (k =? j); [exact Gi|]. destruct (k =? i); [exact Gj|apply G].
  - pose proof (G i) as Gi. destruct (st i) as [[n f]|]; [|discriminate]. destruct (w_vars s i) eqn:Hi; [|elim Gi]. intros [= <- <-].
    assert (X : exists s', da_drop dbg p w s i d = Ok s' /\ w_vars s' = set_at (w_vars s) i None /\ w_cell s' = w_cell s).
    { unfold da_drop. destruct Gi as (_ & _ & _ & Gb). destruct (da_buf d) eqn:Ed; [eexists; repeat split|elim Gb|].
      destruct O as (_ & B & _). rewrite (B _ _ _ Hi Ed), Z.eqb_refl. eexists. repeat split. }
    destruct X as (s' & -> & Ev & Ec). eexists. split; [reflexivity|]. intros k. rewrite Ev, Ec. unfold set_at. destruct (k =? i); [exact I|apply G].
  - pose proof (G i) as Gi. destruct (st i) as [[n f]|]; [|discriminate]. destruct (w_vars s i) eqn:Hi; [|elim Gi].
    destruct ((0 <=? k) && (k <? n)) eqn:Ek; [|discriminate]. intros [= <- <-]. destruct Gi as (G1 & G2 & G3 & G4).
    unfold da_at. destruct (da_buf d) eqn:Ed; [lia|elim G4|]. pose proof O as (_ & B & _). rewrite (B _ _ _ Hi Ed).
    destruct (pages_good p w (da_size d) Hp ltac:(nia) ltac:(lia)) as (Pm & Pb).
    replace ((0 <=? k) && (k * w + w <=? page_aligned p w (da_size d))) with true by (symmetry; apply Bool.andb_true_iff; split; [lia|apply Z.leb_le; nia]).
    cbn. rewrite G4 by lia. eexists. split; [reflexivity|exact G].
  - pose proof (G i) as Gi. destruct (st i) as [[n f]|] eqn:Hsi; [|discriminate]. destruct (w_vars s i) eqn:Hi; [|elim Gi].
    destruct ((0 <=? k) && (k <? n)) eqn:Ek; [|discriminate]. intros [= <- <-]. destruct Gi as (G1 & G2 & G3 & G4).
    unfold da_at. destruct (da_buf d) eqn:Ed; [lia|elim G4|]. pose proof O as (_ & B & C & _). rewrite (B _ _ _ Hi Ed).
    destruct (pages_good p w (da_size d) Hp ltac:(nia) ltac:(lia)) as (Pm & Pb).
    replace ((0 <=? k) && (k * w + w <=? page_aligned p w (da_size d))) with true by (symmetry; apply Bool.andb_true_iff; split; [lia|apply Z.leb_le; nia]).
    cbn. eexists. split; [reflexivity|]. intros j. cbn [w_vars w_cell]. destruct (Z.eq_dec j i) as [->|Ej].
    + rewrite set_same, Hi. cbn. rewrite Ed. split; [assumption|]. split; [lia|]. split; [lia|]. intros x Hx. rewrite set_same. unfold set_at.
      destruct (x =? k); [reflexivity|auto].
    + rewrite set_other by lia. pose proof (G j) as Gj. unfold holds in *. destruct (st j) as [[m g]|]; destruct (w_vars s j) eqn:Hj; auto.
      destruct Gj as (J1 & J2 & J3 & J4). split; [assumption|]. split; [assumption|]. split; [assumption|]. destruct (da_buf d0) eqn:Ed0; auto. intros x Hx.
      rewrite set_other; [auto|]. intros ->. assert (j = i) by (eapply C; eauto). lia.
  - pose proof (G i) as Gi. destruct (st i) as [[n f]|]; [|discriminate]. destruct (w_vars s i) eqn:Hi; [|elim Gi]. intros [= <- <-].
    destruct Gi as (<- & _). eexists. split; [reflexivity|exact G].
Qed.

Lemma agree_run dbg p w fails limit ops : 0 <= p <= 64 -> 1 <= w -> 0 <= limit -> limit + 2 ^ p <= 2 ^ 64 ->
  (forall b, 0 < b < limit + 2 ^ p -> fails b = false) -> forall st s outs st', owned p w s -> agree w limit st s -> value_run w limit st ops = Some (outs, st') ->
  exists s', d_run dbg p w fails s ops = Ok (outs, s') /\ agree w limit st' s'.
Proof.
  intros Hp Hw Hl Hlim F. induction ops as [|o r IH]; intros st s outs st' O G; cbn.
  - intros [= <- <-]. eauto.
  - destruct (value_step w limit st o) as [[a st1]|] eqn:E1; [|discriminate]. destruct (value_run w limit st1 r) as [[b st2]|] eqn:E2; [|discriminate]. intros [= <- <-].
    destruct (agree_step dbg p w fails limit st s o a st1 Hp Hw Hl Hlim F O G E1) as (s1 & S1 & G1).
    pose proof (owned_step dbg p w fails s o O) as O1. rewrite S1 in O1.
    destruct (IH st1 s1 b st2 O1 G1 E2) as (s2 & S2 & G2). rewrite S1. cbn. rewrite S2. cbn. eauto.
Qed.

Lemma run_values dbg p w fails limit ops outs st : 0 <= p <= 64 -> 1 <= w -> 0 <= limit -> limit + 2 ^ p <= 2 ^ 64 ->
  (forall b, 0 < b < limit + 2 ^ p -> fails b = false) -> value_run w limit no_values ops = Some (outs, st) ->
  exists s, d_run dbg p w fails no_world ops = Ok (outs, s) /\ ((forall i, st i = None) -> forall id, w_live s id = None).
Proof.
  intros Hp Hw Hl Hlim F E.
  destruct (agree_run dbg p w fails limit ops Hp Hw Hl Hlim F no_values no_world outs st (owned_init p w) (fun _ => I) E) as (s & S & G).
  exists s. split; [exact S|]. intros N id. destruct (w_live s id) eqn:L; [|reflexivity].
  destruct (run_owners _ _ _ _ _ _ _ S _ _ L) as (i & d & Hi & _). pose proof (G i) as Gi. rewrite N, Hi in Gi. elim Gi.
Qed.

(** ** One array *)
Lemma array_reach dbg p w fails n k : 0 <= p <= 64 -> 1 <= w -> 1 <= n -> n * w + 2 ^ p <= 2 ^ 64 -> fails (page_aligned p w n) = false -> 0 <= k ->
  exists r, whole_pages (2 ^ p) (n * w) r /\
    (let* '(outs, _) := d_run dbg p w fails no_world [DNew 0 n; DGet 0 k] in Ok outs) = if (k + 1) * w <=? r then Ok [0] else Ub UB_bounds.
Proof.
  intros Hp Hw Hn H F Hk. pose proof (pages_good p w n Hp ltac:(nia) H) as W. exists (page_aligned p w n). split; [exact W|]. destruct W as (_ & W).
  cbn. unfold da_new. rewrite F. destruct (page_aligned p w n =? 0) eqn:E; [nia|]. cbn. unfold da_at. cbn.
  replace (k * w + w) with ((k + 1) * w) by ring. destruct (0 <=? k) eqn:E'; [|lia]. cbn. destruct ((k + 1) * w <=? _); reflexivity.
Qed.

Lemma array_null dbg p w fails n k v : 0 <= p <= 64 -> (n * w) mod 2 ^ 64 = 0 \/ 2 ^ 64 - 2 ^ p < (n * w) mod 2 ^ 64 ->
  d_run dbg p w fails no_world [DNew 0 0; DNew 1 n; DAssign 0 1; DDrop 1; DSet 0 k v] = Ub UB_null.
Proof.
  intros Hp H. pose proof (Z.pow_pos_nonneg 2 p ltac:(lia) ltac:(lia)) as P. assert (2 ^ p <= 2 ^ 64) by (apply Z.pow_le_mono_r; lia).
  assert (Z0 : page_aligned p w 0 = 0).
  { destruct (pages_good p w 0 Hp ltac:(lia) ltac:(lia)) as (M & B). rewrite Z.mod_small in M by lia. exact M. }
  assert (Zn : page_aligned p w n = 0).
  { rewrite pages_periodic. pose proof (Z.mod_pos_bound (n * w) (2 ^ 64) ltac:(lia)).
    destruct H as [->|H]; [|apply pages_none; lia]. destruct (pages_good p 1 0 Hp ltac:(lia) ltac:(lia)) as (M & B). rewrite Z.mod_small in M by lia. exact M. }
  cbn. unfold da_new. rewrite Z0, Zn. reflexivity.
Qed.

Lemma array_failed dbg p w fails n k : 0 <= k -> page_aligned p w n <> 0 -> fails (page_aligned p w n) = true ->
  d_run dbg p w fails no_world [DNew 0 n; DGet 0 k] = (if dbg then AssertFail else Ub UB_bounds) /\
  (dbg = false -> exists s, d_run dbg p w fails no_world [DNew 0 n; DSize 0; DDrop 0] = Ok ([n], s)).
Proof.
  intros Hk H F. cbn. unfold da_new. rewrite F. destruct (page_aligned p w n =? 0) eqn:E; [lia|]. destruct dbg; cbn; [split; [reflexivity|discriminate]|].
  split; [reflexivity|]. intros _. unfold da_drop. cbn. eexists. reflexivity.
Qed.
