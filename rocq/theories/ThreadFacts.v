(** Threads that share nothing they write answer as if they were alone. *)
From Coq Require Import ZifyBool.
From Verif Require Import Base BaseFacts Mem Nodes Trees Words Blocks BlockFacts Spec Bitmap Usage BitmapFacts ProgramFacts PropFacts System Conc ConcFacts SpecConc.

(** ** A thread alone *)
Definition all_stat (s : shared) : Prop := forall i, static_shape i (sh_stat s i).

Lemma key_words b : inst_words (rank_key b) = nwords b /\ inst_words (select_key b) = nwords b.
Proof. destruct b; split; reflexivity. Qed.

Lemma sim_rank c ty b i d : sim (rank_key (ty_block ty)) (rank_act c ty b i)
  (fun st => let* '(r, s) := bm_rank c ty {| s_rank := st; s_select := d |} (b_words b) (own_view ty b) i in Ok (r, s_rank s)).
Proof.
  set (bt := ty_block ty). set (off := Z.land i (block_size bt - 1)). set (x := {| w_arr := b_words b; w_off := words_in_block bt * (i / block_size bt) |}).
  eapply sim_ext; [|eapply (sim_pure (rank_key bt) (massert (c_debug c) (i <? bm_size (b_words b))) _
    (fun _ st => let* a := (if i / block_size bt =? 0 then Ok 0 else tree_sum c (ty_fam ty) (ty_height ty) (own_view ty b) (i / block_size bt - 1)) in
       let* '(r, st) := (let* '(r, s) := block_rank c bt {| s_rank := st; s_select := d |} x off in Ok (r, s_rank s)) in Ok (u64 (a + r), st)))].
  - intros st. cbn beta. unfold bm_rank. fold bt. destruct (massert (c_debug c) (i <? bm_size (b_words b))); cbn [bind]; try reflexivity.
    destruct (if i / block_size bt =? 0 then Ok 0 else _); cbn [bind]; try reflexivity. fold x off.
    destruct (block_rank c bt {| s_rank := st; s_select := d |} x off) as [[r s]| |]; reflexivity.
  - intros _ _. apply sim_pure. intros a _. fold bt x off. intros s L.
    pose proof (sim_block_rank c bt x off d s L) as H. cbn beta in H. cbn beta. rewrite run_abind.
    destruct (let* '(r, s0) := block_rank c bt {| s_rank := sh_stat s (rank_key bt); s_select := d |} x off in Ok (r, s_rank s0)) as [[r st]|k|]; cbn [bind].
    + destruct H as (s' & E & R). rewrite E. cbn [bind run_act ret]. exists s'. split; [reflexivity|exact R].
    + rewrite H. reflexivity.
    + rewrite H. reflexivity.
Qed.

Lemma sim_select c ty b i d : sim (select_key (ty_block ty)) (select_act c ty b i)
  (fun st => let* '(r, s) := bm_select c ty {| s_rank := d; s_select := st |} (b_words b) (own_view ty b) i in Ok (r, s_select s)).
Proof.
  set (bt := ty_block ty).
  eapply sim_ext; [|eapply (sim_pure (select_key bt) (massert (c_debug c) (i <? bm_size (b_words b))) _
    (fun _ st => let* q := tree_search c (ty_fam ty) (ty_height ty) (own_view ty b) i in
       let* '(r, st) := (let* '(r, s) := block_select c bt {| s_rank := d; s_select := st |} {| w_arr := b_words b; w_off := words_in_block bt * fst q |} (u64 (i - snd q)) in Ok (r, s_select s)) in Ok (u64 (block_size bt * fst q + r), st)))].
  - intros st. cbn beta. unfold bm_select. fold bt. destruct (massert (c_debug c) (i <? bm_size (b_words b))); cbn [bind]; try reflexivity.
    destruct (tree_search c (ty_fam ty) (ty_height ty) (own_view ty b) i) as [[q z]| |]; cbn [bind fst snd]; try reflexivity.
    destruct (block_select c bt {| s_rank := d; s_select := st |} {| w_arr := b_words b; w_off := words_in_block bt * q |} (u64 (i - z))) as [[r s]| |]; reflexivity.
  - intros _ _. apply sim_pure. intros [q z] _. fold bt. cbn [fst snd]. intros s L.
    pose proof (sim_block_select c bt {| w_arr := b_words b; w_off := words_in_block bt * q |} (u64 (i - z)) d s L) as H. cbn beta in H. cbn beta. rewrite run_abind.
    destruct (let* '(r, s0) := block_select c bt {| s_rank := d; s_select := sh_stat s (select_key bt) |} {| w_arr := b_words b; w_off := words_in_block bt * q |} (u64 (i - z)) in Ok (r, s_select s0)) as [[r st]|k|]; cbn [bind].
    + destruct H as (s' & E & R). rewrite E. cbn [bind run_act ret]. exists s'. split; [reflexivity|exact R].
    + rewrite H. reflexivity.
    + rewrite H. reflexivity.
Qed.

Lemma shape_stat i st : static_shape i st <-> stat_ok (inst_words i) st.
Proof. reflexivity. Qed.

Lemma sim_done {A} i (a : act A) f s r st n : sim i a f -> all_stat s -> f (sh_stat s i) = Ok (r, st) -> inst_words i = n -> stat_ok n st ->
  exists s', run_act a s = Ok (r, s') /\ sh_objs s' = sh_objs s /\ all_stat s'.
Proof.
  intros H AS E En Hst. destruct (AS i) as (L1 & L2 & _). specialize (H s (conj L1 L2)). rewrite E in H.
  destruct H as (s' & E' & E1 & _ & Fr & O). exists s'. split; [exact E'|]. split; [exact O|].
  intros j. destruct (inst_eqb j i) eqn:Ej.
  - apply inst_eqb_ok in Ej. subst j. rewrite E1. apply shape_stat. rewrite En. exact Hst.
  - rewrite Fr; [apply AS|]. intros ->. rewrite inst_eqb_refl in Ej. discriminate.
Qed.

Lemma call_ok c o p s ty b n B : sh_objs s o = Some (ty, b) -> binv ty n b B -> addr_ok c ty (b_addr b) -> all_stat s -> valid_op B p ->
  (match p with Select k => select_safe c ty B k | _ => True end) ->
  exists a s' b', run_act (call_act c o p) s = Ok (a, s') /\ answer_ok B p a /\ sh_objs s' o = Some (ty, b') /\
    (forall k, k <> o -> sh_objs s' k = sh_objs s k) /\ binv ty n b' (contents_after B p) /\ addr_ok c ty (b_addr b') /\ all_stat s' /\
    (match p with Flip _ => True | _ => b' = b end).
Proof.
  intros Eo Hb Ha A V Sf.
  set (s0 := {| s_rank := sh_stat s (rank_key (ty_block ty)); s_select := sh_stat s (select_key (ty_block ty)) |}).
  assert (S0 : statics_ok (ty_block ty) s0).
  { destruct (key_words (ty_block ty)) as (K1 & K2). split; cbn [s0 s_rank s_select]; [rewrite <- K1|rewrite <- K2]; apply A. }
  destruct (step_ok c ty n b s0 B p Hb S0) as (a & b' & s' & E & An & Ea & Hb' & S'); auto.
  { destruct p; cbn [op_addr_ok]; auto. }
  unfold call_act. cbn [run_act]. rewrite Eo. destruct p as [i|i|i|k| |]; cbn [step] in E.
  - apply bind_inv in E as ([ws m] & E & E2). inversion E2; subst. unfold pure. rewrite E. cbn [abind run_act bind ret].
    eexists _, _, _. split; [reflexivity|]. split; [exact I|]. cbn [put_bitmap sh_objs sh_stat]. rewrite Nat.eqb_refl. split; [reflexivity|].
    split; [intros k Hk; apply Nat.eqb_neq in Hk; rewrite Hk; reflexivity|]. split; [exact Hb'|]. split; [exact Ha|]. split; [exact A|exact I].
  - apply bind_inv in E as (r & E & E2). inversion E2; subst. unfold pure. rewrite E. cbn [abind run_act bind ret].
    exists (OBool r), s, b'. repeat (split; auto).
  - apply bind_inv in E as ([r s1] & E & E2). inversion E2; subst. rewrite run_abind.
    destruct (sim_done _ _ _ s r (s_rank s') (nwords (ty_block ty)) (sim_rank c ty b' i (sh_stat s (select_key (ty_block ty)))) A) as (s1 & E1 & O1 & A1).
    { cbn beta. fold s0. rewrite E. reflexivity. }
    { apply key_words. }
    { apply S'. }
    rewrite E1. cbn [bind run_act ret]. exists (ONum r), s1, b'. split; [reflexivity|]. split; [exact An|]. rewrite O1. repeat (split; auto).
  - apply bind_inv in E as ([r s1] & E & E2). inversion E2; subst. rewrite run_abind.
    destruct (sim_done _ _ _ s r (s_select s') (nwords (ty_block ty)) (sim_select c ty b' k (sh_stat s (rank_key (ty_block ty)))) A) as (s1 & E1 & O1 & A1).
    { cbn beta. fold s0. rewrite E. reflexivity. }
    { apply key_words. }
    { apply S'. }
    rewrite E1. cbn [bind run_act ret]. exists (ONum r), s1, b'. split; [reflexivity|]. split; [exact An|]. rewrite O1. repeat (split; auto).
  - inversion E; subst. cbn [run_act bind ret]. eexists _, s, b'. split; [reflexivity|]. repeat (split; auto).
  - inversion E; subst. cbn [run_act bind ret]. eexists _, s, b'. split; [reflexivity|]. repeat (split; auto).
Qed.

Definition good (c : cfg) (T : nat -> btyp) (C : contents) (s : shared) (o : nat) : Prop :=
  exists b n, sh_objs s o = Some (T o, b) /\ binv (T o) n b (C o) /\ addr_ok c (T o) (b_addr b).

Lemma thread_alone c T cs : forall C s, all_stat s -> (forall o, uses cs o -> good c T C s o) -> calls_valid c T C cs ->
  exists outs s', run_act (thread_act c cs) s = Ok (outs, s') /\ calls_answered C cs outs.
Proof.
  induction cs as [|[o p] cs IH]; intros C s A G V; cbn [thread_act calls_valid] in *.
  - exists [], s. split; [reflexivity|exact I].
  - destruct V as (V1 & V2 & V3). destruct (G o (ex_intro _ p (or_introl eq_refl))) as (b & n & Eo & Hb & Ha).
    destruct (call_ok c o p s (T o) b n (C o) Eo Hb Ha A V1 V2) as (a & s' & b' & E & An & Eo' & Fr & Hb' & Ha' & A' & _).
    destruct (IH (set_contents C o (contents_after (C o) p)) s' A') as (outs & s2 & E2 & Ans); auto.
    { intros k (q & Hk). unfold good, set_contents. destruct (Nat.eqb k o) eqn:Ek.
      - apply Nat.eqb_eq in Ek. subst k. exists b', n. repeat (split; auto).
      - apply Nat.eqb_neq in Ek. rewrite Fr by auto. apply G. exists q. right. exact Hk. }
    rewrite run_abind, E. cbn [bind]. rewrite run_abind, E2. cbn [bind run_act ret]. exists (a :: outs), s2. split; [reflexivity|].
    cbn [calls_answered]. auto.
Qed.

(** ** Footprints *)
Inductive loc := LStat (i : inst) | LObj (o : nat).

Fixpoint foot {A} (T : nat -> btyp) (R W : loc -> Prop) (a : act A) : Prop :=
  match a with
  | Done _ => True
  | Get x k => R (LStat (ce_inst x)) /\ forall v, foot T R W (k v)
  | Put x _ k => W (LStat (ce_inst x)) /\ foot T R W k
  | Look o k => R (LObj o) /\ forall b, fst b = T o -> foot T R W (k b)
  | Save o x k => W (LObj o) /\ fst x = T o /\ foot T R W k
  end.

Definition typed (T : nat -> btyp) (s : shared) : Prop := forall o x, sh_objs s o = Some x -> fst x = T o.
Definition agree (R : loc -> Prop) (s s' : shared) : Prop :=
  (forall i, R (LStat i) -> sh_stat s i = sh_stat s' i) /\ (forall o, R (LObj o) -> sh_objs s o = sh_objs s' o).

Definition outcome {A} (r : res (A * shared)) : res A := let* '(x, _) := r in Ok x.

Fixpoint steps {A} (a : act A) (s : shared) : nat :=
  match a with
  | Done _ => O
  | Get x k => S (match cell_get s x with Ok v => steps (k v) s | _ => O end)
  | Put x v k => S (match cell_put s x v with Ok s' => steps k s' | _ => O end)
  | Look o k => S (match sh_objs s o with Some b => steps (k b) s | None => O end)
  | Save o x k => S (steps k (put_bitmap s o x))
  end.

Lemma typed_put_bitmap T s o x : typed T s -> fst x = T o -> typed T (put_bitmap s o x).
Proof.
  intros H E k y Ek. cbn [put_bitmap sh_objs] in Ek. destruct (Nat.eqb k o) eqn:Eko; [|apply H; auto].
  apply Nat.eqb_eq in Eko. subst k. inversion Ek; subst. exact E.
Qed.

Lemma cell_put_objs s x v s' : cell_put s x v = Ok s' -> sh_objs s' = sh_objs s.
Proof. unfold cell_put. destruct (ce_sums x); intros E; apply bind_inv in E as (l & _ & E); inversion E; reflexivity. Qed.

Lemma cell_put_other s x v s' i : cell_put s x v = Ok s' -> i <> ce_inst x -> sh_stat s' i = sh_stat s i.
Proof.
  unfold cell_put. intros E H. destruct (ce_sums x); apply bind_inv in E as (l & _ & E); inversion E; subst; cbn [put_inst sh_stat];
    rewrite inst_eqb_neq by auto; reflexivity.
Qed.

Lemma cell_put_agree R s s2 x v : agree R s s2 -> R (LStat (ce_inst x)) ->
  match cell_put s x v, cell_put s2 x v with
  | Ok t, Ok t2 => agree R t t2
  | Ub k, Ub k2 => k = k2
  | AssertFail, AssertFail => True
  | _, _ => False
  end.
Proof.
  intros (H1 & H2) Hx. unfold cell_put. rewrite <- (H1 _ Hx).
  destruct (ce_sums x).
  - destruct (seti (st_s (sh_stat s (ce_inst x))) (ce_idx x) v); cbn [bind]; auto. split; cbn [put_inst sh_stat sh_objs]; auto.
    intros i Hi. destruct (inst_eqb i (ce_inst x)); auto.
  - destruct (seti (st_c (sh_stat s (ce_inst x))) (ce_idx x) v); cbn [bind]; auto. split; cbn [put_inst sh_stat sh_objs]; auto.
    intros i Hi. destruct (inst_eqb i (ce_inst x)); auto.
Qed.

Lemma run_agree {A} T (R W : loc -> Prop) (a : act A) : (forall l, W l -> R l) -> forall s s2, foot T R W a -> agree R s s2 -> typed T s -> typed T s2 ->
  outcome (run_act a s2) = outcome (run_act a s) /\ steps a s2 = steps a s.
Proof.
  intros WR. induction a as [r|x k IH|x v k IH|o k IH|o x k IH]; intros s s2 F G T1 T2; cbn [foot run_act steps] in *.
  - destruct r; split; reflexivity.
  - destruct F as (Fx & F). assert (E : cell_get s2 x = cell_get s x) by (unfold cell_get; destruct G as (G1 & _); rewrite <- (G1 _ Fx); reflexivity).
    rewrite E. destruct (cell_get s x) as [v|e|]; cbn [bind]; [|split; reflexivity|split; reflexivity].
    destruct (IH v s s2 (F v) G T1 T2) as (I1 & I2). split; [exact I1|congruence].
  - destruct F as (Fx & F). pose proof (cell_put_agree R s s2 x v G (WR _ Fx)) as P.
    destruct (cell_put s x v) as [t|e|] eqn:E1; destruct (cell_put s2 x v) as [t2|e2|] eqn:E2; try contradiction; cbn [bind].
    + assert (U1 : typed T t) by (intros o y Hy; rewrite (cell_put_objs _ _ _ _ E1) in Hy; auto).
      assert (U2 : typed T t2) by (intros o y Hy; rewrite (cell_put_objs _ _ _ _ E2) in Hy; auto).
      destruct (IH t t2 F P U1 U2) as (I1 & I2). split; [exact I1|congruence].
    + subst. split; reflexivity.
    + split; reflexivity.
  - destruct F as (Fx & F). destruct G as (G1 & G2). rewrite <- (G2 _ Fx). destruct (sh_objs s o) as [b|] eqn:E; [|split; reflexivity].
    destruct (IH b s s2 (F b (T1 _ _ E)) (conj G1 G2) T1 T2) as (I1 & I2). split; [exact I1|congruence].
  - destruct F as (Fx & Ft & F).
    destruct (IH (put_bitmap s o x) (put_bitmap s2 o x) F) as (I1 & I2); try (apply typed_put_bitmap; assumption).
    { destruct G as (G1 & G2). split; cbn [put_bitmap sh_stat sh_objs]; auto. intros k0 Hk. destruct (Nat.eqb k0 o); auto. }
    split; [exact I1|congruence].
Qed.

Lemma astep_ok {A} T R W (a : act A) s a' s' : foot T R W a -> typed T s -> astep a s = Some (a', s') ->
  foot T R W a' /\ typed T s' /\ outcome (run_act a' s') = outcome (run_act a s) /\ steps a s = S (steps a' s') /\
  (forall i, ~ W (LStat i) -> sh_stat s' i = sh_stat s i) /\ (forall o, ~ W (LObj o) -> sh_objs s' o = sh_objs s o).
Proof.
  intros F Ty E. destruct a as [r|x k|x v k|o k|o x k]; cbn [astep foot run_act steps] in *; [discriminate|..]; inversion E as [E1]; clear E.
  - destruct F as (Fx & F). destruct (cell_get s x); inversion E1; subst; cbn [bind steps]; repeat split; auto.
  - destruct F as (Fx & F). destruct (cell_put s x v) as [t|e|] eqn:EP; inversion E1; subst; cbn [bind steps]; repeat split; auto.
    + intros o y Hy. rewrite (cell_put_objs _ _ _ _ EP) in Hy. auto.
    + intros i Hi. apply (cell_put_other _ _ _ _ _ EP). intros ->. contradiction.
    + intros o _. rewrite (cell_put_objs _ _ _ _ EP). reflexivity.
  - destruct F as (Fx & F). destruct (sh_objs s o) eqn:EO; inversion E1; subst; cbn [bind steps]; repeat split; auto.
  - destruct F as (Fx & Ft & F). inversion E1; subst. repeat split; auto using typed_put_bitmap.
    intros k0 Hk. cbn [put_bitmap sh_objs]. destruct (Nat.eqb k0 o) eqn:Ek; auto. apply Nat.eqb_eq in Ek. subst. contradiction.
Qed.

(** ** All threads *)
Definition thread_inv (T : nat -> btyp) (R W : nat -> loc -> Prop) (st : cstate) (t : nat) (r : res (list out)) (k : nat) : Prop :=
  exists a, nth_error (cs_thr st) t = Some a /\ foot T (R t) (W t) a /\ outcome (run_act a (cs_sh st)) = r /\ steps a (cs_sh st) = k.

Lemma nth_error_upd {A} (l : list A) t u x : (t < length l)%nat -> nth_error (upd_nat l t x) u = if Nat.eqb u t then Some x else nth_error l u.
Proof.
  revert t u. induction l as [|y l IH]; intros [|t] [|u] H; cbn [length upd_nat nth_error Nat.eqb] in *; try lia; auto. apply IH. lia.
Qed.

Lemma cstep_inv T (R W : nat -> loc -> Prop) st t u r k :
  (forall t l, W t l -> R t l) -> (t <> u -> forall l, W t l -> ~ R u l) -> typed T (cs_sh st) ->
  (exists rt kt, thread_inv T R W st t rt kt) \/ nth_error (cs_thr st) t = None ->
  thread_inv T R W st u r k ->
  typed T (cs_sh (cstep st t)) /\ thread_inv T R W (cstep st t) u r (if Nat.eqb u t then pred k else k) /\ length (cs_thr (cstep st t)) = length (cs_thr st).
Proof.
  intros WR D Ty Ht Hu. unfold cstep. destruct (nth_error (cs_thr st) t) as [a|] eqn:Et.
  2:{ split; [exact Ty|]. split; [|reflexivity]. destruct (Nat.eqb u t) eqn:E; [|exact Hu].
      apply Nat.eqb_eq in E. subst u. destruct Hu as (a & Ea & _). congruence. }
  destruct Ht as [(rt & kt & a0 & Ea0 & Fa & Oa & Sa)|]; [|discriminate]. rewrite Et in Ea0. inversion Ea0; subst a0. clear Ea0.
  assert (Ht : (t < length (cs_thr st))%nat) by (apply nth_error_Some; congruence).
  destruct (astep a (cs_sh st)) as [[a' s']|] eqn:Es.
  - destruct (astep_ok T (R t) (W t) a (cs_sh st) a' s' Fa Ty Es) as (F' & Ty' & O' & S' & Fr1 & Fr2). cbn [cs_sh cs_thr].
    split; [exact Ty'|]. split; [|apply length_upd_nat]. destruct Hu as (b & Eb & Fb & Ob & Sb). unfold thread_inv. cbn [cs_sh cs_thr].
    rewrite nth_error_upd by auto. destruct (Nat.eqb u t) eqn:E.
    + apply Nat.eqb_eq in E. subst u. rewrite Et in Eb. inversion Eb; subst b. exists a'. split; [reflexivity|]. split; [exact F'|]. split; [congruence|]. lia.
    + apply Nat.eqb_neq in E. exists b. split; [exact Eb|]. split; [exact Fb|].
      assert (N : t <> u) by congruence. specialize (D N).
      destruct (run_agree T (R u) (W u) b (WR u) (cs_sh st) s' Fb) as (I1 & I2); auto.
      { split; intros z Hz; symmetry; [apply Fr1|apply Fr2]; intros Hw; apply (D _ Hw Hz). }
      split; congruence.
  - split; [exact Ty|]. split; [|reflexivity]. destruct (Nat.eqb u t) eqn:E; [|exact Hu]. apply Nat.eqb_eq in E. subst u.
    destruct Hu as (b & Eb & Fb & Ob & Sb). rewrite Et in Eb. inversion Eb; subst b. destruct a; cbn [astep] in Es; try discriminate.
    exists (Done r0). cbn [steps] in Sb. subst k. repeat split; auto.
Qed.

(** Footprint of the calls. *)
Definition reads (T : nat -> btyp) (cs : list (nat * op)) (l : loc) : Prop :=
  match l with LStat i => uses_static T cs i | LObj o => uses cs o end.
Definition writes (T : nat -> btyp) (cs : list (nat * op)) (l : loc) : Prop :=
  match l with LStat i => uses_static T cs i | LObj o => flips cs o end.

Lemma writes_reads T cs l : writes T cs l -> reads T cs l.
Proof. destruct l; cbn [reads writes]; auto. intros (i & H). exists (Flip i). exact H. Qed.

Lemma foot_bind {A B} T R W (a : act A) (f : A -> act B) : foot T R W a -> (forall x, foot T R W (f x)) -> foot T R W (abind a f).
Proof.
  intros Ha Hf. induction a as [r|x k IH|x v k IH|o k IH|o x k IH]; cbn [abind foot] in *.
  - destruct r; cbn [foot]; auto.
  - destruct Ha. split; auto.
  - destruct Ha. split; auto.
  - destruct Ha. split; auto.
  - destruct Ha as (? & ? & ?). repeat split; auto.
Qed.

Lemma foot_iter {X} T R W (f : X -> act unit) l : (forall x, foot T R W (f x)) -> foot T R W (aiter f l).
Proof. intros H. induction l; cbn [aiter]; [exact I|]. apply foot_bind; auto. Qed.
Lemma foot_map {X} T R W (f : X -> act Z) l : (forall x, foot T R W (f x)) -> foot T R W (amap f l).
Proof. intros H. induction l; cbn [amap]; [exact I|]. apply foot_bind; auto. intros v. apply foot_bind; auto. intros; exact I. Qed.
Lemma foot_mono {A} T (R W R' W' : loc -> Prop) (a : act A) : (forall l, R l -> R' l) -> (forall l, W l -> W' l) -> foot T R W a -> foot T R' W' a.
Proof.
  intros HR HW. induction a as [r|x k IH|x v k IH|o k IH|o x k IH]; cbn [foot]; intros F; auto.
  - destruct F. split; auto.
  - destruct F. split; auto.
  - destruct F. split; auto.
  - destruct F as (? & ? & ?). repeat split; auto.
Qed.

Definition only (l : list inst) (x : loc) : Prop := match x with LStat i => In i l | LObj _ => False end.

Ltac ft := repeat match goal with
  | |- foot _ _ _ (abind _ _) => apply foot_bind
  | |- foot _ _ _ (aiter _ _) => apply foot_iter
  | |- foot _ _ _ (amap _ _) => apply foot_map
  | |- foot _ _ _ (pure _) => exact I
  | |- foot _ _ _ (ret _) => exact I
  | |- foot _ _ _ (get_c _ _) => split; [left; reflexivity|intros; exact I]
  | |- foot _ _ _ (get_s _ _) => split; [left; reflexivity|intros; exact I]
  | |- foot _ _ _ (put_c _ _ _) => split; [left; reflexivity|exact I]
  | |- foot _ _ _ (put_s _ _ _) => split; [left; reflexivity|exact I]
  | |- context [rm_psm ?m] => let v := eval vm_compute in (rm_psm m) in change (rm_psm m) with v; cbv iota
  | |- context [sl_scm_loop ?m] => let v := eval vm_compute in (sl_scm_loop m) in change (sl_scm_loop m) with v; cbv iota
  | |- foot _ _ _ (let '(_, _) := ?x in _) => destruct x
  | |- forall _, _ => intro
  end.

Lemma foot_block_rank T c b x i : supported b = true -> foot T (only (call_statics b (Rank 0))) (only (call_statics b (Rank 0))) (block_rank_act c b x i).
Proof.
  destruct b as [|rm sm|rm sm]; intros Sp; cbn [block_rank_act call_statics].
  - exact I.
  - destruct rm; try discriminate Sp; cbn [rank_u256_act rank_static];
      unfold rank_generic_act, rank_vec_loop_act, rank_vec_unrolled_act, rank_vec_parallel_act, rank_u256_builtin_parallel_act, fill_counts_act, store_c_act, store_s_act, load_c_act; cbv zeta; ft.
  - destruct rm; try discriminate Sp; cbn [rank_u512_act rank_static];
      unfold rank_generic_act, rank_vec_loop_act, rank_vec_unrolled_act, rank_vec_parallel_act, rank_u512_builtin_parallel_act, fill_counts_act, store_c_act, store_s_act, load_c_act; cbv zeta; ft.
Qed.

Lemma foot_block_select T c b x k : supported b = true -> foot T (only (call_statics b (Select 0))) (only (call_statics b (Select 0))) (block_select_act c b x k).
Proof.
  destruct b as [|rm sm|rm sm]; intros Sp; cbn [block_select_act call_statics].
  - ft.
  - destruct sm; cbn [supported select256_supported] in Sp; try (rewrite Bool.andb_false_r in Sp; discriminate Sp); cbn [select_u256_act select_static];
      unfold select_generic_act, select_vec_builtin_act, select_vec_simd_act, select_vec_tail_act, store_s_act, load_c_act; cbv zeta; ft.
  - destruct sm; cbn [supported select512_supported] in Sp; try (rewrite Bool.andb_false_r in Sp; discriminate Sp); cbn [select_u512_act select_static];
      unfold select_generic_act, select_vec_builtin_act, select_vec_simd_act, select_vec_tail_act, store_s_act, load_c_act; cbv zeta; ft.
Qed.

Lemma foot_call T c o p : supported (ty_block (T o)) = true -> foot T (reads T [(o, p)]) (writes T [(o, p)]) (call_act c o p).
Proof.
  intros Sp. unfold call_act. cbn [foot]. split; [exists p; left; reflexivity|]. intros [ty b]. cbn [fst]. intros ->.
  assert (M : forall l q, call_statics (ty_block (T o)) q = call_statics (ty_block (T o)) p -> only (call_statics (ty_block (T o)) q) l -> writes T [(o, p)] l).
  { intros [i|k] q E H; cbn [only writes] in *; [|contradiction]. exists o, p. split; [left; reflexivity|]. congruence. }
  assert (M' : forall l q, call_statics (ty_block (T o)) q = call_statics (ty_block (T o)) p -> only (call_statics (ty_block (T o)) q) l -> reads T [(o, p)] l)
    by (intros l q E H; eapply writes_reads, M; eauto).
  destruct p as [i|i|i|k| |].
  - apply foot_bind; [exact I|]. intros [ws m]. cbn [foot]. split; [exists i; left; reflexivity|]. split; [reflexivity|exact I].
  - ft.
  - apply foot_bind; [|intros; exact I]. unfold rank_act. apply foot_bind; [exact I|]. intros _. apply foot_bind; [exact I|]. intros a.
    apply foot_bind; [|intros; exact I]. eapply foot_mono; [| |apply foot_block_rank; exact Sp]; intros l Hl; [apply (M' l (Rank 0))|apply (M l (Rank 0))]; auto.
  - apply foot_bind; [|intros; exact I]. unfold select_act. apply foot_bind; [exact I|]. intros _. apply foot_bind; [exact I|]. intros [q z].
    apply foot_bind; [|intros; exact I]. eapply foot_mono; [| |apply foot_block_select; exact Sp]; intros l Hl; [apply (M' l (Select 0))|apply (M l (Select 0))]; auto.
  - exact I.
  - exact I.
Qed.

Lemma foot_thread T c cs : (forall o, uses cs o -> supported (ty_block (T o)) = true) -> foot T (reads T cs) (writes T cs) (thread_act c cs).
Proof.
  induction cs as [|[o p] cs IH]; intros H; cbn [thread_act]; [exact I|].
  apply foot_bind.
  - eapply foot_mono; [| |apply foot_call; apply H; exists p; left; reflexivity].
    + intros [i|k]; cbn [reads]; [intros (o' & p' & [E|[]] & Hi)|intros (q & [E|[]])]; inversion E; subst; [exists o', p'; split; auto; left; reflexivity|exists q; left; reflexivity].
    + intros [i|k]; cbn [writes]; [intros (o' & p' & [E|[]] & Hi)|intros (q & [E|[]])]; inversion E; subst; [exists o', p'; split; auto; left; reflexivity|exists q; left; reflexivity].
  - intros a. apply foot_bind; [|intros; exact I]. eapply foot_mono; [| |apply IH].
    + intros [i|k]; cbn [reads]; [intros (o' & p' & E & Hi)|intros (q & E)]; [exists o', p'; split; auto; right; exact E|exists q; right; exact E].
    + intros [i|k]; cbn [writes]; [intros (o' & p' & E & Hi)|intros (q & E)]; [exists o', p'; split; auto; right; exact E|exists q; right; exact E].
    + intros o' (q & Hq). apply H. exists q. right. exact Hq.
Qed.

Lemma made_good c T C s o b : sh_objs s o = Some (T o, b) -> made_by_program c (T o) b (C o) ->
  good c T C s o /\ supported (ty_block (T o)) = true.
Proof.
  intros Eo (addr & st & input & ops & b0 & outs & s' & (U & Rs & V & Sf) & E0 & E & EC).
  destruct (new_bitmap_ok c (T o) addr input U) as (b1 & E1 & Ea & Hb). rewrite E0 in E1. inversion E1; subst b1.
  assert (Ha : addr_ok c (T o) (b_addr b0)) by (rewrite Ea; apply U).
  destruct (run_ok c (T o) _ ops b0 st _ Hb (reachable_statics_ok _ _ _ Rs) Ha V Sf) as (outs' & b' & s2 & E2 & _ & Ea' & Hb' & _).
  rewrite E in E2. inversion E2; subst. split; [|apply U]. exists b', (cdiv (zlen input) (words_in_block (ty_block (T o)))).
  split; [exact Eo|]. split; [rewrite EC; exact Hb'|]. rewrite Ea'. exact Ha.
Qed.

(** The calls of thread [t]. *)
Definition nthc (ts : list (list (nat * op))) (t : nat) : list (nat * op) := nth t ts [].

Lemma threads_inv c T C s ts : ready c T C s ts -> all_compatible T ts -> Forall (calls_valid c T C) ts ->
  exists outs k, (forall t cs, nth_error ts t = Some cs -> calls_answered C cs (outs t)) /\
  forall sched, typed T (cs_sh (exec (start c s ts) sched)) /\ length (cs_thr (exec (start c s ts) sched)) = length ts /\
    forall t cs, nth_error ts t = Some cs ->
      thread_inv T (fun t => reads T (nthc ts t)) (fun t => writes T (nthc ts t)) (exec (start c s ts) sched) t (Ok (outs t)) (k t - count_occ Nat.eq_dec sched t)%nat.
Proof.
  intros (A & Ty & Ob) Cm V.
  assert (GS : forall cs o, In cs ts -> uses cs o -> good c T C s o /\ supported (ty_block (T o)) = true).
  { intros cs o Hc Hu. destruct (Ob cs o Hc Hu) as (b & Eo & M). eapply made_good; eauto. }
  assert (O : forall t, exists o, forall cs, nth_error ts t = Some cs -> calls_answered C cs o /\ outcome (run_act (thread_act c cs) s) = Ok o).
  { intros t. destruct (nth_error ts t) as [cs|] eqn:E; [|exists []; intros; discriminate]. apply nth_error_In in E.
    destruct (thread_alone c T cs C s A) as (outs & s' & E1 & An).
    - intros o Ho. eapply GS; eauto.
    - rewrite Forall_forall in V. auto.
    - exists outs. intros cs' Ec. inversion Ec; subst cs'. split; [exact An|]. rewrite E1. reflexivity. }
  set (outs := fun t => match run_act (thread_act c (nthc ts t)) s with Ok (o, _) => o | _ => [] end).
  set (k := fun t => steps (thread_act c (nthc ts t)) s).
  assert (Nth : forall t cs, nth_error ts t = Some cs -> nthc ts t = cs) by (intros t cs H; unfold nthc; apply nth_error_nth; exact H).
  exists outs, k. split.
  { intros t cs E. destruct (O t) as (o & Ho). destruct (Ho cs E) as (An & Eo). unfold outs. rewrite (Nth _ _ E).
    destruct (run_act (thread_act c cs) s) as [[o' s']| |]; cbn in Eo; inversion Eo; subst. exact An. }
  assert (DR : forall t u, (t < length ts)%nat -> (u < length ts)%nat -> t <> u -> forall l, writes T (nthc ts t) l -> ~ reads T (nthc ts u) l).
  { intros t u Ht Hu N l Hw Hr. destruct (nth_error ts t) as [cs|] eqn:Et; [|apply nth_error_None in Et; lia].
    destruct (nth_error ts u) as [ds|] eqn:Eu; [|apply nth_error_None in Eu; lia]. rewrite (Nth _ _ Et) in Hw. rewrite (Nth _ _ Eu) in Hr.
    destruct (Cm t u cs ds N Et Eu) as (C1 & C2 & C3). destruct l as [i|o]; cbn [reads writes] in *; [apply (C3 i Hw Hr)|apply (C1 o Hw Hr)]. }
  intros sched. induction sched as [|t sched IH] using rev_ind.
  - cbn [exec fold_left start cs_sh cs_thr]. split; [exact Ty|]. split; [apply map_length|]. intros t cs E. exists (thread_act c cs). cbn [start cs_thr cs_sh].
    split; [apply map_nth_error; exact E|]. rewrite (Nth _ _ E). split; [apply foot_thread; intros o Ho; apply (GS cs o); auto; eapply nth_error_In; eauto|].
    destruct (O t) as (o & Ho). destruct (Ho cs E) as (An & Eo). unfold outs, k. rewrite (Nth _ _ E). split; [|cbn [count_occ]; lia].
    rewrite Eo. destruct (run_act (thread_act c cs) s) as [[o' s']| |]; cbn in Eo; inversion Eo; subst. reflexivity.
  - unfold exec in *. rewrite fold_left_app. cbn [fold_left]. set (st := fold_left cstep sched (start c s ts)) in *. destruct IH as (Ty' & Ln & IH).
    set (R := fun t => reads T (nthc ts t)) in *. set (W := fun t => writes T (nthc ts t)) in *.
    assert (WR : forall t l, W t l -> R t l) by (intros; apply writes_reads; auto).
    assert (Ht : (exists rt kt, thread_inv T R W st t rt kt) \/ nth_error (cs_thr st) t = None).
    { destruct (nth_error ts t) as [cs|] eqn:E; [left; eexists; eexists; apply (IH t cs E)|]. right. apply nth_error_None. rewrite Ln. apply nth_error_None. exact E. }
    assert (Hn : length ts = 0%nat \/ exists c0, nth_error ts 0 = Some c0) by (destruct ts; [left|right; eexists]; reflexivity).
    destruct Hn as [Z|(c0 & E0)].
    { assert (En : nth_error (cs_thr st) t = None) by (apply nth_error_None; lia).
      unfold cstep. rewrite En. split; [exact Ty'|]. split; [exact Ln|]. intros u cs E.
      assert (u < length ts)%nat by (apply nth_error_Some; congruence). lia. }
    assert (G : forall u cs, nth_error ts u = Some cs -> typed T (cs_sh (cstep st t)) /\
       thread_inv T R W (cstep st t) u (Ok (outs u)) (if Nat.eqb u t then pred (k u - count_occ Nat.eq_dec sched u) else (k u - count_occ Nat.eq_dec sched u))%nat /\
       length (cs_thr (cstep st t)) = length (cs_thr st)).
    { intros u cs E. apply cstep_inv; auto.
      - intros N. destruct (le_lt_dec (length ts) t) as [Hl|Hl].
        + intros l Hw. exfalso. unfold W, nthc in Hw. rewrite nth_overflow in Hw by lia. destruct l; cbn [writes] in Hw; [destruct Hw as (? & ? & [] & _)|destruct Hw as (? & [])].
        + apply DR; auto. apply nth_error_Some. congruence.
      - apply (IH u cs E). }
    destruct (G 0%nat c0 E0) as (G1 & _ & G3). split; [exact G1|]. split; [congruence|]. intros u cs E. destruct (G u cs E) as (_ & G2 & _).
    rewrite count_occ_app. cbn [count_occ]. destruct (Nat.eqb u t) eqn:Eut.
    + apply Nat.eqb_eq in Eut. subst u. destruct (Nat.eq_dec t t); [|congruence].
      replace (k t - (count_occ Nat.eq_dec sched t + 1))%nat with (pred (k t - count_occ Nat.eq_dec sched t)) by lia. exact G2.
    + apply Nat.eqb_neq in Eut. destruct (Nat.eq_dec t u); [congruence|]. rewrite Nat.add_0_r. exact G2.
Qed.

Lemma threads_answer c T C s ts : ready c T C s ts -> all_compatible T ts -> Forall (calls_valid c T C) ts ->
  exists outs k, (forall t cs, nth_error ts t = Some cs -> calls_answered C cs (outs t)) /\
  forall sched, ~ race (exec (start c s ts) sched) /\
    forall t cs, nth_error ts t = Some cs ->
      (finished (exec (start c s ts) sched) t (outs t) \/ running (exec (start c s ts) sched) t) /\
      ((k t <= count_occ Nat.eq_dec sched t)%nat -> finished (exec (start c s ts) sched) t (outs t)).
Proof.
  intros Rd Cm V. destruct (threads_inv c T C s ts Rd Cm V) as (outs & k & An & H). exists outs, k. split; [exact An|]. intros sched.
  destruct (H sched) as (Ty & Ln & I). clear H. set (st := exec (start c s ts) sched) in *. split.
  - intros (t & u & a & b & N & Ea & Eb & Cf).
    assert (HT : exists cs, nth_error ts t = Some cs).
    { destruct (nth_error ts t) eqn:E; [eauto|]. apply nth_error_None in E. assert (t < length (cs_thr st))%nat by (apply nth_error_Some; congruence). lia. }
    assert (HU : exists cs, nth_error ts u = Some cs).
    { destruct (nth_error ts u) eqn:E; [eauto|]. apply nth_error_None in E. assert (u < length (cs_thr st))%nat by (apply nth_error_Some; congruence). lia. }
    destruct HT as (cs & Et), HU as (ds & Eu).
    destruct (I t cs Et) as (a' & Ea' & Fa & _). destruct (I u ds Eu) as (b' & Eb' & Fb & _).
    rewrite Ea in Ea'. inversion Ea'; subst a'. rewrite Eb in Eb'. inversion Eb'; subst b'. cbn beta in Fa, Fb.
    unfold nthc in Fa, Fb. rewrite (nth_error_nth _ _ _ Et) in Fa. rewrite (nth_error_nth _ _ _ Eu) in Fb.
    destruct (Cm t u cs ds N Et Eu) as (C1 & C2 & C3).
    destruct a, b; cbn [conflict] in Cf; try contradiction; subst; cbn [foot reads writes] in Fa, Fb;
      first [apply (C3 _ (proj1 Fa) (proj1 Fb))|apply (C1 _ (proj1 Fa)); apply (writes_reads T ds (LObj _)); apply Fb|apply (C1 _ (proj1 Fa) (proj1 Fb))|apply (C2 _ (proj1 Fb) (proj1 Fa))].
  - intros t cs Et. destruct (I t cs Et) as (a & Ea & Fa & Oa & Sa).
    assert (Fin : steps a (cs_sh st) = 0%nat -> finished st t (outs t)).
    { intros Z. unfold finished. rewrite Ea. destruct a as [r|x q|x v q|o q|o x q]; cbn [steps] in Z; try discriminate.
      cbn [run_act outcome] in Oa. destruct r; cbn in Oa; inversion Oa; reflexivity. }
    split.
    + destruct (steps a (cs_sh st)) eqn:Z; [left; apply Fin; reflexivity|]. right. exists a. split; [exact Ea|].
      destruct a; cbn [steps astep] in *; discriminate.
    + intros Hk. apply Fin. lia.
Qed.
