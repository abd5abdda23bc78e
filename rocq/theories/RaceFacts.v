(** Threads that are not compatible race under some schedule. *)
From Coq Require Import ZifyBool.
From Verif Require Import Base BaseFacts Mem Nodes Trees Words Blocks BlockFacts Spec Bitmap Usage BitmapFacts ProgramFacts PropFacts System Conc ConcFacts SpecConc ThreadFacts.

(** ** One thread running alone inside a larger action *)
Fixpoint solo {A} (n : nat) (a : act A) (s : shared) : option (act A * shared) :=
  match n with
  | O => Some (a, s)
  | S n' => match astep a s with Some (a', s') => solo n' a' s' | None => None end
  end.

Inductive ctx {A} (x : act A) : forall B, act B -> Prop :=
| C0 : ctx x A x
| C1 B C (y : act B) (f : B -> act C) : ctx x B y -> ctx x C (abind y f).
Arguments ctx {A} x {B}. Arguments C0 {A} x. Arguments C1 {A x B C} y f.

Lemma ctx_trans {A B C} (x : act A) (y : act B) (z : act C) : ctx x y -> ctx y z -> ctx x z.
Proof. intros H1 H2. induction H2; [exact H1|]. apply C1. assumption. Qed.

Lemma ctx_inner {A B C} (x : act A) (f : A -> act B) (z : act C) : ctx (abind x f) z -> ctx x z.
Proof. apply ctx_trans. apply C1, C0. Qed.

Lemma astep_bind {A B} (x : act A) (f : A -> act B) s x' s' : astep x s = Some (x', s') -> astep (abind x f) s = Some (abind x' f, s').
Proof.
  destruct x as [r|y k|y v k|o k|o y k]; cbn [astep abind]; intros E; [discriminate|..]; inversion E as [E1]; clear E; f_equal.
  - destruct (cell_get s y); inversion E1; reflexivity.
  - destruct (cell_put s y v); inversion E1; reflexivity.
  - destruct (sh_objs s o); inversion E1; reflexivity.
Qed.

Lemma solo_bind {A B} n (x : act A) (f : A -> act B) : forall s x' s', solo n x s = Some (x', s') -> solo n (abind x f) s = Some (abind x' f, s').
Proof.
  revert x. induction n as [|n IH]; intros x s x' s' E; cbn [solo] in *; [inversion E; reflexivity|].
  destruct (astep x s) as [[x1 s1]|] eqn:E1; [|discriminate]. rewrite (astep_bind _ _ _ _ _ E1). apply IH. exact E.
Qed.

Lemma solo_ctx {A B} (x : act A) (a : act B) n s x' s' : ctx x a -> solo n x s = Some (x', s') -> exists a', solo n a s = Some (a', s') /\ ctx x' a'.
Proof.
  intros H E. induction H.
  - exists x'. split; [exact E|apply C0].
  - destruct IHctx as (a' & E' & H'). exists (abind a' f). split; [apply solo_bind; exact E'|apply C1; exact H'].
Qed.

Lemma solo_run {A} (x : act A) : forall s v s', run_act x s = Ok (v, s') -> solo (steps x s) x s = Some (Done (Ok v), s').
Proof.
  induction x as [r|y k IH|y v k IH|o k IH|o y k IH]; intros s w s' E; cbn [run_act steps solo astep] in *.
  - destruct r; cbn in E; inversion E; reflexivity.
  - destruct (cell_get s y); cbn [bind] in E; try discriminate. auto.
  - destruct (cell_put s y v); cbn [bind] in E; try discriminate. auto.
  - destruct (sh_objs s o); try discriminate. auto.
  - auto.
Qed.

Lemma solo_app {A} n m (a : act A) s a1 s1 a2 s2 : solo n a s = Some (a1, s1) -> solo m a1 s1 = Some (a2, s2) -> solo (n + m) a s = Some (a2, s2).
Proof.
  revert a s. induction n as [|n IH]; intros a s E E2; cbn [solo Nat.add] in *; [inversion E; subst; exact E2|].
  destruct (astep a s) as [[x y]|]; [apply IH; assumption|discriminate].
Qed.

(** What an action is about to do. *)
Inductive head := HGet (x : cell) | HPut (x : cell) | HLook (o : nat) | HSave (o : nat).
Definition head_of {A} (a : act A) : option head :=
  match a with
  | Done _ => None | Get x _ => Some (HGet x) | Put x _ _ => Some (HPut x) | Look o _ => Some (HLook o) | Save o _ _ => Some (HSave o)
  end.
Lemma ctx_head {A B} (x : act A) (a : act B) h : ctx x a -> head_of x = Some h -> head_of a = Some h.
Proof. intros H E. induction H; [exact E|]. destruct y; cbn [abind head_of] in *; auto. discriminate. Qed.

(** ** Running the first calls of a thread *)
Lemma uses_app cs ds o : uses (cs ++ ds) o <-> uses cs o \/ uses ds o.
Proof.
  unfold uses. split.
  - intros (p & H). apply in_app_or in H as [H|H]; [left|right]; eauto.
  - intros [(p & H)|(p & H)]; exists p; apply in_or_app; auto.
Qed.

Lemma solo_calls c T cs : forall C s rest (a : act (list out)), all_stat s -> (forall o, uses (cs ++ rest) o -> good c T C s o) ->
  calls_valid c T C (cs ++ rest) -> ctx (thread_act c (cs ++ rest)) a ->
  exists n a' s' C', solo n a s = Some (a', s') /\ ctx (thread_act c rest) a' /\ all_stat s' /\ (forall o, uses rest o -> good c T C' s' o) /\
    calls_valid c T C' rest /\ (forall o, ~ flips cs o -> sh_objs s' o = sh_objs s o) /\ (forall o, ~ flips cs o -> C' o = C o).
Proof.
  induction cs as [|[o p] cs IH]; intros C s rest a A G V X; cbn [app] in *.
  - exists O, a, s, C. cbn [solo]. repeat (split; auto).
  - cbn [calls_valid] in V. destruct V as (V1 & V2 & V3). destruct (G o (ex_intro _ p (or_introl eq_refl))) as (b & n & Eo & Hb & Ha).
    destruct (call_ok c o p s (T o) b n (C o) Eo Hb Ha A V1 V2) as (r & s1 & b' & E & An & Eo' & Fr & Hb' & Ha' & A' & Kb).
    cbn [thread_act] in X. pose proof (solo_run _ _ _ _ E) as E1.
    apply (solo_bind _ _ (fun a => abind (thread_act c (cs ++ rest)) (fun l => ret (a :: l)))) in E1.
    destruct (solo_ctx _ _ _ _ _ _ X E1) as (a1 & Ea1 & X1). cbn [abind] in X1. apply ctx_inner in X1.
    destruct (IH (set_contents C o (contents_after (C o) p)) s1 rest a1 A') as (m & a' & s' & C' & E2 & X2 & A2 & G2 & V4 & F1 & F2); auto.
    { intros k (q & Hk). unfold good, set_contents. destruct (Nat.eqb k o) eqn:Ek.
      - apply Nat.eqb_eq in Ek. subst k. exists b', n. repeat (split; auto).
      - apply Nat.eqb_neq in Ek. rewrite Fr by auto. apply G. exists q. right. exact Hk. }
    set (n1 := steps (call_act c o p) s) in *. exists (n1 + m)%nat, a', s', C'.
    split; [eapply solo_app; eauto|].
    split; [exact X2|]. split; [exact A2|]. split; [exact G2|]. split; [exact V4|].
    assert (NF : forall k, ~ flips ((o, p) :: cs) k -> ~ flips cs k) by (intros k Hk (i & Hi); apply Hk; exists i; right; exact Hi).
    split.
    + intros k Hk. rewrite (F1 k (NF k Hk)). destruct (Nat.eq_dec k o) as [->|Nk]; [|apply Fr; exact Nk].
      rewrite Eo', Eo. f_equal. f_equal.
      destruct p as [i|i|i|i| |]; [exfalso; apply Hk; exists i; left; reflexivity|..]; exact Kb.
    + intros k Hk. rewrite (F2 k (NF k Hk)). unfold set_contents. destruct (Nat.eqb k o) eqn:Ek; [|reflexivity].
      apply Nat.eqb_eq in Ek. subst k. destruct p as [i|i|i|i| |]; [exfalso; apply Hk; exists i; left; reflexivity|..]; reflexivity.
Qed.

(** ** The first access to statics is a write of the same word *)
Definition first_cell (i : inst) : cell :=
  {| ce_inst := i;
     ce_sums := match i with
                | IRank _ (RM_avx2_parallel | RM_avx512_parallel) | ISel _ (SM_avx2_avx512_pdep | SM_avx512_avx512_pdep) => true
                | _ => false
                end;
     ce_idx := match i with
                | IRank _ (RM_avx2_parallel | RM_avx512_parallel) | ISel _ (SM_avx2_avx512_pdep | SM_avx512_avx512_pdep) => 1
                | _ => 0
                end |}.

Lemma ldws_len x n : forall j r, ldws x j n = Ok r -> length r = n.
Proof.
  induction n as [|n IH]; intros j r E; cbn [ldws] in E; [inversion E; reflexivity|].
  apply bind_inv in E as (v & _ & E). apply bind_inv in E as (l & El & E). inversion E; subst. cbn [length]. f_equal. eapply IH; eauto.
Qed.
Lemma psum256_pos l : length l = 4%nat -> (0 < length (prefixsum_m256i l))%nat.
Proof. intros H. destruct l as [|a [|b [|d [|e [|]]]]]; try discriminate H. vm_compute. lia. Qed.
Lemma psum512_pos l : length l = 8%nat -> (0 < length (prefixsum_m512i l))%nat.
Proof. intros H. destruct l as [|a [|b [|d [|e [|f [|g [|h [|i [|]]]]]]]]]; try discriminate H. vm_compute. lia. Qed.

(** [a] fails at once or writes cell [x] first. *)
Definition writes_first {A} (x : cell) (a : act A) : Prop :=
  match a with Done (Ok _) => False | Done _ => True | Put y _ _ => y = x | _ => False end.

Lemma wf_bind {A B} x (a : act A) (f : A -> act B) : writes_first x a -> writes_first x (abind a f).
Proof. destruct a as [[r|k|]| | | |]; cbn [writes_first abind]; auto; contradiction. Qed.
Lemma wf_pure {A B} x (r : res A) (f : A -> act B) : (forall v, r = Ok v -> writes_first x (f v)) -> writes_first x (abind (pure r) f).
Proof. unfold pure. destruct r; cbn [abind writes_first]; auto. Qed.

Ltac wf := repeat match goal with
  | |- writes_first _ (abind (pure _) _) => apply wf_pure; intros
  | |- writes_first _ (abind (put_c _ _ _) _) => reflexivity
  | |- writes_first _ (abind _ _) => apply wf_bind
  | |- context [rm_psm ?m] => let v := eval vm_compute in (rm_psm m) in change (rm_psm m) with v; cbv iota
  | |- writes_first _ (aiter _ (_ :: _)) => cbn [aiter]
  | |- writes_first _ (let '(_, _) := ?x in _) => destruct x
  end.

Lemma wf_store i v : (0 < length v)%nat -> writes_first {| ce_inst := i; ce_sums := true; ce_idx := 1 |} (store_s_act i v).
Proof. destruct v as [|z v]; cbn [length]; [lia|]. intros _. reflexivity. Qed.

Lemma popcount_vec_len ws : length (popcount_vec ws) = length ws.
Proof.
  assert (S : forall n v, length (sad_epu8 n v) = n) by (induction n; intros v; cbn [sad_epu8 length]; auto). apply S.
Qed.

Lemma wf_block_rank c b x i j : In j (call_statics b (Rank 0)) -> supported b = true -> writes_first (first_cell j) (block_rank_act c b x i).
Proof.
  destruct b as [|rm sm|rm sm]; intros H Sp; cbn [block_rank_act call_statics] in *; [contradiction|..].
  - destruct rm; try discriminate Sp; cbn [rank_static In] in H; try contradiction; destruct H as [<-|[]]; cbn [rank_u256_act];
      unfold rank_generic_act, rank_vec_unrolled_act, rank_vec_parallel_act, rank_u256_builtin_parallel_act, fill_counts_act; cbv zeta; wf; try reflexivity.
    apply wf_store. apply psum256_pos. rewrite popcount_vec_len. eapply ldws_len; eassumption.
  - destruct rm; try discriminate Sp; cbn [rank_static In] in H; try contradiction; destruct H as [<-|[]]; cbn [rank_u512_act];
      unfold rank_generic_act, rank_vec_unrolled_act, rank_vec_parallel_act, rank_u512_builtin_parallel_act, fill_counts_act; cbv zeta; wf; try reflexivity.
    apply wf_store. apply psum512_pos. rewrite popcount_vec_len. eapply ldws_len; eassumption.
Qed.

Lemma wf_block_select c b x i j : In j (call_statics b (Select 0)) -> supported b = true -> writes_first (first_cell j) (block_select_act c b x i).
Proof.
  destruct b as [|rm sm|rm sm]; intros H Sp; cbn [block_select_act call_statics] in *; [contradiction|..].
  - destruct sm; cbn [supported select256_supported] in Sp; try (rewrite Bool.andb_false_r in Sp; discriminate Sp);
      cbn [select_static In] in H; try contradiction; destruct H as [<-|[]]; cbn [select_u256_act];
      unfold select_vec_builtin_act, select_vec_simd_act, select_vec_tail_act; cbv zeta.
    + change (zrange 0 4) with [0; 1; 2; 3]. cbn [aiter]. wf. reflexivity.
    + wf. apply wf_store. apply psum256_pos. rewrite popcount_vec_len. eapply ldws_len; eassumption.
  - destruct sm; cbn [supported select512_supported] in Sp; try (rewrite Bool.andb_false_r in Sp; discriminate Sp);
      cbn [select_static In] in H; try contradiction; destruct H as [<-|[]]; cbn [select_u512_act];
      unfold select_vec_builtin_act, select_vec_simd_act, select_vec_tail_act; cbv zeta.
    + change (zrange 0 8) with [0; 1; 2; 3; 4; 5; 6; 7]. cbn [aiter]. wf. reflexivity.
    + wf. apply wf_store. apply psum512_pos. rewrite popcount_vec_len. eapply ldws_len; eassumption.
Qed.

Lemma wf_head {A} x (a : act A) s r : writes_first x a -> run_act a s = Ok r -> head_of a = Some (HPut x).
Proof. destruct a as [[v|k|]|y k|y v k|o k|o y k]; cbn [writes_first run_act head_of]; intros H E; try contradiction; try discriminate. congruence. Qed.

(** After its first action, a call that uses statics is about to write the first cell. *)
Lemma call_first c o p j s r ty b : sh_objs s o = Some (ty, b) -> supported (ty_block ty) = true -> In j (call_statics (ty_block ty) p) ->
  run_act (call_act c o p) s = Ok r ->
  exists a, solo 1 (call_act c o p) s = Some (a, s) /\ head_of a = Some (HPut (first_cell j)).
Proof.
  intros Eo Sp Hj E. unfold call_act in *. cbn [solo astep run_act] in *. rewrite Eo in *. cbv beta iota in E |- *.
  eexists. split; [reflexivity|]. eapply wf_head; [|exact E].
  destruct p as [i|i|i|i| |]; try (destruct (ty_block ty); contradiction Hj).
  - apply wf_bind. unfold rank_act. cbv zeta. apply wf_pure. intros _ _. apply wf_pure. intros a _. apply wf_bind. apply wf_block_rank; auto.
  - apply wf_bind. unfold select_act. cbv zeta. apply wf_pure. intros _ _. apply wf_pure. intros [q z] _. apply wf_bind. apply wf_block_select; auto.
Qed.

(** ... and a flip is about to write the bitmap. *)
Lemma flip_first c o i s r : run_act (call_act c o (Flip i)) s = Ok r ->
  exists a, solo 1 (call_act c o (Flip i)) s = Some (a, s) /\ head_of a = Some (HSave o).
Proof.
  intros E. unfold call_act in *. cbn [solo astep run_act] in *. destruct (sh_objs s o) as [[ty b]|] eqn:E0; [|discriminate].
  cbv beta iota in E |- *. eexists. split; [reflexivity|]. unfold pure in *.
  destruct (bm_flip c ty (b_words b) (own_view ty b) i) as [[ws m]| |]; cbn [abind run_act] in E; try discriminate. reflexivity.
Qed.

(** ** Two threads that are not compatible *)
Definition calls_clash (T : nat -> btyp) (x y : nat * op) : Prop := ~ compatible T [x] [y].

Lemma compat_dec1 T x y : compatible T [x] [y] \/ (fst x = fst y /\ exists i, snd x = Flip i) \/ (fst x = fst y /\ exists i, snd y = Flip i) \/
  (exists i, In i (call_statics (ty_block (T (fst x))) (snd x)) /\ In i (call_statics (ty_block (T (fst y))) (snd y))).
Proof.
  destruct x as [o p], y as [o' p']. cbn [fst snd].
  assert (D : forall l l' : list inst, (exists i, In i l /\ In i l') \/ forall i, In i l -> ~ In i l').
  { intros l l'. induction l as [|i l [(j & H1 & H2)|IH]].
    - right. intros i [].
    - left. exists j. split; [right|]; assumption.
    - destruct (existsb (fun j => inst_eqb i j) l') eqn:E.
      + apply existsb_exists in E as (j & Hj & Ej). apply inst_eqb_ok in Ej. subst j. left. exists i. split; [left; reflexivity|exact Hj].
      + right. intros j [<-|Hj]; [|apply IH; exact Hj]. intros Hi. assert (E' : existsb (fun j => inst_eqb i j) l' = true) by (apply existsb_exists; exists i; split; [exact Hi|apply inst_eqb_refl]). congruence. }
  destruct (D (call_statics (ty_block (T o)) p) (call_statics (ty_block (T o')) p')) as [Hi|Hi]; [right; right; right; exact Hi|].
  destruct (Nat.eq_dec o o') as [->|N].
  - assert (F : forall q : op, (exists i, q = Flip i) \/ forall i, q <> Flip i) by (intros [i|i|i|i| |]; [left; exists i; reflexivity|right; discriminate..]).
    destruct (F p) as [Fp|Fp]; [right; left; auto|]. destruct (F p') as [Fp'|Fp']; [right; right; left; auto|]. left. split; [|split].
    + intros k (i & [E|[]]). inversion E. exfalso. eapply Fp; eauto.
    + intros k (i & [E|[]]). inversion E. exfalso. eapply Fp'; eauto.
    + intros i (k & q & [E|[]] & H) (k' & q' & [E'|[]] & H'). inversion E; inversion E'; subst. apply (Hi i); auto.
  - left. split; [|split].
    + intros k (i & [E|[]]) (q & [E'|[]]). inversion E; inversion E'; congruence.
    + intros k (i & [E|[]]) (q & [E'|[]]). inversion E; inversion E'; congruence.
    + intros i (k & q & [E|[]] & H) (k' & q' & [E'|[]] & H'). inversion E; inversion E'; subst. apply (Hi i); auto.
Qed.

Lemma compat_app_l T cs cs' ds : compatible T (cs ++ cs') ds <-> compatible T cs ds /\ compatible T cs' ds.
Proof.
  assert (F : forall o, flips (cs ++ cs') o <-> flips cs o \/ flips cs' o).
  { intros o. split; [intros (i & H); apply in_app_or in H as [H|H]; [left|right]; exists i; exact H|intros [(i & H)|(i & H)]; exists i; apply in_or_app; auto]. }
  assert (S : forall i, uses_static T (cs ++ cs') i <-> uses_static T cs i \/ uses_static T cs' i).
  { intros i. split; [intros (o & p & H & Hi); apply in_app_or in H as [H|H]; [left|right]; exists o, p; auto|intros [(o & p & H & Hi)|(o & p & H & Hi)]; exists o, p; split; auto; apply in_or_app; auto]. }
  unfold compatible. split.
  - intros (A & B & D). split; (split; [|split]).
    + intros o H. apply A. apply F. auto.
    + intros o H U. apply (B o H). apply uses_app. auto.
    + intros i H. apply D. apply S. auto.
    + intros o H. apply A. apply F. auto.
    + intros o H U. apply (B o H). apply uses_app. auto.
    + intros i H. apply D. apply S. auto.
  - intros ((A & B & D) & (A' & B' & D')). split; [|split].
    + intros o H. apply F in H as [H|H]; auto.
    + intros o H U. apply uses_app in U as [U|U]; [apply (B o H U)|apply (B' o H U)].
    + intros i H. apply S in H as [H|H]; auto.
Qed.
Lemma compat_sym T cs ds : compatible T cs ds -> compatible T ds cs.
Proof. intros (A & B & D). split; [exact B|]. split; [exact A|]. intros i H H'. apply (D i H' H). Qed.
Lemma compat_nil T ds : compatible T [] ds.
Proof. split; [intros o (i & [])|split; [intros o _ (p & [])|intros i (o & p & [] & _)]]. Qed.

(** The first call of [cs] that clashes with a call of [ds]. *)
Lemma first_clash T ds : (forall cs, compatible T cs ds \/ exists cs1 x cs2, cs = cs1 ++ x :: cs2 /\ compatible T cs1 ds /\ ~ compatible T [x] ds).
Proof.
  assert (D1 : forall x es, compatible T [x] es \/ ~ compatible T [x] es).
  { intros x es. induction es as [|y es [IH|IH]].
    - left. apply compat_sym, compat_nil.
    - destruct (compat_dec1 T x y) as [C|H].
      + left. apply compat_sym. change (y :: es) with ([y] ++ es). apply compat_app_l. split; apply compat_sym; assumption.
      + right. intros C. apply compat_sym in C. change (y :: es) with ([y] ++ es) in C. apply compat_app_l in C as (C & _). apply compat_sym in C.
        destruct x as [o p], y as [o' p']. cbn [fst snd] in H. destruct C as (A & B & E). destruct H as [(-> & i & ->)|[(-> & i & ->)|(i & H & H')]].
        * apply (A o'); [exists i; left; reflexivity|exists p'; left; reflexivity].
        * apply (B o'); [exists i; left; reflexivity|exists p; left; reflexivity].
        * apply (E i); [exists o, p|exists o', p']; split; auto; left; reflexivity.
    - right. intros C. apply IH. apply compat_sym in C. change (y :: es) with ([y] ++ es) in C. apply compat_app_l in C as (_ & C). apply compat_sym. exact C. }
  induction cs as [|x cs IH]; [left; apply compat_nil|].
  destruct (D1 x ds) as [Hx|Hx].
  - destruct IH as [IH|(cs1 & y & cs2 & -> & Hc & Hy)].
    + left. change (x :: cs) with ([x] ++ cs). apply compat_app_l. auto.
    + right. exists (x :: cs1), y, cs2. split; [reflexivity|]. split; [|exact Hy]. change (x :: cs1) with ([x] ++ cs1). apply compat_app_l. auto.
  - right. exists [], x, cs. split; [reflexivity|]. split; [apply compat_nil|exact Hx].
Qed.

Lemma exec_solo st t a n a' s' : nth_error (cs_thr st) t = Some a -> solo n a (cs_sh st) = Some (a', s') ->
  cs_sh (exec st (repeat t n)) = s' /\ nth_error (cs_thr (exec st (repeat t n))) t = Some a' /\
  forall u, u <> t -> nth_error (cs_thr (exec st (repeat t n))) u = nth_error (cs_thr st) u.
Proof.
  revert st a. induction n as [|n IH]; intros st a E S; cbn [solo repeat exec fold_left] in *.
  - inversion S; subst. auto.
  - destruct (astep a (cs_sh st)) as [[a1 s1]|] eqn:Es; [|discriminate].
    assert (Hl : (t < length (cs_thr st))%nat) by (apply nth_error_Some; congruence).
    assert (Ec : cstep st t = {| cs_sh := s1; cs_thr := upd_nat (cs_thr st) t a1 |}) by (unfold cstep; rewrite E, Es; reflexivity).
    destruct (IH (cstep st t) a1) as (I1 & I2 & I3).
    + rewrite Ec. cbn [cs_thr]. rewrite nth_error_upd by auto. rewrite Nat.eqb_refl. reflexivity.
    + rewrite Ec. exact S.
    + split; [exact I1|]. split; [exact I2|]. intros u Hu. unfold exec in I3. rewrite I3 by auto. rewrite Ec. cbn [cs_thr].
      rewrite nth_error_upd by auto. apply Nat.eqb_neq in Hu. rewrite Hu. reflexivity.
Qed.

Lemma exec_app st l l' : exec st (l ++ l') = exec (exec st l) l'.
Proof. unfold exec. apply fold_left_app. Qed.

Lemma head_conflict (a b : act (list out)) h h' : head_of a = Some h -> head_of b = Some h' ->
  (match h, h' with
   | HGet x, HPut y | HPut x, HGet y | HPut x, HPut y => x = y
   | HLook o, HSave o' | HSave o, HLook o' | HSave o, HSave o' => o = o'
   | _, _ => False end) -> conflict a b.
Proof. destruct a, b; cbn [head_of conflict]; intros E E'; inversion E; inversion E'; subst; auto. Qed.

Lemma call_look c o p : head_of (call_act c o p) = Some (HLook o).
Proof. reflexivity. Qed.

Lemma incompatible_race c T C s ts t u cs ds : ready c T C s ts -> Forall (calls_valid c T C) ts -> t <> u ->
  nth_error ts t = Some cs -> nth_error ts u = Some ds -> ~ compatible T cs ds -> exists sched, race (exec (start c s ts) sched).
Proof.
  intros (A & Ty & Ob) V N Et Eu Nc.
  assert (GS : forall cs o, In cs ts -> uses cs o -> good c T C s o /\ supported (ty_block (T o)) = true).
  { intros es o Hc Hu. destruct (Ob es o Hc Hu) as (b & Eo & M). eapply made_good; eauto. }
  pose proof (nth_error_In _ _ Et) as It. pose proof (nth_error_In _ _ Eu) as Iu. rewrite Forall_forall in V.
  destruct (first_clash T ds cs) as [H|(cs1 & [o p] & cs2 & -> & Hc1 & Hx)]; [contradiction|].
  assert (Hx' : ~ compatible T ds [(o, p)]) by (intros H; apply Hx, compat_sym, H).
  destruct (first_clash T [(o, p)] ds) as [H|(ds1 & [o' p'] & ds2 & -> & Hd1 & Hy)]; [contradiction|].
  destruct (compat_dec1 T (o', p') (o, p)) as [H|Cl]; [contradiction|]. cbn [fst snd] in Cl.
  (* thread t up to its call *)
  destruct (solo_calls c T cs1 C s ((o, p) :: cs2) (thread_act c (cs1 ++ (o, p) :: cs2)) A (fun k Hk => proj1 (GS _ k It Hk)) (V _ It) (C0 _))
    as (n & a1 & s1 & C1 & E1 & X1 & A1 & G1 & V1 & F1 & F1').
  (* thread u up to its call *)
  destruct (solo_calls c T ds1 C s1 ((o', p') :: ds2) (thread_act c (ds1 ++ (o', p') :: ds2)) A1) as (m & b1 & s2 & C2 & E2 & Y1 & A2 & G2 & V2 & F2 & F2'); [|apply V; exact Iu|apply C0|].
  { intros k Hk. assert (Nk : ~ flips cs1 k) by (intros Hf; destruct Hc1 as (Hc1 & _); apply (Hc1 k Hf Hk)).
    destruct (GS _ k Iu Hk) as ((b & q & Ek & Hb & Ha) & _). exists b, q. rewrite (F1 k Nk). auto. }
  assert (No : ~ flips ds1 o) by (intros Hf; destruct Hd1 as (Hd1 & _); apply (Hd1 o Hf); exists p; left; reflexivity).
  destruct (G1 o (ex_intro _ p (or_introl eq_refl))) as (b & q & Eo & Hb & Ha). rewrite <- (F2 o No) in Eo.
  destruct (G2 o' (ex_intro _ p' (or_introl eq_refl))) as (b' & q' & Eo' & Hb' & Ha').
  cbn [calls_valid] in V1, V2. destruct V1 as (V11 & V12 & _), V2 as (V21 & V22 & _).
  destruct (call_ok c o p s2 (T o) b q (C1 o) Eo Hb Ha A2 V11 V12) as (r & s3 & b3 & R & _).
  destruct (call_ok c o' p' s2 (T o') b' q' (C2 o') Eo' Hb' Ha' A2 V21 V22) as (r' & s3' & b3' & R' & _).
  cbn [thread_act] in X1, Y1. apply ctx_inner in X1. apply ctx_inner in Y1.
  (* the schedule so far *)
  set (st0 := start c s ts). assert (T0 : nth_error (cs_thr st0) t = Some (thread_act c (cs1 ++ (o, p) :: cs2))) by (apply map_nth_error; exact Et).
  assert (U0 : nth_error (cs_thr st0) u = Some (thread_act c (ds1 ++ (o', p') :: ds2))) by (apply map_nth_error; exact Eu).
  destruct (exec_solo st0 t _ n a1 s1 T0 E1) as (S1 & T1 & O1). set (st1 := exec st0 (repeat t n)) in *.
  assert (U1 : nth_error (cs_thr st1) u = Some (thread_act c (ds1 ++ (o', p') :: ds2))) by (rewrite O1 by auto; exact U0).
  rewrite <- S1 in E2. destruct (exec_solo st1 u _ m b1 s2 U1 E2) as (S2 & U2 & O2). set (st2 := exec st1 (repeat u m)) in *.
  assert (T2 : nth_error (cs_thr st2) t = Some a1) by (rewrite O2 by auto; exact T1).
  assert (Ex : forall l, exec st0 (repeat t n ++ repeat u m ++ l) = exec st2 l) by (intros l; rewrite !exec_app; reflexivity).
  destruct Cl as [(-> & i & ->)|[(-> & i & ->)|(i & Hi' & Hi)]].
  - (* thread u flips *)
    destruct (flip_first c o i s2 _ R') as (z & Z1 & Z2). destruct (solo_ctx _ _ _ _ _ _ Y1 Z1) as (b2 & Z3 & Z4). rewrite <- S2 in Z3.
    destruct (exec_solo st2 u _ 1 b2 _ U2 Z3) as (S3 & U3 & O3).
    exists (repeat t n ++ repeat u m ++ repeat u 1). unfold st0 in Ex. rewrite Ex. exists t, u, a1, b2. split; [exact N|]. split; [rewrite O3 by auto; exact T2|]. split; [exact U3|].
    eapply head_conflict; [eapply ctx_head; [exact X1|apply call_look]|eapply ctx_head; [exact Z4|exact Z2]|reflexivity].
  - (* thread t flips *)
    destruct (flip_first c o i s2 _ R) as (z & Z1 & Z2). destruct (solo_ctx _ _ _ _ _ _ X1 Z1) as (a2 & Z3 & Z4). rewrite <- S2 in Z3.
    destruct (exec_solo st2 t _ 1 a2 _ T2 Z3) as (S3 & T3 & O3).
    exists (repeat t n ++ repeat u m ++ repeat t 1). unfold st0 in Ex. rewrite Ex. exists t, u, a2, b1. split; [exact N|]. split; [exact T3|]. split; [rewrite O3 by auto; exact U2|].
    eapply head_conflict; [eapply ctx_head; [exact Z4|exact Z2]|eapply ctx_head; [exact Y1|apply call_look]|reflexivity].
  - (* both use the same statics *)
    assert (So : supported (ty_block (T o)) = true).
    { apply (GS _ o It). exists p. apply in_or_app. right. left. reflexivity. }
    assert (So' : supported (ty_block (T o')) = true).
    { apply (GS _ o' Iu). exists p'. apply in_or_app. right. left. reflexivity. }
    destruct (call_first c o p i s2 _ _ _ Eo So Hi R) as (z & Z1 & Z2). destruct (solo_ctx _ _ _ _ _ _ X1 Z1) as (a2 & Z3 & Z4). rewrite <- S2 in Z3.
    destruct (call_first c o' p' i s2 _ _ _ Eo' So' Hi' R') as (w & W1 & W2). destruct (solo_ctx _ _ _ _ _ _ Y1 W1) as (b2 & W3 & W4).
    destruct (exec_solo st2 t _ 1 a2 _ T2 Z3) as (S3 & T3 & O3). set (st3 := exec st2 (repeat t 1)) in *.
    assert (U3 : nth_error (cs_thr st3) u = Some b1) by (rewrite O3 by auto; exact U2).
    rewrite <- S2, <- S3 in W3. destruct (exec_solo st3 u _ 1 b2 _ U3 W3) as (S4 & U4 & O4).
    exists (repeat t n ++ repeat u m ++ repeat t 1 ++ repeat u 1). unfold st0 in Ex. rewrite Ex, exec_app. fold st3.
    exists t, u, a2, b2. split; [exact N|]. split; [rewrite O4 by auto; exact T3|]. split; [exact U4|].
    eapply head_conflict; [eapply ctx_head; [exact Z4|exact Z2]|eapply ctx_head; [exact W4|exact W2]|reflexivity].
Qed.
