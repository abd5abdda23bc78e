(** The system of bitmaps refines its specification: one step, any sequence. *)
From Coq Require Import ZifyBool.
From Verif Require Import Base BaseFacts Mem MemFacts Nodes NodeFacts Trees LevelFacts TreeFacts TreeBuild Words Blocks Spec Bitmap Usage BlockFacts BitmapFacts ProgramFacts PropFacts2 SpecSystem System.
Ltac Zify.zify_post_hook ::= Z.div_mod_to_equations.

(** ** Views that differ in the base address only *)
Definition view_eq (H : nat) (v v' : tview) : Prop :=
  v_size v' = v_size v /\ v_ptr v' = v_ptr v /\ v_mem v' = v_mem v /\ (forall k, 0 <= k < Z.of_nat H -> v_nn v' k = v_nn v k).

Lemma tinv_view f H mx n v v' A : tinv f H mx n v A -> view_eq H v v' -> tinv f H mx n v' A.
Proof.
  intros (H1 & H2 & H3 & H4 & H5 & G & H6 & H7 & H8) (E1 & E2 & E3 & E4).
  split; [congruence|]. repeat (split; [assumption|]). exists G. repeat (split; [assumption|]).
  unfold levels_inv in *. rewrite E2, E3.
  destruct f, H as [|[|[|[|[|H]]]]]; auto; rewrite ?E4 by lia; exact H8.
Qed.

Lemma winv_view ty n ws v v' : winv ty n ws v -> view_eq (ty_height ty) v v' -> winv ty n ws v'.
Proof.
  intros (H1 & H2 & H3 & A & H4 & H5) V. repeat (split; [assumption|]). exists A. split; auto. eapply tinv_view; eauto.
Qed.

(** ** The invariant *)

(** The bytes are an index of the bits. *)
Definition index_bytes_ok (ty : btyp) (B : list bool) (m : list Z) : Prop :=
  exists n ws, bits_of_words ws = B /\ winv ty n ws (built_view n (ty_height ty) 0 m) /\ zlen m = total_of (ty_fam ty) (ty_height ty) n.

Definition heap_rel (c : cfg) (sy : sys) (ss : sstate) : Prop :=
  length (sy_heap sy) = length (ss_index ss) /\
  forall id ty B, index_at ss id = Some (ty, B) ->
    exists h, blk_at sy id = Some h /\ index_addr_ok c ty (hb_addr h) /\ index_bytes_ok ty B (hb_bytes h).

Definition link_to (l : option nat) (off : Z) : option (nat * Z) :=
  match l with Some id => Some (id, off) | None => None end.

Definition own_ok (c : cfg) (sy : sys) (ty : btyp) (own : option nat) (len cap : Z) : Prop :=
  match own with
  | None => len = 0 /\ cap = 0
  | Some id => exists h, blk_at sy id = Some h /\ zlen (hb_bytes h) = len /\ index_addr_ok c ty (hb_addr h)
  end.

Definition obj_rel (c : cfg) (sy : sys) (x : mobj) (o : sobj) : Prop :=
  x_ty x = so_ty o /\ words_ok (x_words x) /\ bits_of_words (x_words x) = so_bits o /\
  x_nn x = link_to (so_link o) 0 /\ x_ptr x = link_to (so_link o) (Z.of_nat (ty_height (so_ty o)) * 4) /\
  x_data x = so_own o /\ x_cap x = so_cap o /\
  (x_words x <> [] -> zlen (x_words x) = words_in_block (ty_block (so_ty o)) * x_n x) /\
  own_ok c sy (so_ty o) (so_own o) (so_len o) (so_cap o).

Definition slot_rel (c : cfg) (sy : sys) (x : option mobj) (o : option sobj) : Prop :=
  match x, o with Some x, Some o => obj_rel c sy x o | None, None => True | _, _ => False end.

Definition gstat_ok (g : gstat) : Prop := (forall n m, stat_ok n (gs_rank g n m)) /\ (forall n m, stat_ok n (gs_select g n m)).

Definition owners_unique (ss : sstate) : Prop :=
  forall o1 o2 x1 x2 id, sobj_at ss o1 = Some x1 -> sobj_at ss o2 = Some x2 -> so_own x1 = Some id -> so_own x2 = Some id -> o1 = o2.

(** A buffer is only ever the index of a bitmap of its owner's type. *)
Definition own_typed (ss : sstate) : Prop :=
  forall o x id ty B, sobj_at ss o = Some x -> so_own x = Some id -> index_at ss id = Some (ty, B) -> ty = so_ty x.

Definition sim (c : cfg) (sy : sys) (ss : sstate) : Prop :=
  heap_rel c sy ss /\ length (sy_objs sy) = length (ss_objs ss) /\ (forall o, slot_rel c sy (obj_at sy o) (sobj_at ss o)) /\
  owners_unique ss /\ own_typed ss /\ gstat_ok (sy_stat sy).

(** ** Lists of optional things *)
Lemma nth_some_lt {A} (l : list (option A)) i x : nth i l None = Some x -> (i < length l)%nat.
Proof. intros E. destruct (Nat.lt_ge_cases i (length l)); auto. rewrite nth_overflow in E by lia. discriminate. Qed.

Lemma nth_upd_same {A} (l : list (option A)) i v x : nth i l None = Some x -> nth i (upd_nat l i v) None = v.
Proof. intros E. apply nth_some_lt in E. rewrite nth_upd_nat by auto. rewrite Nat.eqb_refl. reflexivity. Qed.

Lemma upd_beyond {A} (l : list A) v : forall i, (length l <= i)%nat -> upd_nat l i v = l.
Proof. induction l as [|a l IH]; intros [|i] H; cbn in *; try reflexivity; try lia. rewrite IH by lia. reflexivity. Qed.

Lemma nth_upd_other {A} (l : list (option A)) i j v : i <> j -> nth j (upd_nat l i v) None = nth j l None.
Proof.
  intros N. destruct (Nat.lt_ge_cases i (length l)).
  - rewrite nth_upd_nat by auto. destruct (Nat.eqb_spec j i); [congruence|reflexivity].
  - rewrite upd_beyond by auto. reflexivity.
Qed.

Lemma nth_push {A} (l : list (option A)) v j : nth j (l ++ [v]) None = if Nat.eqb j (length l) then v else nth j l None.
Proof.
  destruct (Nat.eqb_spec j (length l)) as [->|N].
  - rewrite app_nth2, Nat.sub_diag by lia. reflexivity.
  - destruct (Nat.lt_ge_cases j (length l)); [apply app_nth1; auto|].
    rewrite !nth_overflow; auto; rewrite ?app_length; cbn; lia.
Qed.

Lemma nth_upd_none {A} (l : list (option A)) i j v x : nth j (upd_nat l i v) None = Some x -> i <> j \/ v = Some x.
Proof.
  intros E. destruct (Nat.eq_dec i j) as [->|N]; [right|auto].
  pose proof (nth_some_lt _ _ _ E) as L. rewrite length_upd_nat in L. rewrite nth_upd_nat, Nat.eqb_refl in E by auto. exact E.
Qed.

(** ** Storing the elements of an index vector *)
Lemma free_ok c sy ss own : heap_rel c sy ss -> (forall id, own = Some id -> exists h, blk_at sy id = Some h) ->
  exists sy', free_blk sy own = Ok sy' /\ heap_rel c sy' (release_own ss own) /\
    sy_objs sy' = sy_objs sy /\ sy_stat sy' = sy_stat sy /\ length (sy_heap sy') = length (sy_heap sy) /\
    (forall id, own <> Some id -> blk_at sy' id = blk_at sy id).
Proof.
  intros [HL HI] Ho. destruct own as [id|]; cbn [free_blk release_own].
  - destruct (Ho id eq_refl) as (h & Eh). rewrite Eh. eexists. split; [reflexivity|]. split; [split|].
    + cbn. rewrite !length_upd_nat. auto.
    + intros id' ty B E. unfold index_at, set_index in E. cbn [ss_index] in E.
      destruct (nth_upd_none _ _ _ _ _ E) as [N|N]; [|discriminate]. rewrite nth_upd_other in E by auto.
      destruct (HI id' ty B E) as (h' & E' & H'). exists h'. split; auto.
      unfold blk_at, put_heap. cbn [sy_heap]. rewrite nth_upd_other by auto. exact E'.
    + cbn. rewrite length_upd_nat. repeat (split; [reflexivity|]). intros id' N. unfold blk_at, put_heap. cbn [sy_heap]. apply nth_upd_other. congruence.
  - exists sy. split; [reflexivity|]. split; [split; auto|]. auto.
Qed.

Lemma store_ok c sy ss ty own cap m a v len : heap_rel c sy ss -> own_ok c sy ty own len cap -> index_addr_ok c ty (al_addr a) ->
  (forall ty' B, v = Some (ty', B) -> ty' = ty /\ index_bytes_ok ty' B m) -> (own = None -> zlen m <= cap -> v = None /\ m = []) ->
  exists sy' ss' own' cap', store_data sy own cap m a = Ok (sy', own', cap') /\
    store_index ss own cap (zlen m) a v = (ss', own', cap') /\ heap_rel c sy' ss' /\
    sy_objs sy' = sy_objs sy /\ ss_objs ss' = ss_objs ss /\ sy_stat sy' = sy_stat sy /\
    (forall id h, own <> Some id -> blk_at sy id = Some h -> blk_at sy' id = Some h) /\
    own_ok c sy' ty own' (zlen m) cap' /\
    (own' = own \/ own' = Some (length (sy_heap sy))) /\ (forall id, own' = Some id -> index_at ss' id = v) /\
    (forall id, own <> Some id -> own' <> Some id -> index_at ss' id = index_at ss id).
Proof.
  intros HR Ho Ha Hv Hn. pose proof HR as [HL HI]. unfold store_data, store_index.
  destruct (zlen m <=? cap) eqn:Ec.
  - destruct own as [id|].
    + destruct Ho as (h & Eh & Lh & Ah). unfold write_blk. rewrite Eh. cbn [bind].
      eexists _, _, _, _. split; [reflexivity|]. split; [reflexivity|]. split; [split|].
      * cbn. rewrite !length_upd_nat. auto.
      * intros id' ty' B E. unfold index_at, set_index in E. cbn [ss_index] in E. unfold blk_at, put_heap. cbn [sy_heap].
        destruct (Nat.eq_dec id id') as [<-|N].
        -- destruct (nth_upd_none _ _ _ _ _ E) as [N|Ev]; [congruence|]. destruct (Hv ty' B Ev) as [-> Hb].
           erewrite nth_upd_same by exact Eh. eexists. split; [reflexivity|]. cbn. auto.
        -- rewrite nth_upd_other in E by auto. destruct (HI id' ty' B E) as (h' & E' & H'). exists h'.
           rewrite nth_upd_other by auto. auto.
      * cbn [put_heap set_index sy_objs ss_objs sy_stat]. repeat (split; [reflexivity|]).
        split; [|split; [|split; [|split]]].
        -- intros id' h' N E. unfold blk_at, put_heap. cbn [sy_heap]. rewrite nth_upd_other by congruence. exact E.
        -- cbn [own_ok]. eexists. unfold blk_at, put_heap. cbn [sy_heap]. erewrite nth_upd_same by exact Eh. split; [reflexivity|]. auto.
        -- auto.
        -- intros id' [= <-]. unfold index_at, set_index. cbn [ss_index]. rewrite nth_upd_nat, Nat.eqb_refl; [reflexivity|].
           rewrite <- HL. apply (nth_some_lt _ _ _ Eh).
        -- intros id' N _. unfold index_at, set_index. cbn [ss_index]. apply nth_upd_other. congruence.
    + destruct (Hn eq_refl ltac:(lia)) as [-> ->]. eexists _, _, _, _. split; [reflexivity|]. split; [reflexivity|]. split; [exact HR|].
      repeat (split; [reflexivity|]). split; [auto|]. split; [split; [reflexivity|exact (proj2 Ho)]|]. split; auto. split; [discriminate|auto].
  - destruct (free_ok c sy ss own HR) as (sy1 & E1 & HR1 & O1 & S1 & L1 & B1).
    { intros id ->. destruct Ho as (h & Eh & _). eauto. }
    rewrite E1. cbn [bind]. destruct HR1 as [HL1 HI1].
    assert (Lr : length (ss_index (release_own ss own)) = length (ss_index ss)).
    { destruct own; cbn; rewrite ?length_upd_nat; reflexivity. }
    assert (Or : ss_objs (release_own ss own) = ss_objs ss) by (destruct own; reflexivity).
    eexists _, _, _, _. split; [reflexivity|]. split; [rewrite L1, HL; reflexivity|]. split; [split|].
    + cbn. rewrite !app_length. cbn. lia.
    + intros id' ty' B E. unfold index_at, add_index in E. cbn [ss_index] in E. rewrite nth_push in E.
      unfold blk_at, put_heap. cbn [sy_heap]. rewrite nth_push. rewrite HL1. destruct (Nat.eqb_spec id' (length (ss_index (release_own ss own)))).
      * destruct (Hv ty' B E) as [-> Hb]. eexists. split; [reflexivity|]. cbn. auto.
      * apply (HI1 id' ty' B E).
    + cbn [put_heap add_index sy_objs ss_objs sy_stat]. split; [auto|]. split; [auto|]. split; [auto|].
      split; [|split; [|split; [|split]]].
      * intros id' h' N E. unfold blk_at, put_heap. cbn [sy_heap]. rewrite nth_push.
        pose proof (nth_some_lt _ _ _ E) as L. destruct (Nat.eqb_spec id' (length (sy_heap sy1))); [lia|].
        fold (blk_at sy1 id'). rewrite B1 by auto. exact E.
      * cbn [own_ok]. eexists. unfold blk_at, put_heap. cbn [sy_heap]. rewrite nth_push, Nat.eqb_refl. split; [reflexivity|]. cbn. auto.
      * right. rewrite L1. reflexivity.
      * intros id' [= <-]. unfold index_at, add_index. cbn [ss_index]. rewrite nth_push, HL1, Nat.eqb_refl. reflexivity.
      * intros id' N1 N2. unfold index_at, add_index. cbn [ss_index]. rewrite nth_push.
        destruct (Nat.eqb_spec id' (length (ss_index (release_own ss own)))) as [->|N]; [rewrite HL1 in N2; congruence|].
        destruct own as [id|]; cbn [release_own set_index ss_index]; auto. apply nth_upd_other. congruence.
Qed.

(** ** Objects *)
Lemma obj_frame c sy sy' x o : obj_rel c sy x o -> (forall id h, so_own o = Some id -> blk_at sy id = Some h ->
    exists h', blk_at sy' id = Some h' /\ zlen (hb_bytes h') = zlen (hb_bytes h) /\ hb_addr h' = hb_addr h) -> obj_rel c sy' x o.
Proof.
  intros (H1 & H2 & H3 & H4 & H5 & H6 & H7 & H8 & H9) F. unfold obj_rel. repeat (split; [assumption|]).
  unfold own_ok in *. destruct (so_own o) as [id|]; auto.
  destruct H9 as (h & Eh & Lh & Ah). destruct (F id h eq_refl Eh) as (h' & E' & L' & A'). exists h'.
  rewrite L', A'. auto.
Qed.

Lemma sim_own c sy ss o x : sim c sy ss -> sobj_at ss o = Some x ->
  exists m, obj_at sy o = Some m /\ obj_rel c sy m x.
Proof.
  intros (_ & _ & HO & _) E. specialize (HO o). rewrite E in HO. unfold slot_rel in HO.
  destruct (obj_at sy o) as [m|]; [|contradiction]. exists m. auto.
Qed.

(** A buffer the object owned, or a new one, is nobody else's. *)
Lemma own_fresh c sy ss d od w : sim c sy ss -> sobj_at ss d = Some od ->
  (w = so_own od \/ w = Some (length (sy_heap sy))) ->
  forall id p y, p <> d -> sobj_at ss p = Some y -> so_own y = Some id -> w = Some id -> False.
Proof.
  intros HS Ed HW id p y Np Ep Wy Wo. pose proof HS as (HR & HL & HO & HU & HT & _). destruct HW as [W|W]; rewrite Wo in W.
  - apply Np. apply (HU p d y od id); auto.
  - injection W as ->. destruct (sim_own c sy ss p y HS Ep) as (my & Emy & Rmy).
    destruct Rmy as (_ & _ & _ & _ & _ & _ & _ & _ & Hown). rewrite Wy in Hown. destruct Hown as (h & Eh & _).
    apply nth_some_lt in Eh. lia.
Qed.

Lemma sim_put c sy ss sy1 ss1 d od x o : sim c sy ss -> heap_rel c sy1 ss1 -> sy_objs sy1 = sy_objs sy -> ss_objs ss1 = ss_objs ss ->
  gstat_ok (sy_stat sy1) -> sobj_at ss d = Some od ->
  (forall id h, so_own od <> Some id -> blk_at sy id = Some h -> blk_at sy1 id = Some h) ->
  obj_rel c sy1 x o -> (forall id p y, p <> d -> sobj_at ss p = Some y -> so_own y = Some id -> so_own o = Some id -> False) ->
  (forall id, so_own od <> Some id -> so_own o <> Some id -> index_at ss1 id = index_at ss id) ->
  (forall id ty B, so_own o = Some id -> index_at ss1 id = Some (ty, B) -> ty = so_ty o) ->
  sim c (put_obj sy1 d (Some x)) (set_obj ss1 d (Some o)).
Proof.
  intros HS HR1 EO ES HG Ed HF HX NF P1 P2. pose proof HS as (HR & HL & HO & HU & HT & _).
  destruct (sim_own c sy ss d od HS Ed) as (m & Em & Rm).
  split; [|split; [|split; [|split; [|split]]]].
  - exact HR1.
  - cbn. rewrite !length_upd_nat, EO, ES. auto.
  - intros p. unfold obj_at, sobj_at, put_obj, set_obj. cbn [sy_objs ss_objs]. rewrite EO, ES.
    destruct (Nat.eq_dec d p) as [<-|N].
    + erewrite !nth_upd_same by eassumption. exact HX.
    + rewrite !nth_upd_other by auto. fold (obj_at sy p). fold (sobj_at ss p). specialize (HO p).
      unfold slot_rel in *. destruct (obj_at sy p) as [y|], (sobj_at ss p) as [q|] eqn:Eq; auto.
      apply (obj_frame c sy); auto. intros id h Eo Eh. exists h. split; auto.
      apply HF; auto. intros Ew. apply N. apply (HU d p od q id); auto.
  - intros o1 o2 x1 x2 id E1 E2 W1 W2. unfold sobj_at, set_obj in E1, E2. cbn [ss_objs] in E1, E2. rewrite ES in E1, E2.
    destruct (Nat.eq_dec d o1) as [<-|N1], (Nat.eq_dec d o2) as [<-|N2]; auto.
    + erewrite nth_upd_same in E1 by eassumption. rewrite nth_upd_other in E2 by auto. injection E1 as <-. exfalso. apply (NF id o2 x2); auto.
    + erewrite nth_upd_same in E2 by eassumption. rewrite nth_upd_other in E1 by auto. injection E2 as <-. exfalso. apply (NF id o1 x1); auto.
    + rewrite nth_upd_other in E1, E2 by auto. apply (HU o1 o2 x1 x2 id); auto.
  - intros p y id ty B Ey Wy Ei. unfold sobj_at, set_obj in Ey. cbn [ss_objs] in Ey. rewrite ES in Ey.
    change (index_at ss1 id = Some (ty, B)) in Ei. destruct (Nat.eq_dec d p) as [<-|N].
    + erewrite nth_upd_same in Ey by eassumption. injection Ey as <-. apply (P2 id ty B); auto.
    + rewrite nth_upd_other in Ey by auto. rewrite P1 in Ei.
      * apply (HT p y id ty B); auto.
      * intros Ew. apply N. apply (HU d p od y id); auto.
      * intros Ew. apply (NF id p y); auto.
  - exact HG.
Qed.

Lemma sim_push c sy ss sy1 ss1 x o : sim c sy ss -> heap_rel c sy1 ss1 -> sy_objs sy1 = sy_objs sy -> ss_objs ss1 = ss_objs ss ->
  gstat_ok (sy_stat sy1) -> (forall id h, blk_at sy id = Some h -> blk_at sy1 id = Some h) ->
  obj_rel c sy1 x o -> (forall id p q, so_own o = Some id -> sobj_at ss p = Some q -> so_own q <> Some id) ->
  (forall id, so_own o <> Some id -> index_at ss1 id = index_at ss id) ->
  (forall id ty B, so_own o = Some id -> index_at ss1 id = Some (ty, B) -> ty = so_ty o) ->
  sim c (push_obj sy1 x) (add_obj ss1 o).
Proof.
  intros HS HR1 EO ES HG HF HX HW P1 P2. pose proof HS as (HR & HL & HO & HU & HT & _).
  split; [|split; [|split; [|split; [|split]]]].
  - exact HR1.
  - cbn. rewrite !app_length, EO, ES. cbn. lia.
  - intros p. unfold obj_at, sobj_at, push_obj, add_obj. cbn [sy_objs ss_objs]. rewrite EO, ES, !nth_push, HL.
    destruct (Nat.eqb p (length (ss_objs ss))); [exact HX|].
    fold (obj_at sy p). fold (sobj_at ss p). specialize (HO p).
    unfold slot_rel in *. destruct (obj_at sy p) as [y|], (sobj_at ss p) as [q|] eqn:Eq; auto.
    apply (obj_frame c sy); auto. intros id h Eo Eh. exists h. split; auto. apply HF; auto.
  - intros o1 o2 x1 x2 id E1 E2 W1 W2. unfold sobj_at, add_obj in E1, E2. cbn [ss_objs] in E1, E2. rewrite ES, nth_push in E1, E2.
    destruct (Nat.eqb_spec o1 (length (ss_objs ss))), (Nat.eqb_spec o2 (length (ss_objs ss))); subst; auto.
    + injection E1 as <-. exfalso. apply (HW id o2 x2); auto.
    + injection E2 as <-. exfalso. apply (HW id o1 x1); auto.
    + apply (HU o1 o2 x1 x2 id); auto.
  - intros p y id ty B Ey Wy Ei. unfold sobj_at, add_obj in Ey. cbn [ss_objs] in Ey. rewrite ES, nth_push in Ey.
    change (index_at ss1 id = Some (ty, B)) in Ei. destruct (Nat.eqb_spec p (length (ss_objs ss))).
    + injection Ey as <-. apply (P2 id ty B); auto.
    + rewrite P1 in Ei; [apply (HT p y id ty B); auto|]. intros Ew. apply (HW id p y); auto.
  - exact HG.
Qed.

Lemma gstat_of g b : gstat_ok g -> statics_ok b (statics_of g b).
Proof. intros [H1 H2]. destruct b; cbn [statics_of]; [apply statics_init_ok| |]; split; cbn [s_rank s_select nwords]; auto. Qed.

Lemma gstat_put g b s : gstat_ok g -> statics_ok b s -> gstat_ok (put_statics g b s).
Proof.
  intros [H1 H2] [H3 H4]. destruct b; cbn [put_statics]; [split; auto| |]; cbn [nwords] in *;
    split; intros n m; cbn [put_stat gs_rank gs_select];
    match goal with |- context [Nat.eqb n ?k] => destruct (Nat.eqb_spec n k) as [->|] end; cbn [andb]; auto;
    match goal with |- context [if ?b then _ else _] => destruct b end; auto.
Qed.

(** ** Calls *)
Lemma synced c sy ss o x m : sim c sy ss -> sobj_at ss o = Some x -> obj_at sy o = Some m -> in_sync ss o ->
  exists id h n, so_link x = Some id /\ blk_at sy id = Some h /\ x_ptr m = Some (id, Z.of_nat (ty_height (so_ty x)) * 4) /\
    index_addr_ok c (so_ty x) (hb_addr h) /\ index_at ss id = Some (so_ty x, so_bits x) /\
    v_mem (sys_view sy m) = hb_bytes h /\ v_ptr (sys_view sy m) = Z.of_nat (ty_height (so_ty x)) * 4 /\
    v_base (sys_view sy m) = hb_addr h /\ (forall i, v_nn (sys_view sy m) i = load 4 (hb_bytes h) (4 * i)) /\
    winv (so_ty x) n (x_words m) (sys_view sy m) /\ zlen (hb_bytes h) = total_of (ty_fam (so_ty x)) (ty_height (so_ty x)) n.
Proof.
  intros HS Ex Em (x' & id & Ex' & El & Ei). rewrite Ex in Ex'. injection Ex' as <-.
  destruct (sim_own c sy ss o x HS Ex) as (m' & Em' & Rm). rewrite Em in Em'. injection Em' as <-.
  destruct Rm as (R1 & R2 & R3 & R4 & R5 & R6 & R7 & R8 & R9).
  destruct HS as ([_ HI] & _). destruct (HI _ _ _ Ei) as (h & Eh & Ah & (n & ws & Eb & Hw & Hz)).
  assert (Ws : ws = x_words m) by (apply words_inj; [apply Hw|exact R2|congruence]). subst ws.
  exists id, h, n. split; auto. split; auto. rewrite R5, El. split; [reflexivity|]. split; auto. split; auto.
  assert (Vm : v_mem (sys_view sy m) = hb_bytes h) by (unfold sys_view; cbn [v_mem]; rewrite R5, El; cbn [link_to]; rewrite Eh; reflexivity).
  assert (Vp : v_ptr (sys_view sy m) = Z.of_nat (ty_height (so_ty x)) * 4) by (unfold sys_view; cbn [v_ptr]; rewrite R5, El; reflexivity).
  assert (Vb : v_base (sys_view sy m) = hb_addr h) by (unfold sys_view; cbn [v_base]; rewrite R5, El; cbn [link_to]; rewrite Eh; reflexivity).
  assert (Vn : forall i, v_nn (sys_view sy m) i = load 4 (hb_bytes h) (4 * i)).
  { intros i. unfold sys_view. cbn [v_nn]. rewrite R4, El. cbn [link_to]. rewrite Eh, Z.add_0_l. reflexivity. }
  repeat (split; [assumption|]). split; auto. apply (winv_view _ _ _ _ _ Hw).
  split; [|split; [|split]]; [|exact Vp|exact Vm|intros k _; exact (Vn k)].
  pose proof Hw as (_ & _ & Lw & _). pose proof (winv_n _ _ _ _ Hw) as Hn. cbn [built_view v_size].
  assert (Wn : x_words m <> []).
  { intros E. rewrite E in Lw. unfold zlen in Lw. cbn in Lw. destruct (block_size_words (ty_block (so_ty x))) as [_ Ew].
    rewrite Ew in Lw. destruct (ty_block (so_ty x)); cbn [nwords] in Lw; lia. }
  specialize (R8 Wn). rewrite Lw in R8. change (v_size (sys_view sy m)) with (x_n m).
  destruct (block_size_words (ty_block (so_ty x))) as [_ Ew]. rewrite Ew in R8. destruct (ty_block (so_ty x)); cbn [nwords] in R8; lia.
Qed.

Lemma sim_stat c sy ss g : sim c sy ss -> gstat_ok g -> sim c (put_gstat sy g) ss.
Proof. intros (H1 & H2 & H3 & H4 & H5 & _) HG. split; [exact H1|]. auto 10. Qed.

Lemma call_ok c sy ss o p : sim c sy ss -> allowed c ss (ECall o p) ->
  exists r sy', sys_step c sy (ECall o p) = Ok (r, sy') /\ event_answer ss (ECall o p) r /\ sim c sy' (after ss (ECall o p)).
Proof.
  intros HS (x & Ex & Hv & Hn & Hsel). destruct (sim_own c sy ss o x HS Ex) as (m & Em & Rm).
  cbn [sys_step after event_answer]. unfold get_obj. rewrite Em, Ex. cbn [bind].
  pose proof Rm as (R1 & R2 & R3 & R4 & R5 & R6 & R7 & R8 & R9).
  pose proof HS as (HR & HL & HO & HU & HT & HG).
  pose proof (gstat_of (sy_stat sy) (ty_block (so_ty x)) HG) as HSt.
  destruct p as [i|i|i|k| |]; cbn [sys_call needs_index valid_op] in *; rewrite ?R1.
  - destruct (synced c sy ss o x m HS Ex Em (Hn eq_refl)) as (id & h & n & El & Eh & Ep & Ah & Ei & Vm & Vp & Vb & Vn & Hw & Hz).
    rewrite <- R3 in Hv.
    destruct (bm_flip_ok c (so_ty x) n (x_words m) (sys_view sy m) i Hw Hv) as (m' & E & F & V).
    { unfold align_ok. rewrite Vb, Vp. exact Ah. }
    rewrite E. cbn [bind]. rewrite Ep. unfold write_blk. rewrite Eh. cbn [bind]. rewrite Vm, Vp in F.
    eexists _, _. split; [reflexivity|]. split; [exists x; split; auto; exact I|].
    rewrite El.
    set (sy1 := put_heap sy _). set (ss1 := set_index ss id _).
    assert (Hlen : zlen m' = zlen (hb_bytes h)) by apply F.
    assert (Zi : 0 <= i < 64 * zlen (x_words m)) by (rewrite <- zlen_bits; auto).
    assert (HR1 : heap_rel c sy1 ss1).
    { destruct HR as [HRl HRi]. split.
      - cbn. rewrite !length_upd_nat. auto.
      - intros id' ty' B' E'. unfold index_at, ss1, set_index in E'. cbn [ss_index] in E'. unfold blk_at, sy1, put_heap. cbn [sy_heap].
        destruct (Nat.eq_dec id id') as [<-|N].
        + erewrite nth_upd_same in E' by exact Ei. injection E' as <- <-. erewrite nth_upd_same by exact Eh.
          eexists. split; [reflexivity|]. cbn [hb_addr hb_bytes]. split; auto.
          exists n, (flipped (x_words m) i). split; [rewrite bits_flipped by auto; congruence|]. split; [|congruence].
          apply V. cbn [built_view v_size v_ptr v_mem v_nn]. split; [|split; [|split]]; auto.
          * destruct Hw as (_ & _ & _ & A & (T & _) & _). auto.
          * intros k Hk. rewrite Vn. cbn [built_view v_nn]. pose proof (proj1 F).
            destruct (header_room (ty_fam (so_ty x)) (ty_height (so_ty x)) n) as [R|R].
            { apply (winv_n _ _ _ _ Hw). }
            { rewrite !load_ok by lia. f_equal. eapply frame_rd; [exact F|lia|lia]. }
            { pose proof Hw as (_ & _ & _ & A & T & _). pose proof (tinv_height _ _ _ _ _ _ T). lia. }
        + rewrite nth_upd_other in E' by auto. rewrite nth_upd_other by auto. apply (HRi id' ty' B' E'). }
    assert (HF : forall id' h', blk_at sy id' = Some h' -> exists h2, blk_at sy1 id' = Some h2 /\ zlen (hb_bytes h2) = zlen (hb_bytes h') /\ hb_addr h2 = hb_addr h').
    { intros id' h' E'. unfold blk_at, sy1, put_heap. cbn [sy_heap]. destruct (Nat.eq_dec id id') as [<-|N].
      - erewrite nth_upd_same by exact Eh. rewrite Eh in E'. injection E' as <-. eexists. split; [reflexivity|]. cbn. auto.
      - rewrite nth_upd_other by auto. exists h'. auto. }
    assert (G : forall p y, nth p (upd_nat (ss_objs ss) o (Some {| so_ty := so_ty x; so_bits := flip_bit (so_bits x) i; so_link := so_link x; so_own := so_own x; so_len := so_len x; so_cap := so_cap x |})) None = Some y ->
      exists y', sobj_at ss p = Some y' /\ so_own y' = so_own y /\ so_ty y' = so_ty y).
    { intros p y Ey. destruct (Nat.eq_dec o p) as [<-|N].
      - erewrite nth_upd_same in Ey by eassumption. injection Ey as <-. exists x. auto.
      - rewrite nth_upd_other in Ey by auto. exists y. auto. }
    rewrite El in G.
    split; [exact HR1|]. split; [|split; [|split; [|split]]].
    + cbn. rewrite !length_upd_nat. auto.
    + intros q. unfold obj_at, sobj_at, put_obj, set_obj. cbn [sy_objs ss_objs sy1 ss1 put_heap set_index].
      destruct (Nat.eq_dec o q) as [<-|N].
      * erewrite !nth_upd_same by eassumption. cbn [slot_rel]. unfold obj_rel.
        cbn [x_ty x_words x_n x_nn x_ptr x_data x_cap so_ty so_bits so_link so_own so_len so_cap].
        split; [auto|]. split; [apply words_flipped; auto; apply R2|]. split; [rewrite bits_flipped by auto; congruence|].
        rewrite R4, El. split; [reflexivity|]. split; [reflexivity|]. split; auto. split; auto.
        split.
        -- intros _. rewrite <- R8. { unfold flipped. rewrite zlen_upd. reflexivity. }
           intros E0. rewrite E0 in Zi. unfold zlen in Zi. cbn in Zi. lia.
        -- unfold own_ok in *. destruct (so_own x) as [w|]; auto. destruct R9 as (h' & E' & L' & A').
           destruct (HF w h' E') as (h2 & E2 & L2 & A2). exists h2. rewrite L2, A2. auto.
      * rewrite !nth_upd_other by auto. fold (obj_at sy q). fold (sobj_at ss q). specialize (HO q).
        unfold slot_rel in *. destruct (obj_at sy q) as [y|], (sobj_at ss q) as [z|] eqn:Eq; auto.
        apply (obj_frame c sy); [exact HO|]. intros w h' _ E'. exact (HF w h' E').
    + intros o1 o2 x1 x2 w E1 E2 W1 W2. unfold sobj_at, set_obj in E1, E2. cbn [ss_objs ss1 set_index] in E1, E2.
      destruct (G o1 x1 E1) as (y1 & F1 & G1 & _), (G o2 x2 E2) as (y2 & F2' & G2 & _). apply (HU o1 o2 y1 y2 w); auto; congruence.
    + intros p y w ty' B' Ey Wy Ew. unfold sobj_at, set_obj in Ey. cbn [ss_objs ss1 set_index] in Ey.
      destruct (G p y Ey) as (y' & F1 & G1 & G2). rewrite <- G2. rewrite <- G1 in Wy.
      unfold index_at, set_obj, ss1, set_index in Ew. cbn [ss_index] in Ew. destruct (Nat.eq_dec id w) as [<-|N].
      * erewrite nth_upd_same in Ew by exact Ei. injection Ew as <- <-. apply (HT p y' id (so_ty x) (so_bits x)); auto.
      * rewrite nth_upd_other in Ew by auto. apply (HT p y' w ty' B'); auto.
    + exact HG.
  - rewrite bm_access_ok by (rewrite R3; auto). cbn [bind]. eexists _, sy. split; [reflexivity|]. split; [|exact HS].
    exists x. split; auto. cbn [answer_ok]. rewrite R3. reflexivity.
  - destruct (synced c sy ss o x m HS Ex Em (Hn eq_refl)) as (id & h & n & El & Eh & Ep & Ah & Ei & Vm & Vp & Vb & Vn & Hw & Hz).
    destruct (bm_rank_ok c (so_ty x) (statics_of (sy_stat sy) (ty_block (so_ty x))) n (x_words m) (sys_view sy m) i Hw HSt) as (s' & E & Hs').
    { rewrite R3; auto. }
    rewrite E. cbn [bind]. eexists _, _. split; [reflexivity|]. split; [|apply sim_stat; auto; apply gstat_put; auto].
    exists x. split; auto. cbn [answer_ok]. rewrite R3. reflexivity.
  - destruct (synced c sy ss o x m HS Ex Em (Hn eq_refl)) as (id & h & n & El & Eh & Ep & Ah & Ei & Vm & Vp & Vb & Vn & Hw & Hz).
    destruct (bm_select_ok c (so_ty x) (statics_of (sy_stat sy) (ty_block (so_ty x))) n (x_words m) (sys_view sy m) k Hw HSt) as (q & s' & E & Hq & Hs').
    { rewrite R3; auto. }
    { rewrite R3; auto. }
    rewrite E. cbn [bind]. eexists _, _. split; [reflexivity|]. split; [|apply sim_stat; auto; apply gstat_put; auto].
    exists x. split; auto. cbn [answer_ok]. rewrite <- R3. exact Hq.
  - eexists _, sy. split; [reflexivity|]. split; [|exact HS]. exists x. split; auto. cbn [answer_ok]. rewrite bm_size_ok, R3. reflexivity.
  - eexists _, sy. split; [reflexivity|]. split; [|exact HS]. exists x. split; auto. cbn [answer_ok]. auto.
Qed.

(** ** What build leaves in an object *)
Lemma bits_firstn ws : forall k, bits_of_words (firstn k ws) = firstn (64 * k) (bits_of_words ws).
Proof.
  induction ws as [|w ws IH]; intros [|k]; try reflexivity.
  cbn [firstn]. change (bits_of_words (w :: firstn k ws)) with (bits_of_word w ++ bits_of_words (firstn k ws)).
    change (bits_of_words (w :: ws)) with (bits_of_word w ++ bits_of_words ws).
    rewrite IH. pose proof (zlen_bits_of_word w) as L. unfold zlen in L.
    rewrite firstn_app. rewrite (firstn_all2 (n := 64 * S k)) by lia. f_equal. f_equal. lia.
Qed.

Lemma bits_skipn ws : forall k, bits_of_words (skipn k ws) = skipn (64 * k) (bits_of_words ws).
Proof.
  induction ws as [|w ws IH]; intros [|k]; try reflexivity.
  cbn [skipn].
    change (bits_of_words (w :: ws)) with (bits_of_word w ++ bits_of_words ws).
    rewrite IH. pose proof (zlen_bits_of_word w) as L. unfold zlen in L.
    rewrite skipn_app. rewrite (skipn_all2 (n := 64 * S k)) by lia. cbn [app]. f_equal. lia.
Qed.

Lemma firstn_repeat {A} (x : A) k : forall m, firstn k (repeat x m) = repeat x (Nat.min k m).
Proof. induction k as [|k IH]; intros [|m]; cbn; auto. rewrite IH. reflexivity. Qed.

Lemma built_rebuilt bt input oldw :
  bits_of_words (built_words bt input oldw) = rebuilt (block_size bt) (bits_of_words input) (bits_of_words oldw).
Proof.
  unfold built_words, rebuilt, resize. rewrite zlen_bits, pad_amount by apply zlen_nonneg.
  set (T := words_in_block bt * cdiv (zlen input) (words_in_block bt)).
  assert (HT : zlen input <= T) by (unfold T, cdiv; pose proof (zlen_nonneg input); destruct bt; cbv [words_in_block block_size]; lia).
  clearbody T. pose proof (zlen_bits input) as LI. pose proof (zlen_bits oldw) as LO. unfold zlen in *.
  replace (Z.to_nat (64 * Z.of_nat (length input) + 64 * (T - Z.of_nat (length input)))) with (64 * Z.to_nat T)%nat by lia.
  rewrite bits_of_words_app, bits_skipn, bits_of_words_app, bits_firstn, bits_of_zeros.
  rewrite firstn_app. rewrite (firstn_all2 (n := 64 * Z.to_nat T) (bits_of_words input)) by lia. f_equal.
  rewrite skipn_app, firstn_app, skipn_firstn_comm, skipn_repeat, firstn_repeat.
  f_equal; [f_equal; [lia|f_equal; lia]|f_equal]. rewrite skipn_length, firstn_length. lia.
Qed.

Lemma build_ok c sy ss o input a : sim c sy ss -> allowed c ss (EBuild o input a) ->
  exists r sy', sys_step c sy (EBuild o input a) = Ok (r, sy') /\ event_answer ss (EBuild o input a) r /\ sim c sy' (after ss (EBuild o input a)).
Proof.
  intros HS (x & Ex & Hb & Ha & Hd). destruct (sim_own c sy ss o x HS Ex) as (m & Em & Rm).
  cbn [sys_step after event_answer]. unfold get_obj. rewrite Em, Ex. cbn [bind].
  pose proof Rm as (R1 & R2 & R3 & R4 & R5 & R6 & R7 & R8 & R9).
  pose proof HS as (HR & HL & HO & HU & HT & HG).
  assert (Eo : exists old, data_of sy (x_data m) = Ok old).
  { rewrite R6. unfold data_of. destruct (so_own x) as [w|]; [|eauto]. destruct R9 as (h & Eh & _). rewrite Eh. eauto. }
  destruct Eo as (old & Eo). rewrite Eo. cbn [bind]. rewrite R1.
  set (ty := so_ty x) in *. pose proof (blocks_bound ty input Hb) as Hn.
  set (n := cdiv (zlen input) (words_in_block (ty_block ty))) in *.
  pose proof Hb as (B1 & B2 & B3 & B4 & B5).
  destruct (bm_build_ok c ty input (x_words m) old 0) as (m' & E & Hw & Hz); auto.
  { rewrite built_rebuilt, R3. intros D. exact (Hd D). }
  fold n in E, Hw, Hz. rewrite E. cbn [bind]. rewrite R6, R7.
  assert (Zt : zlen m' = bytes_needed ty (zlen input)).
  { rewrite Hz. unfold bytes_needed, blocks_of. fold n. apply total_index_bytes; auto. }
  assert (Hp : 0 < zlen m') by (rewrite Zt; unfold bytes_needed, blocks_of; fold n; apply index_bytes_bound; auto).
  assert (HB : bits_of_words (built_words (ty_block ty) input (x_words m)) = rebuilt (block_size (ty_block ty)) (bits_of_words input) (so_bits x)) by (rewrite built_rebuilt, R3; reflexivity).
  destruct (store_ok c sy ss ty (so_own x) (so_cap x) m' a (Some (ty, rebuilt (block_size (ty_block ty)) (bits_of_words input) (so_bits x))) (so_len x) HR R9 Ha)
    as (sy1 & ss1 & own' & cap' & Ed & Es & HR1 & O1 & O2 & St1 & F1 & W1 & Wn & I1 & I2).
  { intros ty' B' [= <- <-]. split; auto. exists n, (built_words (ty_block ty) input (x_words m)). auto. }
  { intros En. rewrite En in R9. cbn in R9. lia. }
  rewrite Ed. cbn [bind]. rewrite <- Zt, Es. eexists _, _. split; [reflexivity|]. split; [reflexivity|].
  apply (sim_put c sy ss sy1 ss1 o x); auto.
  - rewrite St1. exact HG.
  - unfold obj_rel. cbn [x_ty x_words x_n x_nn x_ptr x_data x_cap so_ty so_bits so_link so_own so_len so_cap].
    split; auto. split; [apply Hw|]. split; [exact HB|]. split; [destruct own'; reflexivity|]. split; [destruct own'; reflexivity|].
    split; auto. split; auto. split; [|exact W1]. intros _. apply Hw.
  - cbn [so_own]. apply (own_fresh c sy ss o x); auto.
  - cbn [so_own so_ty]. intros id ty' B' Ew Ei. rewrite (I1 id Ew) in Ei. congruence.
Qed.

Lemma own_index_ok c sy ss o y m : sim c sy ss -> sobj_at ss o = Some y -> data_of sy (so_own y) = Ok m ->
  zlen m = so_len y /\ forall ty' B, own_index ss (so_own y) = Some (ty', B) -> index_bytes_ok ty' B m.
Proof.
  intros HS Ey Ed. destruct (sim_own c sy ss o y HS Ey) as (x & Ex & Rx).
  destruct Rx as (_ & _ & _ & _ & _ & _ & _ & _ & R9). destruct HS as ([_ HI] & _).
  unfold data_of, own_index, own_ok in *. destruct (so_own y) as [id|].
  - destruct R9 as (h & Eh & Lh & _). rewrite Eh in Ed. injection Ed as <-. split; auto.
    intros ty' B Ei. destruct (HI id ty' B Ei) as (h' & E' & _ & H'). congruence.
  - injection Ed as <-. split; [symmetry; apply R9|]. discriminate.
Qed.

(** The premise of [store_ok] about vectors without a buffer. *)
Lemma own_index_empty c sy ss o y m : sim c sy ss -> sobj_at ss o = Some y -> data_of sy (so_own y) = Ok m ->
  zlen m <= 0 -> own_index ss (so_own y) = None /\ m = [].
Proof.
  intros HS Ey Ed L. destruct (own_index_ok c sy ss o y m HS Ey Ed) as [Lm HI]. pose proof (zlen_nonneg m).
  assert (m = []) by (destruct m as [|a m]; auto; rewrite zlen_cons in *; pose proof (zlen_nonneg m); lia).
  split; auto. destruct (own_index ss (so_own y)) as [[ty B]|] eqn:E; auto.
  destruct (HI ty B eq_refl) as (n & ws & _ & Hw & Hz). pose proof (winv_n _ _ _ _ Hw) as Hn. destruct Hw as (_ & _ & _ & A & T & _).
  pose proof (tinv_height _ _ _ _ _ _ T) as H4. pose proof (header_room (ty_fam ty) (ty_height ty) n ltac:(lia)).
  assert (ty_height ty <> 0%nat) by (intros E0; rewrite E0 in T; destruct T as (_ & _ & _ & _ & _ & G & _ & _ & L0); destruct (ty_fam ty); exact L0). lia.
Qed.

Lemma own_data c sy ss o y : sim c sy ss -> sobj_at ss o = Some y -> exists m, data_of sy (so_own y) = Ok m.
Proof.
  intros HS Ey. destruct (sim_own c sy ss o y HS Ey) as (x & Ex & Rx).
  destruct Rx as (_ & _ & _ & _ & _ & _ & _ & _ & R9). unfold data_of, own_ok in *. destruct (so_own y) as [id|]; [|eauto].
  destruct R9 as (h & Eh & _). rewrite Eh. eauto.
Qed.

Lemma new_ok c sy ss ty : sim c sy ss ->
  exists r sy', sys_step c sy (ENew ty) = Ok (r, sy') /\ event_answer ss (ENew ty) r /\ sim c sy' (after ss (ENew ty)).
Proof.
  intros HS. pose proof HS as (HR & HL & HO & HU & HT & HG). cbn [sys_step after event_answer].
  eexists _, _. split; [reflexivity|]. split; [reflexivity|]. apply (sim_push c sy ss); auto; cbn [so_own]; try discriminate.
  unfold obj_rel. cbn [x_ty x_words x_n x_nn x_ptr x_data x_cap so_ty so_bits so_link so_own so_len so_cap].
  split; auto. split; [constructor|]. split; [reflexivity|]. split; [reflexivity|]. split; [reflexivity|]. split; auto. split; auto.
  split; [congruence|]. cbn. auto.
Qed.

Lemma copy_ok c sy ss o a : sim c sy ss -> allowed c ss (ECopy o a) ->
  exists r sy', sys_step c sy (ECopy o a) = Ok (r, sy') /\ event_answer ss (ECopy o a) r /\ sim c sy' (after ss (ECopy o a)).
Proof.
  intros HS (x & Ex & Ha). destruct (sim_own c sy ss o x HS Ex) as (m & Em & Rm).
  cbn [sys_step after event_answer]. unfold get_obj. rewrite Em, Ex. cbn [bind].
  pose proof Rm as (R1 & R2 & R3 & R4 & R5 & R6 & R7 & R8 & R9).
  pose proof HS as (HR & HL & HO & HU & HT & HG). rewrite R6.
  destruct (own_data c sy ss o x HS Ex) as (b & Eb). rewrite Eb. cbn [bind].
  destruct (own_index_ok c sy ss o x b HS Ex Eb) as [Lb Hb].
  destruct (store_ok c sy ss (so_ty x) None 0 b a (own_index ss (so_own x)) 0 HR)
    as (sy1 & ss1 & own' & cap' & Ed & Es & HR1 & O1 & O2 & St1 & F1 & W1 & Wn & I1 & I2); auto.
  { cbn. auto. }
  { intros ty' B Ei. split; auto. unfold own_index in Ei. destruct (so_own x) as [w|] eqn:Ew; [|discriminate]. apply (HT o x w ty' B); auto. }
  { intros _ L. apply (own_index_empty c sy ss o x b); auto. }
  rewrite Ed. cbn [bind]. rewrite <- Lb, Es. eexists _, _. split; [reflexivity|]. split; [reflexivity|].
  apply (sim_push c sy ss sy1 ss1); auto.
  - rewrite St1. exact HG.
  - intros id h. apply F1. discriminate.
  - unfold obj_rel. cbn [x_ty x_words x_n x_nn x_ptr x_data x_cap so_ty so_bits so_link so_own so_len so_cap]. auto 10.
  - cbn [so_own]. intros id p q Eo Ep Eq. destruct Wn as [W|W]; rewrite Eo in W; [discriminate|]. injection W as ->.
    destruct (sim_own c sy ss p q HS Ep) as (mq & _ & Rq). destruct Rq as (_ & _ & _ & _ & _ & _ & _ & _ & Hq). rewrite Eq in Hq.
    destruct Hq as (h & Eh & _). apply nth_some_lt in Eh. lia.
  - cbn [so_own]. intros id N. apply I2; auto. discriminate.
  - cbn [so_own so_ty]. intros id ty' B Eo Ei. rewrite (I1 id Eo) in Ei. unfold own_index in Ei.
    destruct (so_own x) as [w|] eqn:Ew; [|discriminate]. apply (HT o x w ty' B); auto.
Qed.

Lemma emptied_rel c sy m x : obj_rel c sy m x -> obj_rel c sy (moved_from m) (emptied x).
Proof.
  intros (R1 & R2 & R3 & R4 & R5 & R6 & R7 & R8 & R9). unfold obj_rel, moved_from, emptied.
  cbn [x_ty x_words x_n x_nn x_ptr x_data x_cap so_ty so_bits so_link so_own so_len so_cap].
  split; auto. split; [constructor|]. split; [reflexivity|]. split; auto. split; auto. split; auto. split; auto.
  split; [congruence|]. cbn. auto.
Qed.

Lemma move_ok c sy ss o : sim c sy ss -> allowed c ss (EMove o) ->
  exists r sy', sys_step c sy (EMove o) = Ok (r, sy') /\ event_answer ss (EMove o) r /\ sim c sy' (after ss (EMove o)).
Proof.
  intros HS Hx. cbn [allowed] in Hx. destruct (sobj_at ss o) as [x|] eqn:Ex; [|congruence].
  destruct (sim_own c sy ss o x HS Ex) as (m & Em & Rm).
  cbn [sys_step after event_answer]. unfold get_obj. rewrite Em, Ex. cbn [bind].
  pose proof HS as (HR & HL & HO & HU & HT & HG).
  eexists _, _. split; [reflexivity|]. split; [reflexivity|].
  assert (H1 : sim c (put_obj sy o (Some (moved_from m))) (set_obj ss o (Some (emptied x)))).
  { apply (sim_put c sy ss sy ss o x); auto; try (cbn [emptied so_own]; discriminate). apply emptied_rel. exact Rm. }
  apply (sim_push c _ _ _ _ _ _ H1); auto; try reflexivity.
  - intros id p q Ew Ep Eq. unfold sobj_at, set_obj in Ep. cbn [ss_objs] in Ep. destruct (Nat.eq_dec o p) as [<-|N].
    + erewrite nth_upd_same in Ep by exact Ex. injection Ep as <-. discriminate.
    + rewrite nth_upd_other in Ep by auto. apply N. apply (HU o p x q id); auto.
  - intros id ty B Ew Ei. apply (HT o x id ty B); auto.
Qed.

Lemma assign_ok c sy ss d e a : sim c sy ss -> allowed c ss (EAssign d e a) ->
  exists r sy', sys_step c sy (EAssign d e a) = Ok (r, sy') /\ event_answer ss (EAssign d e a) r /\ sim c sy' (after ss (EAssign d e a)).
Proof.
  intros HS ((x & y & Ex & Ey & Et) & Ha). specialize (Ha x Ex).
  destruct (sim_own c sy ss d x HS Ex) as (mx & Emx & Rx), (sim_own c sy ss e y HS Ey) as (my & Emy & Ry).
  cbn [sys_step after event_answer]. unfold get_obj. rewrite Emx, Emy, Ex, Ey. cbn [bind].
  destruct (Nat.eqb_spec d e) as [<-|N]; [exists ONone, sy; auto|].
  destruct Rx as (X1 & X2 & X3 & X4 & X5 & X6 & X7 & X8 & X9).
  pose proof Ry as (R1 & R2 & R3 & R4 & R5 & R6 & R7 & R8 & R9).
  pose proof HS as (HR & HL & HO & HU & HT & HG). rewrite X6, X7, R6.
  destruct (own_data c sy ss e y HS Ey) as (b & Eb). rewrite Eb. cbn [bind].
  destruct (own_index_ok c sy ss e y b HS Ey Eb) as [Lb Hb].
  assert (Ht : forall ty' B, own_index ss (so_own y) = Some (ty', B) -> ty' = so_ty x).
  { intros ty' B Ei. unfold own_index in Ei. destruct (so_own y) as [w|] eqn:Ew; [|discriminate]. rewrite Et. apply (HT e y w ty' B); auto. }
  destruct (store_ok c sy ss (so_ty x) (so_own x) (so_cap x) b a (own_index ss (so_own y)) (so_len x) HR)
    as (sy1 & ss1 & own' & cap' & Ed & Es & HR1 & O1 & O2 & St1 & F1 & W1 & Wn & I1 & I2); auto.
  { intros ty' B Ei. split; eauto. }
  { intros En L. rewrite En in X9. cbn in X9. apply (own_index_empty c sy ss e y b); auto. lia. }
  rewrite Ed. cbn [bind]. rewrite <- Lb, Es. eexists _, _. split; [reflexivity|]. split; [reflexivity|].
  apply (sim_put c sy ss sy1 ss1 d x); auto.
  - rewrite St1. exact HG.
  - unfold obj_rel. cbn [x_ty x_words x_n x_nn x_ptr x_data x_cap so_ty so_bits so_link so_own so_len so_cap]. rewrite Et in W1. auto 10.
  - cbn [so_own]. apply (own_fresh c sy ss d x); auto.
  - cbn [so_own so_ty]. intros id ty' B Eo Ei. rewrite (I1 id Eo) in Ei. rewrite <- Et. eauto.
Qed.

Lemma upd_twice {A} (l : list A) u v : forall i, upd_nat (upd_nat l i u) i v = upd_nat l i v.
Proof. induction l as [|a l IH]; intros [|i]; cbn; auto. rewrite IH. reflexivity. Qed.
Lemma upd_swap {A} (l : list A) u v : forall i j, i <> j -> upd_nat (upd_nat l i u) j v = upd_nat (upd_nat l j v) i u.
Proof. induction l as [|a l IH]; intros [|i] [|j] N; cbn; auto; try congruence. rewrite IH by congruence. reflexivity. Qed.

Lemma upd_reset {A} (l : list A) u v w d e : d <> e -> upd_nat (upd_nat (upd_nat l d u) e v) d w = upd_nat (upd_nat l d w) e v.
Proof. intros N. rewrite (upd_swap (upd_nat l d u)) by auto. rewrite upd_twice. reflexivity. Qed.

Lemma index_released ss own id : own <> Some id -> index_at (release_own ss own) id = index_at ss id.
Proof. intros N. destruct own as [w|]; [|reflexivity]. unfold index_at, release_own, set_index. cbn [ss_index]. apply nth_upd_other. congruence. Qed.
Lemma objs_released ss own : ss_objs (release_own ss own) = ss_objs ss.
Proof. destruct own; reflexivity. Qed.

Lemma own_live c sy ss o x : sim c sy ss -> sobj_at ss o = Some x -> forall id, so_own x = Some id -> exists h, blk_at sy id = Some h.
Proof.
  intros HS Ex id Ew. destruct (sim_own c sy ss o x HS Ex) as (m & Em & Rm).
  destruct Rm as (_ & _ & _ & _ & _ & _ & _ & _ & H9). rewrite Ew in H9. destruct H9 as (h & Eh & _). eauto.
Qed.

Lemma move_assign_ok c sy ss d e : sim c sy ss -> allowed c ss (EMoveAssign d e) ->
  exists r sy', sys_step c sy (EMoveAssign d e) = Ok (r, sy') /\ event_answer ss (EMoveAssign d e) r /\ sim c sy' (after ss (EMoveAssign d e)).
Proof.
  intros HS ((x & y & Ex & Ey & Et) & N).
  destruct (sim_own c sy ss d x HS Ex) as (mx & Emx & Rx), (sim_own c sy ss e y HS Ey) as (my & Emy & Ry).
  cbn [sys_step after event_answer]. unfold get_obj. rewrite Emx, Emy, Ex, Ey. cbn [bind].
  pose proof HS as (HR & HL & HO & HU & HT & HG).
  assert (Xd : x_data mx = so_own x) by apply Rx. rewrite Xd.
  destruct (free_ok c sy ss (so_own x) HR (own_live c sy ss d x HS Ex)) as (sy1 & Ef & HR1 & O1 & S1 & L1 & F1).
  rewrite Ef. cbn [bind]. eexists _, _. split; [reflexivity|]. split; [reflexivity|].
  set (ss1 := release_own ss (so_own x)) in *.
  assert (H1 : sim c (put_obj sy1 d (Some (moved_from mx))) (set_obj ss1 d (Some (emptied x)))).
  { apply (sim_put c sy ss sy1 ss1 d x); auto; try (cbn [emptied so_own]; discriminate).
    - apply objs_released.
    - rewrite S1. exact HG.
    - intros id h Nw Eh. rewrite F1; auto.
    - destruct (emptied_rel c sy mx x Rx) as (E1 & E2 & E3 & E4 & E5 & E6 & E7 & E8 & E9). unfold obj_rel. auto 12.
    - intros id Nw _. apply index_released; auto. }
  assert (Ey1 : sobj_at (set_obj ss1 d (Some (emptied x))) e = Some y).
  { unfold sobj_at, set_obj. cbn [ss_objs]. rewrite nth_upd_other by auto. unfold ss1. rewrite objs_released. exact Ey. }
  assert (Ny : so_own x <> so_own y \/ so_own y = None).
  { destruct (so_own y) as [w|] eqn:Ew; auto. left. intros Eq. apply N. apply (HU d e x y w); auto. }
  assert (Ry1 : obj_rel c sy1 my y).
  { apply (obj_frame c sy sy1 my y Ry). intros id h Ew Eh. exists h. rewrite F1; auto. destruct Ny as [Ny|Ny]; congruence. }
  assert (H2 : sim c (put_obj (put_obj sy1 d (Some (moved_from mx))) e (Some (moved_from my))) (set_obj (set_obj ss1 d (Some (emptied x))) e (Some (emptied y)))).
  { apply (sim_put c (put_obj sy1 d (Some (moved_from mx))) (set_obj ss1 d (Some (emptied x))) _ _ e y); auto; try (cbn [emptied so_own]; discriminate).
    - cbn. rewrite S1. exact HG.
    - apply (emptied_rel c _ my y). exact Ry1. }
  assert (H3 : sim c (put_obj (put_obj (put_obj sy1 d (Some (moved_from mx))) e (Some (moved_from my))) d (Some my))
                     (set_obj (set_obj (set_obj ss1 d (Some (emptied x))) e (Some (emptied y))) d (Some y))).
  { apply (sim_put c _ _ _ _ d (emptied x) my y H2); auto.
    - apply H2.
    - unfold sobj_at, set_obj. cbn [ss_objs]. rewrite nth_upd_other by auto. eapply nth_upd_same. unfold ss1. rewrite objs_released. exact Ex.
    - intros id p q Np Ep Eq Ew. unfold sobj_at, set_obj in Ep. cbn [ss_objs] in Ep. destruct (Nat.eq_dec e p) as [<-|Ne].
      + erewrite nth_upd_same in Ep by exact Ey1. injection Ep as <-. discriminate.
      + rewrite !nth_upd_other in Ep by auto. unfold ss1 in Ep. rewrite objs_released in Ep. apply Ne. apply (HU e p y q id); auto.
    - intros id ty B Ew Ei. change (index_at ss1 id = Some (ty, B)) in Ei. unfold ss1 in Ei. rewrite index_released in Ei.
      + apply (HT e y id ty B); auto.
      + destruct Ny; congruence. }
  unfold put_obj, set_obj in H3 |- *. cbn [sy_objs sy_heap sy_stat ss_objs ss_index] in *.
  rewrite !upd_reset in H3 by auto. exact H3.
Qed.

Lemma destroy_ok c sy ss o : sim c sy ss -> allowed c ss (EDestroy o) ->
  exists r sy', sys_step c sy (EDestroy o) = Ok (r, sy') /\ event_answer ss (EDestroy o) r /\ sim c sy' (after ss (EDestroy o)).
Proof.
  intros HS Hx. cbn [allowed] in Hx. destruct (sobj_at ss o) as [x|] eqn:Ex; [|congruence].
  destruct (sim_own c sy ss o x HS Ex) as (m & Em & Rm).
  cbn [sys_step after event_answer]. unfold get_obj. rewrite Em, Ex. cbn [bind].
  pose proof HS as (HR & HL & HO & HU & HT & HG).
  assert (Xd : x_data m = so_own x) by apply Rm. rewrite Xd.
  destruct (free_ok c sy ss (so_own x) HR (own_live c sy ss o x HS Ex)) as (sy1 & Ef & HR1 & O1 & S1 & L1 & F1).
  rewrite Ef. cbn [bind]. eexists _, _. split; [reflexivity|]. split; [reflexivity|].
  set (ss1 := release_own ss (so_own x)) in *. assert (O2 : ss_objs ss1 = ss_objs ss) by apply objs_released.
  assert (G : forall p y, sobj_at (set_obj ss1 o None) p = Some y -> o <> p /\ sobj_at ss p = Some y).
  { intros p y Ep. unfold sobj_at, set_obj in Ep. cbn [ss_objs] in Ep. rewrite O2 in Ep. destruct (nth_upd_none _ _ _ _ _ Ep) as [Ne|Ne]; [|discriminate].
    rewrite nth_upd_other in Ep by auto. auto. }
  split; [exact HR1|]. split; [|split; [|split; [|split]]].
  - cbn. rewrite !length_upd_nat, O1, O2. exact HL.
  - intros p. destruct (Nat.eq_dec o p) as [<-|Np].
    + unfold obj_at, sobj_at, put_obj, set_obj. cbn [sy_objs ss_objs]. rewrite O1, O2. erewrite !nth_upd_same by eassumption. exact I.
    + unfold obj_at, sobj_at, put_obj, set_obj. cbn [sy_objs ss_objs]. rewrite O1, O2, !nth_upd_other by auto.
      specialize (HO p). unfold obj_at, sobj_at in HO. unfold slot_rel in *. destruct (nth p (sy_objs sy) None) as [mq|], (nth p (ss_objs ss) None) as [q|] eqn:Eq; auto.
      apply (obj_frame c sy _ mq q HO). intros id h Ew Eh. exists h. split; auto. change (blk_at sy1 id = Some h). rewrite F1; auto.
      intros Ex'. apply Np. apply (HU o p x q id); auto.
  - intros o1 o2 x1 x2 id E1 E2 W1 W2. apply G in E1, E2. apply (HU o1 o2 x1 x2 id); tauto.
  - intros p y id ty B Ep Ew Ei. apply G in Ep. destruct Ep as [Np Ep]. change (index_at ss1 id = Some (ty, B)) in Ei. unfold ss1 in Ei.
    rewrite index_released in Ei; [apply (HT p y id ty B); auto|]. intros Ex'. apply Np. apply (HU o p x y id); auto.
  - cbn. rewrite S1. exact HG.
Qed.

(** ** Whole programs *)
Theorem step_sim c sy ss e : sim c sy ss -> allowed c ss e ->
  exists r sy', sys_step c sy e = Ok (r, sy') /\ event_answer ss e r /\ sim c sy' (after ss e).
Proof.
  intros HS HA. destruct e; [apply new_ok|apply build_ok|apply call_ok|apply copy_ok|apply move_ok|apply assign_ok|apply move_assign_ok|apply destroy_ok]; auto.
Qed.

Theorem run_sim c : forall es sy ss, sim c sy ss -> allowed_all c ss es ->
  exists outs sy', sys_run c sy es = Ok (outs, sy') /\ events_ok ss es outs /\ sim c sy' (after_all ss es).
Proof.
  induction es as [|e es IH]; intros sy ss HS HA; cbn [sys_run events_ok after_all allowed_all] in *.
  - exists [], sy. auto.
  - destruct HA as [H1 H2]. destruct (step_sim c sy ss e HS H1) as (r & sy1 & E1 & A1 & S1).
    destruct (IH sy1 (after ss e) S1 H2) as (l & sy2 & E2 & A2 & S2). rewrite E1. cbn [bind]. rewrite E2. cbn [bind].
    exists (r :: l), sy2. auto.
Qed.

Lemma sim_init c : sim c sys_init ss_init.
Proof.
  split; [split; [reflexivity|]|split; [reflexivity|split; [|split; [|split]]]].
  - intros [|id] ty B E; discriminate.
  - intros [|o]; exact I.
  - intros [|o1] o2 x1 x2 id E; discriminate.
  - intros [|o] x id ty B E; discriminate.
  - split; intros n m; cbn; apply stat_init_ok.
Qed.

Theorem process_ok c es : allowed_all c ss_init es -> exists outs, process c es = Ok outs /\ events_ok ss_init es outs.
Proof.
  intros HA. destruct (run_sim c es sys_init ss_init (sim_init c) HA) as (outs & sy & E & A & _).
  exists outs. unfold process. rewrite E. auto.
Qed.
