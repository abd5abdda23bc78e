(** Facts for C127: how wrong an answer can be. *)
From Coq Require Import ZifyBool.
From Verif Require Import Base BaseFacts Spec SpecText BitmapFacts Words MrRank MrRankFacts MrRankProps MrRace MrRaceFacts MrRaceFacts2.

Lemma count_true_len l : 0 <= count_true l <= zlen l.
Proof. rewrite count_true_all. pose proof (ones_before_bound l (zlen l)). pose proof (zlen_nonneg l). lia. Qed.

Lemma ones_gap B i j : 0 <= i <= j -> 0 <= ones_before B j - ones_before B i <= j - i.
Proof.
  intros H. unfold ones_before. replace (Z.to_nat j) with (Z.to_nat i + Z.to_nat (j - i))%nat by lia.
  rewrite <- (firstn_skipn (Z.to_nat i) B) at 1 3. assert (G : forall n (l : list bool) k, firstn (n + k) l = firstn n l ++ firstn k (skipn n l)).
  { induction n as [|n IH]; intros [|x l] k; cbn; try reflexivity; [now rewrite firstn_nil|]. now rewrite IH. }
  rewrite firstn_skipn, G, count_true_app. pose proof (count_true_len (firstn (Z.to_nat (j - i)) (skipn (Z.to_nat i) B))) as C. unfold zlen in C. rewrite firstn_length in C. lia.
Qed.

Lemma sumn_le f g n : forall lo, (forall i, lo <= i < lo + Z.of_nat n -> f i <= g i) -> sumn f lo n <= sumn g lo n.
Proof. induction n as [|n IH]; intros lo H; cbn [sumn]; [lia|]. assert (f lo <= g lo) by (apply H; lia). assert (sumn f (lo + 1) n <= sumn g (lo + 1) n) by (apply IH; intros i Hi; apply H; lia). lia. Qed.

Lemma popcount_range w : 0 <= popcount w <= 64.
Proof. unfold popcount. pose proof (sumn_bound (fun j => b2z (Z.testbit w j)) 1 64 0 ltac:(intros i Hi; cbv beta; destruct (Z.testbit w i); cbn; lia)). lia. Qed.

Lemma masked_le w k m : 0 <= k < 64 -> geti masks k = Ok m -> 0 <= popcount (Z.land w m) <= k.
Proof.
  intros H E. split; [apply popcount_range|]. apply Z.le_trans with (popcount m).
  - apply sumn_le. intros i _. rewrite Z.land_spec. destruct (Z.testbit w i), (Z.testbit m i); cbn; lia.
  - assert (G : forallb (fun k => match geti masks k with Ok m => popcount m <=? k | _ => false end) (zrange 0 64) = true) by (vm_compute; reflexivity).
    rewrite forallb_forall in G. specialize (G k ltac:(apply in_zrange; lia)). rewrite E in G. lia.
Qed.

(** A call of rank([i0]) in the block before which there are [a] ones, wherever [pointer] is. *)
Definition q_near (a i0 : Z) (q : query) : Prop :=
  match q with
  | QStart i => i = i0
  | QRead rank i j => i = i0 mod 512 /\ 0 <= j <= i / 64 /\ exists c, 0 <= c <= 64 * j /\ u64 rank = a + c
  | QDone v => a <= v <= a + i0 mod 512
  end.

Lemma near_step t (f : Z -> Z) ptr i0 q ptr' q' : 0 <= i0 -> rank_std t i0 = Ok (f i0) -> rank_std t (512 * (i0 / 512)) = Ok (f (512 * (i0 / 512))) ->
  0 <= f i0 - f (512 * (i0 / 512)) <= i0 mod 512 -> 0 <= f (512 * (i0 / 512)) < 2 ^ 63 ->
  q_near (f (512 * (i0 / 512))) i0 q -> q_step t ptr q = Ok (ptr', q') -> q_near (f (512 * (i0 / 512))) i0 q'.
Proof.
  intros H0 R RB F FB K S. set (a := f (512 * (i0 / 512))) in *. pose proof (Z.mod_pos_bound i0 512 ltac:(lia)) as MB. destruct q as [i|rank i j|x]; cbn [q_near q_step] in *.
  - subst i. unfold rank_std in R, RB. replace (512 * (i0 / 512) / 512) with (i0 / 512) in RB by lia. replace ((512 * (i0 / 512)) mod 512) with 0 in RB by lia.
    destruct (geti (rb_ranks t) (2 * (i0 / 512))) as [rk| |]; cbn [bind] in *; try discriminate.
    destruct (geti (rb_ranks t) (2 * (i0 / 512) + 2)) as [nx| |]; cbn [bind] in *; try discriminate.
    destruct (Z.land (u64 (nx - rk)) 511 =? 0).
    + injection S as _ <-. injection R as R. cbn [q_near]. rewrite R. lia.
    + destruct (geti (rb_ranks t) (2 * (i0 / 512) + 1)) as [p| |]; cbn [bind] in *; try discriminate. injection S as _ <-. cbn [q_near]. split; [reflexivity|]. split; [lia|].
      exists 0. split; [lia|]. unfold count_block in RB. change (0 / 64) with 0 in RB. cbn [Z.to_nat zrange foldM bind] in RB. destruct (geti (rb_bits t) (p + 0)) as [w| |]; cbn [bind] in RB; try discriminate.
      destruct (geti masks (0 - 64 * 0)) as [m| |] eqn:EM; cbn [bind] in RB; try discriminate. pose proof (masked_le w 0 m ltac:(lia) EM) as PM. injection RB as RB.
      replace (popcount (Z.land w m)) with 0 in RB by lia. rewrite Z.add_0_r in RB. lia.
  - destruct K as (-> & Hj & c & Hc & E). destruct (geti (rb_bits t) (ptr + j)) as [w| |]; cbn [bind] in S; try discriminate. destruct (Z.ltb_spec j (i0 mod 512 / 64)).
    + injection S as _ <-. cbn [q_near]. split; [reflexivity|]. split; [lia|]. pose proof (popcount_range w). exists (c + popcount w). split; [lia|].
      rewrite wrap_wrap by lia. rewrite <- wrap_add_l, E. rewrite wrap_small by lia. lia.
    + destruct (geti masks (i0 mod 512 - 64 * (i0 mod 512 / 64))) as [m| |] eqn:EM; cbn [bind] in S; try discriminate. injection S as _ <-. cbn [q_near].
      pose proof (masked_le w (i0 mod 512 - 64 * (i0 mod 512 / 64)) m ltac:(lia) EM). rewrite <- wrap_add_l, E. rewrite wrap_small by lia. lia.
  - injection S as _ <-. exact K.
Qed.

Lemma near_run t (f : Z -> Z) qs : (forall i, In i qs -> 0 <= i /\ rank_std t i = Ok (f i) /\ rank_std t (512 * (i / 512)) = Ok (f (512 * (i / 512))) /\
    0 <= f i - f (512 * (i / 512)) <= i mod 512 /\ 0 <= f (512 * (i / 512)) < 2 ^ 63) ->
  forall ks st st', Forall2 (fun i q => q_near (f (512 * (i / 512))) i q) qs (snd st) -> q_run t st ks = Ok st' -> Forall2 (fun i q => q_near (f (512 * (i / 512))) i q) qs (snd st').
Proof.
  intros H. unfold q_run. induction ks as [|k ks IH]; intros st st' A E; cbn [foldM] in E; [injection E as <-; exact A|].
  destruct (q_turn t st k) as [st1| |] eqn:T; cbn [bind] in E; try discriminate. apply (IH st1 st'); [|exact E]. unfold q_turn in T.
  destruct (nth_error (snd st) k) as [q|] eqn:N; [|injection T as <-; exact A]. destruct (forall2_nth _ _ _ _ _ A N) as (i & NI & II & K). destruct (H i II) as (H0 & HR & HB & HF & HG).
  destruct (q_step t (fst st) q) as [(p' & q')| |] eqn:S; cbn [bind] in T; try discriminate. injection T as <-. cbn [snd].
  eapply forall2_upd; [exact A| |exact NI|]; [auto|]. exact (near_step t f (fst st) i q p' q' H0 HR HB HF HG K S).
Qed.

Lemma race_near m t : addresses_ok m -> text_ok t -> zlen t < 2 ^ 58 -> exists r, build_std m t = Ok r /\
  forall qs ptr0 ks ptr cs, (forall i, In i qs -> 0 <= i < 512 * text_blocks t) -> q_run r (ptr0, map QStart qs) ks = Ok (ptr, cs) ->
  forall k v, nth_error cs k = Some (QDone v) -> exists i, nth_error qs k = Some i /\ Z.abs (v - ones_before (text_bits t) i) <= i mod 512.
Proof.
  intros A T L. destruct (basic_rank m t A T L) as (r & E & R). exists r. split; [exact E|]. intros qs ptr0 ks ptr cs H Q k v N.
  assert (G : forall i, In i qs -> 0 <= ones_before (text_bits t) i - ones_before (text_bits t) (512 * (i / 512)) <= i mod 512).
  { intros i Hi. specialize (H i Hi). pose proof (ones_gap (text_bits t) (512 * (i / 512)) i ltac:(lia)). lia. }
  assert (F : Forall2 (fun i q => q_near (ones_before (text_bits t) (512 * (i / 512))) i q) qs (snd (ptr, cs))).
  { apply (near_run r (ones_before (text_bits t)) qs) with (ks := ks) (st := (ptr0, map QStart qs)); [| |exact Q].
    - intros i Hi. pose proof (H i Hi). split; [lia|]. split; [apply R; lia|]. split; [apply R; lia|]. split; [apply G; exact Hi|].
      unfold ones_before. pose proof (count_true_len (firstn (Z.to_nat (512 * (i / 512))) (text_bits t))) as C. pose proof (zlen_text_bits t) as ZT. unfold zlen in C, ZT, L. rewrite firstn_length in C. lia.
    - cbn [snd]. clear. induction qs as [|i q IH]; cbn; constructor; [reflexivity|exact IH]. }
  destruct (forall2_nth _ _ _ _ _ F N) as (i & NI & II & K). exists i. split; [exact NI|]. cbn [q_near] in K. specialize (G i II). lia.
Qed.
