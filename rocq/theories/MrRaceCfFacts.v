(** Facts for C128. *)
From Coq Require Import ZifyBool.
From Verif Require Import Base BaseFacts Spec SpecText Words MrRank MrRankProps MrRace MrRaceFacts MrRaceCf.

(** What is left of a call that has [ptr] for itself. *)
Definition read_rest (t : rank_cf) (ptr rank i j : Z) : res Z :=
  let* rank := foldM (fun r j => let* w := geti (cf_bits t) (ptr + j) in Ok (u64 (r + popcount w))) (zrange j (Z.to_nat (i / 64 - j))) rank in
  let* w := geti (cf_bits t) (ptr + i / 64) in
  let* m := geti masks (i - 64 * (i / 64)) in
  Ok (u64 (rank + popcount (Z.land w m))).
Definition diff_rest (t : rank_cf) (ptr rank i : Z) : res Z :=
  let* next := geti (cf_bits t) (ptr + 9) in
  let diff := u64 (next - rank) in
  if Z.land diff 511 =? 0 then Ok (u64 (rank + u64 (i * Z.shiftr diff 9))) else count_block (cf_bits t) (ptr + 1) i rank.
Definition c_rest (t : rank_cf) (ptr : Z) (q : cquery) : res Z :=
  match q with
  | CStart i => rank_of_cf t i
  | CRank i => let* rank := geti (cf_bits t) ptr in diff_rest t ptr rank i
  | CDiff rank i => diff_rest t ptr rank i
  | CInc rank i => count_block (cf_bits t) (ptr + 1) i rank
  | CRead rank i j => read_rest t ptr rank i j
  | CDone v => Ok v
  end.
Definition c_side (q : cquery) : Prop :=
  match q with CStart i => 0 <= i | CRank i | CDiff _ i | CInc _ i => 0 <= i < 512 | CRead _ i j => 0 <= i < 512 /\ 0 <= j <= i / 64 | CDone _ => True end.
Definition c_left (q : cquery) : Z := match q with CStart _ => 12 | CRank _ => 11 | CDiff _ _ => 10 | CInc _ _ => 9 | CRead _ _ j => 8 - j | CDone _ => 0 end.

Lemma read_start t p rank i : 0 <= i -> count_block (cf_bits t) p i rank = read_rest t p rank i 0.
Proof. intros H. unfold read_rest, count_block. rewrite Z.sub_0_r. reflexivity. Qed.

Lemma c_rest_step t ptr q v : c_side q -> c_rest t ptr q = Ok v ->
  exists ptr' q', c_step t ptr q = Ok (ptr', q') /\ c_side q' /\ c_rest t ptr' q' = Ok v /\ c_left q' <= Z.max 0 (c_left q - 1).
Proof.
  intros S E. destruct q as [i|i|rank i|rank i|rank i j|x]; cbn [c_side c_rest c_step c_left] in *.
  - unfold rank_of_cf in E. pose proof (Z.mod_pos_bound i 512 ltac:(lia)) as MB. destruct (i / 512 <? cf_border t).
    + eexists. eexists. split; [reflexivity|]. cbn [c_side c_rest c_left]. split; [lia|]. split; [exact E|lia].
    + destruct (geti (cf_bits t) (cf_block_border t + 2 * (i / 512 - cf_border t))) as [rk| |]; cbn [bind] in *; try discriminate.
      destruct (geti (cf_bits t) (cf_block_border t + 2 * (i / 512 - cf_border t) + 2)) as [nx| |]; cbn [bind] in *; try discriminate.
      destruct (Z.land (u64 (nx - rk)) 511 =? 0).
      * eexists. eexists. split; [reflexivity|]. cbn [c_side c_rest c_left]. split; [exact I|]. split; [exact E|lia].
      * destruct (geti (cf_bits t) (cf_block_border t + 2 * (i / 512 - cf_border t) + 1)) as [p| |]; cbn [bind] in *; try discriminate.
        eexists. eexists. split; [reflexivity|]. cbn [c_side c_rest c_left]. split; [lia|]. split; [rewrite <- read_start by lia; exact E|lia].
  - destruct (geti (cf_bits t) ptr) as [rk| |]; cbn [bind] in *; try discriminate. eexists. eexists. split; [reflexivity|]. cbn [c_side c_rest c_left]. split; [lia|]. split; [exact E|lia].
  - unfold diff_rest in E. destruct (geti (cf_bits t) (ptr + 9)) as [nx| |]; cbn [bind] in *; try discriminate. destruct (Z.land (u64 (nx - rank)) 511 =? 0).
    + eexists. eexists. split; [reflexivity|]. cbn [c_side c_rest c_left]. split; [exact I|]. split; [exact E|lia].
    + eexists. eexists. split; [reflexivity|]. cbn [c_side c_rest c_left]. split; [lia|]. split; [exact E|lia].
  - eexists. eexists. split; [reflexivity|]. cbn [c_side c_rest c_left]. split; [lia|]. split; [rewrite <- read_start by lia; exact E|lia].
  - destruct S as (Hi & Hj). unfold read_rest in E. destruct (Z.ltb_spec j (i / 64)) as [L|L].
    + replace (Z.to_nat (i / 64 - j)) with (S (Z.to_nat (i / 64 - (j + 1)))) in E by lia. cbn [zrange foldM] in E.
      destruct (geti (cf_bits t) (ptr + j)) as [w| |]; cbn [bind] in *; try discriminate. eexists. eexists. split; [reflexivity|]. cbn [c_side c_rest c_left]. split; [lia|]. split; [|lia].
      unfold read_rest. replace (j + 1) with (Z.succ j) in * by lia. exact E.
    + assert (Q : j = i / 64) by lia. replace (Z.to_nat (i / 64 - j)) with 0%nat in E by lia. cbn [zrange foldM bind] in E. rewrite <- Q in E |- *.
      destruct (geti (cf_bits t) (ptr + j)) as [w| |]; cbn [bind] in *; try discriminate. destruct (geti masks (i - 64 * j)) as [m| |]; cbn [bind] in *; try discriminate.
      eexists. eexists. split; [reflexivity|]. cbn [c_side c_rest c_left]. split; [exact I|]. split; [exact E|lia].
  - eexists. eexists. split; [reflexivity|]. cbn [c_side c_rest c_left]. split; [exact I|]. split; [exact E|lia].
Qed.

Lemma c_alone t v : forall n ptr q, c_side q -> c_rest t ptr q = Ok v -> c_left q <= Z.of_nat n -> exists ptr', c_run t (ptr, [q]) (repeat 0%nat n) = Ok (ptr', [CDone v]).
Proof.
  unfold c_run. induction n as [|n IH]; intros ptr q S E L; cbn [repeat foldM].
  - destruct q; cbn [c_left c_side c_rest] in *; try lia. injection E as ->. eauto.
  - unfold c_turn at 1. cbn [fst snd nth_error]. destruct (c_rest_step t ptr q v S E) as (p' & q' & -> & S' & E' & L'). cbn [bind upd_nat]. apply IH; [exact S'|exact E'|lia].
Qed.

Lemma cf_race_alone m t : addresses_ok m -> text_ok t -> zlen t < 2 ^ 58 -> ~ (1 <= text_blocks t /\ forall b, 0 <= b < text_blocks t -> uniform_block t b) ->
  exists r, build_cf m t = Ok r /\ forall i ptr0 n, 0 <= i < 512 * text_blocks t -> (12 <= n)%nat ->
    exists ptr, c_run r (ptr0, [CStart i]) (repeat 0%nat n) = Ok (ptr, [CDone (ones_before (text_bits t) i)]).
Proof.
  intros A T L U. destruct (cf_rank m t A T L U) as (r & E & R). exists r. split; [exact E|]. intros i ptr0 n Hi Hn.
  apply c_alone; [cbn; lia|cbn [c_rest]; apply R; exact Hi|cbn [c_left]; lia].
Qed.

(** ** Right of the border, one block *)
Definition right_place (t : rank_cf) (b : Z) : res Z := geti (cf_bits t) (cf_block_border t + 2 * (b - cf_border t) + 1).
Definition c_ok (t : rank_cf) (b ptr i0 v : Z) (q : cquery) : Prop :=
  match q with CStart i => i = i0 | CRead _ _ _ => right_place t b = Ok ptr /\ c_side q /\ c_rest t ptr q = Ok v | CDone x => x = v | _ => False end.

Lemma c_ok_step t b ptr i0 v q : 0 <= i0 -> i0 / 512 = b -> cf_border t <= b -> rank_of_cf t i0 = Ok v -> c_ok t b ptr i0 v q ->
  exists ptr' q', c_step t ptr q = Ok (ptr', q') /\ c_ok t b ptr' i0 v q' /\ (ptr' = ptr \/ right_place t b = Ok ptr').
Proof.
  intros H0 B W R K. assert (S : c_side q /\ c_rest t ptr q = Ok v) by (destruct q; cbn [c_ok c_side c_rest] in *; subst; try tauto; auto).
  destruct S as (S & E). destruct (c_rest_step t ptr q v S E) as (p' & q' & X & S' & E' & _). exists p', q'. split; [exact X|].
  destruct q as [i|i|rank i|rank i|rank i j|x]; cbn [c_ok c_step] in *; try contradiction.
  - subst i. rewrite B in X. replace (b <? cf_border t) with false in X by lia. fold (right_place t b) in X. destruct (geti (cf_bits t) (cf_block_border t + 2 * (b - cf_border t))) as [rk| |]; cbn [bind] in X; try discriminate.
    destruct (geti (cf_bits t) (cf_block_border t + 2 * (b - cf_border t) + 2)) as [nx| |]; cbn [bind] in X; try discriminate.
    destruct (Z.land (u64 (nx - rk)) 511 =? 0); [injection X as <- <-; cbn in E' |- *; split; [congruence|auto]|]. destruct (right_place t b) as [p| |] eqn:G; cbn [bind] in X; try discriminate.
    injection X as <- <-. cbn [c_ok]. auto.
  - destruct K as (G & _ & _). destruct (geti (cf_bits t) (ptr + j)) as [w| |]; cbn [bind] in X; try discriminate. destruct (j <? i / 64); [injection X as <- <-; cbn [c_ok]; auto|].
    destruct (geti masks (i - 64 * (i / 64))) as [m| |]; cbn [bind] in X; try discriminate. injection X as <- <-. cbn in E' |- *. split; [congruence|auto].
  - injection X as <- <-. cbn. auto.
Qed.

Lemma c_ok_other t b ptr ptr' i0 v q : c_ok t b ptr i0 v q -> ptr' = ptr \/ right_place t b = Ok ptr' -> c_ok t b ptr' i0 v q.
Proof.
  intros K H. destruct q; cbn [c_ok] in *; auto. destruct K as (G & K). assert (ptr' = ptr) by (destruct H as [H|H]; [exact H|congruence]). subst ptr'. auto.
Qed.

Lemma c_run_ok t f b qs : cf_border t <= b -> (forall i, In i qs -> 0 <= i /\ i / 512 = b /\ rank_of_cf t i = Ok (f i)) ->
  forall ks st, Forall2 (fun i q => c_ok t b (fst st) i (f i) q) qs (snd st) -> exists st', c_run t st ks = Ok st' /\ Forall2 (fun i q => c_ok t b (fst st') i (f i) q) qs (snd st').
Proof.
  intros W H. unfold c_run. induction ks as [|k ks IH]; intros st A; cbn [foldM]; [exists st; auto|].
  assert (X : exists st1, c_turn t st k = Ok st1 /\ Forall2 (fun i q => c_ok t b (fst st1) i (f i) q) qs (snd st1)).
  { unfold c_turn. destruct (nth_error (snd st) k) as [q|] eqn:N; [|exists st; auto]. destruct (forall2_nth _ _ _ _ _ A N) as (i & NI & II & K). destruct (H i II) as (H0 & HB & HR).
    destruct (c_ok_step t b (fst st) i (f i) q H0 HB W HR K) as (ptr' & q' & -> & K' & D). cbn [bind]. eexists. split; [reflexivity|]. cbn [fst snd].
    eapply forall2_upd; [exact A| |exact NI|exact K']. intros a c IA PA. exact (c_ok_other t b (fst st) ptr' a (f a) c PA D). }
  destruct X as (st1 & -> & A1). cbn [bind]. apply IH. exact A1.
Qed.

Lemma cf_race_right m t : addresses_ok m -> text_ok t -> zlen t < 2 ^ 58 -> ~ (1 <= text_blocks t /\ forall b, 0 <= b < text_blocks t -> uniform_block t b) ->
  exists r, build_cf m t = Ok r /\ forall b qs ptr0 ks, cf_border r <= b -> (forall i, In i qs -> 0 <= i < 512 * text_blocks t /\ i / 512 = b) ->
  exists ptr cs, c_run r (ptr0, map CStart qs) ks = Ok (ptr, cs) /\
    forall k v, nth_error cs k = Some (CDone v) -> exists i, nth_error qs k = Some i /\ v = ones_before (text_bits t) i.
Proof.
  intros A T L U. destruct (cf_rank m t A T L U) as (r & E & R). exists r. split; [exact E|]. intros b qs ptr0 ks W H.
  destruct (c_run_ok r (ones_before (text_bits t)) b qs W) with (ks := ks) (st := (ptr0, map CStart qs)) as ((ptr & cs) & E2 & A2).
  - intros i Hi. destruct (H i Hi). split; [lia|]. split; [assumption|]. apply R. assumption.
  - cbn [fst snd]. clear. induction qs as [|i q IH]; cbn; constructor; [reflexivity|exact IH].
  - exists ptr, cs. split; [exact E2|]. intros k v N. destruct (forall2_nth _ _ _ _ _ A2 N) as (i & NI & _ & K). exists i. split; [exact NI|exact K].
Qed.

(** ** Left of the border *)
Definition race_text : list Z := repeat 1 8 ++ repeat 3 56 ++ repeat 1 64.

Lemma race_text_ok : addresses_ok (mem_of 0 0) /\ text_ok race_text.
Proof. split; [apply mem_of_ok; [lia|reflexivity]|]. repeat constructor; lia. Qed.

(** The same question twice: one call reads a word of the text for the rank. *)
Lemma cf_race_bad : exists m t r i ks ptr cs v, addresses_ok m /\ text_ok t /\ build_cf m t = Ok r /\ 0 <= i < zlen (text_bits t) /\
  c_run r (0, [CStart i; CStart i]) ks = Ok (ptr, cs) /\ nth_error cs 1 = Some (CDone v) /\ zlen (text_bits t) < v.
Proof.
  destruct race_text_ok as (A & T). exists (mem_of 0 0), race_text. destruct (build_cf (mem_of 0 0) race_text) as [r| |] eqn:E; [|vm_compute in E; discriminate|vm_compute in E; discriminate].
  exists r, 64, [0; 1; 0; 0; 0; 1; 1; 1; 1; 1]%nat. vm_compute in E. injection E as <-. eexists. eexists. eexists. split; [exact A|]. split; [exact T|]. split; [reflexivity|]. split; [vm_compute; split; congruence|].
  split; [vm_compute; reflexivity|]. split; [reflexivity|]. vm_compute. reflexivity.
Qed.

(** The same question forty times: [pointer] is incremented forty times. *)
Lemma cf_race_out : exists m t r i n ks, addresses_ok m /\ text_ok t /\ build_cf m t = Ok r /\ 0 <= i < zlen (text_bits t) /\ c_run r (0, repeat (CStart i) n) ks = Ub UB_bounds.
Proof.
  destruct race_text_ok as (A & T). exists (mem_of 0 0), race_text. destruct (build_cf (mem_of 0 0) race_text) as [r| |] eqn:E; [|vm_compute in E; discriminate|vm_compute in E; discriminate].
  exists r, 64, 40%nat, (let ks := map Z.to_nat (zrange 0 40) in ks ++ ks ++ ks ++ ks ++ ks). vm_compute in E. injection E as <-. split; [exact A|]. split; [exact T|]. split; [reflexivity|]. split; [vm_compute; split; congruence|].
  vm_compute. reflexivity.
Qed.
