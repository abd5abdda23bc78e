(** Properties of one bitmap: C01-C11, C19, C29, C30, C34, C35.
    [history c ty addr s input ops] (Usage.v): [input] can be built into type [ty]
    under configuration [c], and every call of [ops] is valid when it is made.
    [current ty input ops]: the bits after that, by the specification (Spec.v). *)
From Verif Require Import Base Mem Trees Words Blocks Spec Bitmap Usage PropFacts Demo.

(** ** C01: rank after any history *)
Theorem C01_rank_after_any_history : forall c ty addr s input ops i,
  history c ty addr s input ops -> 0 <= i < zlen (current ty input ops) ->
  exists outs,
    program c ty addr s input ops = Ok outs /\
    program c ty addr s input (ops ++ [Rank i]) = Ok (outs ++ [ONum (rank_spec (current ty input ops) i)]).
Proof. exact rank_after. Qed.
Print Assumptions C01_rank_after_any_history.

Example C01_case :
  history demo_cfg demo_ty demo_addr (statics_init (ty_block demo_ty)) demo_input demo_ops /\
  0 <= 38399 < zlen (current demo_ty demo_input demo_ops) /\
  program demo_cfg demo_ty demo_addr (statics_init (ty_block demo_ty)) demo_input (demo_ops ++ [Rank 38399]) =
  Ok [ONone; ONum 18810; ONone; OBool true; ONum 18421; ONone; ONone; ONone; ONum 18812].
Proof. split; [exact demo_history|]. vm_compute. intuition congruence. Qed.

(** ** C02: select after any history *)
Theorem C02_select_after_any_history : forall c ty addr s input ops k,
  history c ty addr s input ops -> 0 <= k < count_true (current ty input ops) ->
  select_safe c ty (current ty input ops) k ->
  exists outs p,
    program c ty addr s input ops = Ok outs /\
    program c ty addr s input (ops ++ [Select k]) = Ok (outs ++ [ONum p]) /\
    is_select (current ty input ops) k p /\
    forall q, is_select (current ty input ops) k q -> q = p.
Proof. exact select_after. Qed.
Print Assumptions C02_select_after_any_history.

Example C02_case :
  history demo_cfg demo_ty demo_addr (statics_init (ty_block demo_ty)) demo_input demo_ops /\
  0 <= 18811 < count_true (current demo_ty demo_input demo_ops) /\
  select_safe demo_cfg demo_ty (current demo_ty demo_input demo_ops) 18811 /\
  program demo_cfg demo_ty demo_addr (statics_init (ty_block demo_ty)) demo_input (demo_ops ++ [Select 18811]) =
  Ok [ONone; ONum 18810; ONone; OBool true; ONum 18421; ONone; ONone; ONone; ONum 38334].
Proof. split; [exact demo_history|]. split; [vm_compute; intuition congruence|]. split; [intros _ H; discriminate H|vm_compute; reflexivity]. Qed.

(** ** C03: access after any history *)
Theorem C03_access_after_any_history : forall c ty addr s input ops i,
  history c ty addr s input ops -> 0 <= i < zlen (current ty input ops) ->
  exists outs,
    program c ty addr s input ops = Ok outs /\
    program c ty addr s input (ops ++ [Access i]) =
    Ok (outs ++ [OBool (xorb (bit (initial ty input) i) (Nat.odd (flips_of ops i)))]).
Proof. exact access_after. Qed.
Print Assumptions C03_access_after_any_history.

Example C03_case :
  history demo_cfg demo_ty demo_addr (statics_init (ty_block demo_ty)) demo_input demo_ops /\
  0 <= 70 < zlen (current demo_ty demo_input demo_ops) /\
  flips_of demo_ops 70 = 2%nat /\ flips_of demo_ops 256 = 1%nat.
Proof. split; [exact demo_history|]. vm_compute. intuition congruence. Qed.

(** ** C04: flip changes one bit and nothing else *)
Theorem C04_flip_frame : forall c ty addr s input ops i j,
  history c ty addr s input ops ->
  0 <= i < zlen (current ty input ops) -> 0 <= j < zlen (current ty input ops) ->
  exists outs b x n r w w',
    program c ty addr s input ops = Ok outs /\
    program c ty addr s input
      (ops ++ [Access i; Access j; Size; Rank j; Bits; Flip i; Access i; Access j; Size; Rank j; Bits]) =
    Ok (outs ++ [OBool b; OBool x; ONum n; ONum r; OWords w;
                 ONone;
                 OBool (negb b); OBool (if j =? i then negb x else x); ONum n;
                 ONum (if i <=? j then (if b then r - 1 else r + 1) else r); OWords w']) /\
    length w' = length w /\
    (forall k, 0 <= k < zlen w -> k <> i / 64 -> zn 0 w' k = zn 0 w k).
Proof. exact flip_frame. Qed.
Print Assumptions C04_flip_frame.

Example C04_case :
  history demo_cfg demo_ty demo_addr (statics_init (ty_block demo_ty)) demo_input demo_ops /\
  0 <= 1000 < zlen (current demo_ty demo_input demo_ops) /\ 0 <= 20000 < zlen (current demo_ty demo_input demo_ops).
Proof. split; [exact demo_history|]. vm_compute. intuition congruence. Qed.

(** ** C05: build contents and padding *)
Theorem C05_build_contents : forall c ty addr s input,
  usable c ty addr input -> reachable_statics c (ty_block ty) s ->
  let size := 64 * zlen input + (- (64 * zlen input)) mod block_size (ty_block ty) in
  program c ty addr s input [Size; Bits] =
  Ok [ONum size; OWords (input ++ repeat 0 (Z.to_nat (size / 64 - zlen input)))] /\
  size mod block_size (ty_block ty) = 0 /\
  64 * zlen input <= size < 64 * zlen input + block_size (ty_block ty).
Proof. exact build_contents. Qed.
Print Assumptions C05_build_contents.

Example C05_case :
  usable demo_cfg demo_ty demo_addr demo_input /\ zlen demo_input = 599 /\
  program demo_cfg demo_ty demo_addr (statics_init (ty_block demo_ty)) demo_input [Size; Bits] =
  Ok [ONum 38400; OWords (demo_input ++ [0])].
Proof. split; [apply demo_history|]. vm_compute. auto. Qed.

(** ** C06: rank and select are inverse *)
Theorem C06_rank_of_select : forall c ty addr s input ops k,
  history c ty addr s input ops -> 0 <= k < count_true (current ty input ops) ->
  select_safe c ty (current ty input ops) k ->
  exists outs p,
    program c ty addr s input ops = Ok outs /\
    program c ty addr s input (ops ++ [Select k; Rank p]) = Ok (outs ++ [ONum p; ONum (k + 1)]).
Proof. exact rank_select. Qed.
Print Assumptions C06_rank_of_select.

Theorem C06_select_of_rank : forall c ty addr s input ops p,
  history c ty addr s input ops -> 0 <= p < zlen (current ty input ops) ->
  bit (current ty input ops) p = true -> select_safe c ty (current ty input ops) (ones_before (current ty input ops) p) ->
  exists outs r,
    program c ty addr s input ops = Ok outs /\
    program c ty addr s input (ops ++ [Rank p; Select (r - 1)]) = Ok (outs ++ [ONum r; ONum p]).
Proof. exact select_rank. Qed.
Print Assumptions C06_select_of_rank.

Example C06_case :
  history demo_cfg demo_ty demo_addr (statics_init (ty_block demo_ty)) demo_input demo_ops /\
  (forall k, select_safe demo_cfg demo_ty (current demo_ty demo_input demo_ops) k) /\
  bit (current demo_ty demo_input demo_ops) 38300 = true /\
  (0 <= 17000 < count_true (current demo_ty demo_input demo_ops)).
Proof. split; [exact demo_history|]. split; [intros k _ H; discriminate H|]. vm_compute. intuition congruence. Qed.

(** ** C07: flipping twice is the identity *)
Theorem C07_flip_twice : forall c ty addr s input ops i more,
  history c ty addr s input ops -> 0 <= i < zlen (current ty input ops) ->
  valid_ops (current ty input ops) more -> selects_safe c ty (current ty input ops) more ->
  exists outs outs2,
    program c ty addr s input (ops ++ more) = Ok (outs ++ outs2) /\
    program c ty addr s input (ops ++ [Flip i; Flip i] ++ more) = Ok (outs ++ [ONone; ONone] ++ outs2) /\
    length outs = length ops.
Proof. exact flip_twice. Qed.
Print Assumptions C07_flip_twice.

Example C07_case :
  history demo_cfg demo_ty demo_addr (statics_init (ty_block demo_ty)) demo_input demo_ops /\
  0 <= 4711 < zlen (current demo_ty demo_input demo_ops) /\
  valid_ops (current demo_ty demo_input demo_ops) [Rank 4711; Access 4711; Select 2000; Bits] /\
  selects_safe demo_cfg demo_ty (current demo_ty demo_input demo_ops) [Rank 4711; Access 4711; Select 2000; Bits].
Proof.
  split; [exact demo_history|]. split; [vm_compute; intuition congruence|].
  split; [apply valid_ops_b_ok; vm_compute; reflexivity|apply safe_height; discriminate].
Qed.

(** ** C08: memory safety of valid calls *)
Theorem C08_no_undefined_behaviour : forall c ty addr s input ops,
  history c ty addr s input ops -> forall k, program c ty addr s input ops <> Ub k.
Proof. exact no_ub. Qed.
Print Assumptions C08_no_undefined_behaviour.

Example C08_case :
  history demo_cfg demo_ty demo_addr (statics_init (ty_block demo_ty)) demo_input demo_ops /\
  program demo_cfg demo_ty demo_addr (statics_init (ty_block demo_ty)) demo_input (demo_ops ++ [Select 18812]) = Ub UB_bounds.
Proof. split; [exact demo_history|]. vm_compute. reflexivity. Qed.

(** ** C09: debug assertions never fire on valid calls *)
Theorem C09_no_assertion_failure : forall c ty addr s input ops,
  history c ty addr s input ops ->
  program c ty addr s input ops <> AssertFail /\
  exists outs, program c ty addr s input ops = Ok outs /\ length outs = length ops.
Proof. exact no_assert. Qed.
Print Assumptions C09_no_assertion_failure.

Example C09_case :
  c_debug demo_cfg = true /\
  history demo_cfg demo_ty demo_addr (statics_init (ty_block demo_ty)) demo_input demo_ops /\
  program demo_cfg demo_ty demo_addr (statics_init (ty_block demo_ty)) demo_input (demo_ops ++ [Rank 38400]) = AssertFail.
Proof. split; [reflexivity|]. split; [exact demo_history|]. vm_compute. reflexivity. Qed.

(** ** C10: builds with different code paths agree *)
Theorem C10_configurations_agree : forall c1 c2 ty addr1 addr2 s1 s2 input ops,
  history c1 ty addr1 s1 input ops -> history c2 ty addr2 s2 input ops ->
  exists outs,
    program c1 ty addr1 s1 input ops = Ok outs /\ program c2 ty addr2 s2 input ops = Ok outs.
Proof. exact configurations_agree. Qed.
Print Assumptions C10_configurations_agree.

Example C10_case :
  history demo_cfg demo_ty demo_addr (statics_init (ty_block demo_ty)) demo_input demo_ops /\
  history demo_scalar demo_ty 1 (statics_init (ty_block demo_ty)) demo_input demo_ops /\
  c_avx2 demo_cfg = true /\ c_avx2 demo_scalar = false.
Proof. split; [exact demo_history|]. split; [exact demo_history_scalar|]. auto. Qed.

(** ** C11: avx2 and avx512 indexes agree, also across block sizes when the padding agrees *)
Theorem C11_types_agree : forall c1 c2 ty1 ty2 addr1 addr2 s1 s2 input ops,
  history c1 ty1 addr1 s1 input ops -> history c2 ty2 addr2 s2 input ops ->
  (zlen input * 64) mod block_size (ty_block ty1) = 0 /\ (zlen input * 64) mod block_size (ty_block ty2) = 0 \/
  block_size (ty_block ty1) = block_size (ty_block ty2) ->
  exists outs,
    program c1 ty1 addr1 s1 input ops = Ok outs /\ program c2 ty2 addr2 s2 input ops = Ok outs.
Proof. exact types_agree. Qed.
Print Assumptions C11_types_agree.

Example C11_case :
  history demo_cfg demo_ty demo_addr (statics_init (ty_block demo_ty)) demo_input demo_ops /\
  history demo_avx512 demo_ty5 16 (statics_init (ty_block demo_ty5)) demo_input demo_ops /\
  block_size (ty_block demo_ty) = block_size (ty_block demo_ty5) /\ ty_fam demo_ty = F2 /\ ty_fam demo_ty5 = F5.
Proof. split; [exact demo_history|]. split; [exact demo_history5|]. auto. Qed.

(** ** C19: function-local statics do not leak between calls *)
Theorem C19_statics_do_not_leak : forall c ty addr s1 s2 input ops,
  history c ty addr s1 input ops -> reachable_statics c (ty_block ty) s2 ->
  program c ty addr s1 input ops = program c ty addr s2 input ops.
Proof. exact statics_irrelevant. Qed.
Print Assumptions C19_statics_do_not_leak.

(** The statics really change, so the theorem says something. *)
Example C19_case :
  exists s, reachable_statics demo_cfg (ty_block demo_ty) s /\ s <> statics_init (ty_block demo_ty) /\
  history demo_cfg demo_ty demo_addr s demo_input demo_ops.
Proof. exact demo_statics. Qed.

(** ** C29: rank is a counting function *)
Theorem C29_rank_counts : forall c ty addr s input ops,
  history c ty addr s input ops ->
  exists outs (r : Z -> Z),
    program c ty addr s input ops = Ok outs /\
    let B := current ty input ops in
    (forall i, 0 <= i < zlen B -> program c ty addr s input (ops ++ [Rank i]) = Ok (outs ++ [ONum (r i)])) /\
    (forall i, 0 <= i < zlen B -> r i <= i + 1) /\
    r 0 = b2z (bit B 0) /\
    (forall i, 0 < i < zlen B -> r i = r (i - 1) + b2z (bit B i)) /\
    (forall i j, 0 <= i <= j -> j < zlen B -> r i <= r j <= r i + (j - i)) /\
    r (zlen B - 1) = count_true B /\
    (forall i, 0 <= i < zlen B ->
       program c ty addr s input (ops ++ [Access i; Flip i; Rank (zlen B - 1)]) =
       Ok (outs ++ [OBool (bit B i); ONone; ONum (if bit B i then count_true B - 1 else count_true B + 1)])).
Proof. exact rank_counts. Qed.
Print Assumptions C29_rank_counts.

Example C29_case : history demo_cfg demo_ty demo_addr (statics_init (ty_block demo_ty)) demo_input demo_ops.
Proof. exact demo_history. Qed.

(** ** C30: select is strictly increasing and hits exactly the ones *)
Theorem C30_select_enumerates : forall c ty addr s input ops,
  history c ty addr s input ops ->
  (forall k, 0 <= k < count_true (current ty input ops) -> select_safe c ty (current ty input ops) k) ->
  exists outs (p : Z -> Z),
    program c ty addr s input ops = Ok outs /\
    let B := current ty input ops in
    (forall k, 0 <= k < count_true B -> program c ty addr s input (ops ++ [Select k]) = Ok (outs ++ [ONum (p k)])) /\
    (forall k, 0 <= k < count_true B -> 0 <= p k < zlen B /\ bit B (p k) = true) /\
    (forall k l, 0 <= k < l -> l < count_true B -> p k < p l) /\
    (forall i, 0 <= i < zlen B -> bit B i = true -> exists k, 0 <= k < count_true B /\ p k = i).
Proof. exact select_enumerates. Qed.
Print Assumptions C30_select_enumerates.

Example C30_case :
  history demo_cfg demo_ty demo_addr (statics_init (ty_block demo_ty)) demo_input demo_ops /\
  (forall k, 0 <= k < count_true (current demo_ty demo_input demo_ops) -> select_safe demo_cfg demo_ty (current demo_ty demo_input demo_ops) k) /\
  count_true (current demo_ty demo_input demo_ops) = 18812.
Proof. split; [exact demo_history|]. split; [intros k _ _ H; discriminate H|]. vm_compute. reflexivity. Qed.

(** ** C34: histories with equal final contents are indistinguishable *)
Theorem C34_equal_contents_indistinguishable : forall c1 c2 ty1 ty2 a1 a2 s1 s2 in1 in2 ops1 ops2 more,
  history c1 ty1 a1 s1 in1 ops1 -> history c2 ty2 a2 s2 in2 ops2 ->
  current ty1 in1 ops1 = current ty2 in2 ops2 ->
  valid_ops (current ty1 in1 ops1) more ->
  selects_safe c1 ty1 (current ty1 in1 ops1) more -> selects_safe c2 ty2 (current ty1 in1 ops1) more ->
  exists o1 o2 outs,
    program c1 ty1 a1 s1 in1 ops1 = Ok o1 /\ program c2 ty2 a2 s2 in2 ops2 = Ok o2 /\
    program c1 ty1 a1 s1 in1 (ops1 ++ more) = Ok (o1 ++ outs) /\
    program c2 ty2 a2 s2 in2 (ops2 ++ more) = Ok (o2 ++ outs).
Proof. exact same_answers. Qed.
Print Assumptions C34_equal_contents_indistinguishable.

(** Built and flipped on one side, built directly on the other. *)
Example C34_case :
  let ty := {| ty_fam := F2; ty_height := 1; ty_block := block512_type_a |} in
  history demo_scalar ty 0 (statics_init (ty_block ty)) [0; 7; 9] [Flip 64; Rank 100; Flip 500] /\
  history demo_scalar ty 0 (statics_init (ty_block ty)) [0; 6; 9; 0; 0; 0; 0; 2 ^ 52] [] /\
  current ty [0; 7; 9] [Flip 64; Rank 100; Flip 500] = current ty [0; 6; 9; 0; 0; 0; 0; 2 ^ 52] [].
Proof. split; [|split]; try (apply history_b_ok; vm_compute; reflexivity). vm_compute. reflexivity. Qed.

(** ** C35: flips commute *)
Theorem C35_flips_commute : forall c ty addr s input ops i j more,
  history c ty addr s input ops ->
  0 <= i < zlen (current ty input ops) -> 0 <= j < zlen (current ty input ops) ->
  let B' := flip_bit (flip_bit (current ty input ops) i) j in
  valid_ops B' more -> selects_safe c ty B' more ->
  exists outs,
    program c ty addr s input (ops ++ [Flip i; Flip j] ++ more) = Ok outs /\
    program c ty addr s input (ops ++ [Flip j; Flip i] ++ more) = Ok outs.
Proof. exact flips_commute. Qed.
Print Assumptions C35_flips_commute.

Example C35_case :
  history demo_cfg demo_ty demo_addr (statics_init (ty_block demo_ty)) demo_input demo_ops /\
  0 <= 5 < zlen (current demo_ty demo_input demo_ops) /\ 0 <= 38000 < zlen (current demo_ty demo_input demo_ops) /\
  valid_ops (flip_bit (flip_bit (current demo_ty demo_input demo_ops) 5) 38000) [Rank 38399; Select 18000; Flip 5; Bits].
Proof.
  split; [exact demo_history|]. split; [vm_compute; intuition congruence|]. split; [vm_compute; intuition congruence|].
  apply valid_ops_b_ok. vm_compute. reflexivity.
Qed.
