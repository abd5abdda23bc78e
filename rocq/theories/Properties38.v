(** C124: the memory of the classes of include/mranisz. *)
From Verif Require Import Base SpecOwn MrOwn MrOwnFacts.

(** Without copies: no program that uses objects while they exist touches or deletes
    deleted memory, and when no object is left no memory is left. *)
Theorem C124_safe : forall mpe ops, forallb no_copy ops = true -> scoped (fun _ => false) ops = true ->
  exists s, o_run mpe no_heap ops = Ok s /\ ((forall i, h_alive s i = false) -> forall id, h_live s id = false).
Proof. exact own_safe. Qed.
Print Assumptions C124_safe.
Example C124_safe_case : exists s,
  let ops := [ONew 0; OBuild 0 true true; ONew 1; OUse 0; OBuild 0 true false; OBuild 1 false true; OFree 1; OUse 1; ODrop 0; ODrop 1] in
  forallb no_copy ops = true /\ scoped (fun _ => false) ops = true /\ o_run true no_heap ops = Ok s /\ h_next s = 10 /\ forallb (fun id => negb (h_live s id)) [0; 1; 2; 3; 4; 5; 6; 7; 8; 9] = true.
Proof. eexists. split; [reflexivity|]. split; [reflexivity|]. split; [vm_compute; reflexivity|]. vm_compute. auto. Qed.

(** Every block that exists is one member of one object that exists. *)
Theorem C124_owners : forall mpe ops s, forallb no_copy ops = true -> o_run mpe no_heap ops = Ok s ->
  forall id, h_live s id = true -> exists i k, h_alive s i = true /\ h_ptr s i k = Some id /\ forall j l, h_ptr s j l = Some id -> j = i /\ l = k.
Proof. exact own_unique. Qed.
Print Assumptions C124_owners.
Example C124_owners_case : exists s, o_run true no_heap [ONew 3; OBuild 3 true true; ONew 4] = Ok s /\
  map (h_live s) [0; 1; 2; 3; 4; 5] = [false; true; true; true; true; false] /\ map (h_ptr s 3) [0; 1; 2] = [Some 2; Some 3; Some 1] /\ map (h_ptr s 4) [0; 1; 2] = [None; None; Some 4].
Proof. eexists. split; [vm_compute; reflexivity|]. vm_compute. auto. Qed.

(** After a copy of a built object is destroyed, the next use of the original touches
    deleted memory, and its destruction deletes memory twice. *)
Theorem C124_copy : forall mpe ops s i j k id, forallb no_copy ops = true -> o_run mpe no_heap ops = Ok s -> h_alive s i = false -> h_ptr s j k = Some id ->
  o_run mpe no_heap (ops ++ [OCopy i j; ODrop i; OUse j]) = Ub UB_freed /\
  o_run mpe no_heap (ops ++ [OCopy i j; ODrop i; ODrop j]) = Ub UB_freed.
Proof. exact own_copy. Qed.
Print Assumptions C124_copy.
Example C124_copy_case : exists s, o_run false no_heap [ONew 0; OBuild 0 false true] = Ok s /\ h_alive s 1 = false /\ h_ptr s 0 1 = Some 0.
Proof. eexists. split; [vm_compute; reflexivity|]. vm_compute. auto. Qed.

(** What an object had before an assignment is never deleted. *)
Theorem C124_assign : forall mpe ops s i j k id, forallb no_copy ops = true -> o_run mpe no_heap ops = Ok s -> h_alive s j = true -> i <> j -> h_ptr s i k = Some id ->
  forall more s', o_run mpe no_heap (ops ++ OAssign i j :: more) = Ok s' -> h_live s' id = true /\ forall a l, h_ptr s' a l <> Some id.
Proof. exact own_assign. Qed.
Print Assumptions C124_assign.
Example C124_assign_case : exists s s', o_run false no_heap [ONew 0; OBuild 0 true true; ONew 1] = Ok s /\ h_alive s 1 = true /\ h_ptr s 0 1 = Some 1 /\
  o_run false no_heap ([ONew 0; OBuild 0 true true; ONew 1] ++ OAssign 0 1 :: [OBuild 0 true true; OUse 0; ODrop 0]) = Ok s' /\ h_live s' 1 = true.
Proof. eexists. eexists. split; [vm_compute; reflexivity|]. split; [vm_compute; reflexivity|]. split; [vm_compute; reflexivity|]. split; vm_compute; reflexivity. Qed.

(** With copies both claims of C124_safe are false. *)
Theorem C124_copy_refuted : forall mpe, exists ops, scoped (fun _ => false) ops = true /\ o_run mpe no_heap ops = Ub UB_freed.
Proof. exact own_copy_refuted. Qed.
Print Assumptions C124_copy_refuted.

Theorem C124_leak_refuted : exists ops s id, scoped (fun _ => false) ops = true /\ o_run false no_heap ops = Ok s /\ (forall i, h_alive s i = false) /\ h_live s id = true.
Proof. exact own_leak_refuted. Qed.
Print Assumptions C124_leak_refuted.
