(** C126: the memory of BitmapPoppy. *)
From Verif Require Import Base SpecPopOwn MrOwn PopOwn PopOwnFacts.

(** If memory can be had and no object is copied, no program touches or frees freed memory,
    and when no object is left no memory is left. *)
Theorem C126_safe : forall ops, pscoped (fun _ => false) ops = true ->
  exists s cnt, p_run no_pheap ops = Ok (s, cnt) /\ ((forall i, h_alive s i = false) -> forall id, h_live s id = false).
Proof. exact pop_safe. Qed.
Print Assumptions C126_safe.
Example C126_safe_case : exists s cnt,
  let ops := [PNew 0 (3 * 2 ^ 32) 0 0; PNew 1 64 0 0; PUse 0; PDrop 0; PUse 1; PDrop 1; PNew 0 2048 0 0; PDrop 0] in
  pscoped (fun _ => false) ops = true /\ p_run no_pheap ops = Ok (s, cnt) /\ h_next s = 11 /\ forallb (fun id => negb (h_live s id)) [0; 1; 2; 3; 4; 5; 6; 7; 8; 9; 10] = true.
Proof. eexists. eexists. split; [reflexivity|]. split; [vm_compute; reflexivity|]. vm_compute. auto. Qed.

(** posix_memalign returns positive errors, which the constructor takes for success: it
    never ends the process but writes through a pointer without a value. *)
Theorem C126_failed : forall ops s cnt i nbits e1 e2, pscoped (fun _ => false) ops = true -> p_run no_pheap ops = Ok (s, cnt) -> h_alive s i = false ->
  0 <= e1 -> 0 <= e2 -> 0 < e1 \/ 0 < e2 -> p_run no_pheap (ops ++ [PNew i nbits e1 e2]) = Ub UB_uninit.
Proof. exact pop_failed. Qed.
Print Assumptions C126_failed.
Example C126_failed_case : exists s cnt, p_run no_pheap [PNew 1 64 0 0] = Ok (s, cnt) /\ h_alive s 0 = false /\ p_run no_pheap [PNew 1 64 0 0; PNew 0 (2 ^ 47) 0 12] = Ub UB_uninit.
Proof. eexists. eexists. split; [vm_compute; reflexivity|]. vm_compute. auto. Qed.

(** loc_ and locCount_ have 2^16 entries; larger bitmaps write past them. *)
Theorem C126_large : forall ops s cnt i nbits, pscoped (fun _ => false) ops = true -> p_run no_pheap ops = Ok (s, cnt) -> h_alive s i = false ->
  2 ^ 48 + 2 ^ 32 <= nbits -> p_run no_pheap (ops ++ [PNew i nbits 0 0]) = Ub UB_bounds.
Proof. exact pop_large. Qed.
Print Assumptions C126_large.
Example C126_large_case : p_run no_pheap [PNew 1 64 0 0; PUse 1; PNew 0 (2 ^ 48 + 2 ^ 32) 0 0] = Ub UB_bounds.
Proof. vm_compute. reflexivity. Qed.

(** After a copy is destroyed, the next use of the original touches freed memory, and its
    destruction frees memory twice. *)
Theorem C126_copy : forall ops s cnt i j k id, pscoped (fun _ => false) ops = true -> p_run no_pheap ops = Ok (s, cnt) -> h_alive s i = false -> h_ptr s j k = Some id ->
  p_run no_pheap (ops ++ [PCopy i j; PDrop i; PUse j]) = Ub UB_freed /\ p_run no_pheap (ops ++ [PCopy i j; PDrop i; PDrop j]) = Ub UB_freed.
Proof. exact pop_copy. Qed.
Print Assumptions C126_copy.
Example C126_copy_case : exists s cnt, p_run no_pheap [PNew 0 64 0 0; PNew 2 (2 ^ 33) 0 0] = Ok (s, cnt) /\ h_alive s 1 = false /\ map (h_ptr s 2) [0; 1; 2; 3; 4] = [Some 3; Some 4; Some 5; Some 6; None].
Proof. eexists. eexists. split; [vm_compute; reflexivity|]. vm_compute. auto. Qed.
