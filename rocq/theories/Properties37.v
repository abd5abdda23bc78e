(** C122 and C123: DArray of include/hft/darray.hpp as owner of mapped memory. *)
From Verif Require Import Base SpecDarray Darray DarrayFacts.

(** ** C122: the memory of one array *)

(** Whole pages, as few as hold the elements. *)
Theorem C122_pages : forall p w n, 0 <= p <= 64 -> 0 <= n * w -> n * w + 2 ^ p <= 2 ^ 64 -> whole_pages (2 ^ p) (n * w) (page_aligned p w n).
Proof. exact pages_good. Qed.
Print Assumptions C122_pages.
Example C122_pages_case : page_aligned 12 8 512 = 4096 /\ page_aligned 12 8 513 = 8192 /\ page_aligned 21 2 1 = 2 ^ 21 /\ page_aligned 12 8 0 = 0.
Proof. vm_compute. auto. Qed.

(** The elements that can be accessed are those of the pages, zero at first. *)
Theorem C122_reach : forall dbg p w fails n k, 0 <= p <= 64 -> 1 <= w -> 1 <= n -> n * w + 2 ^ p <= 2 ^ 64 -> fails (page_aligned p w n) = false -> 0 <= k ->
  exists r, whole_pages (2 ^ p) (n * w) r /\
    (let* '(outs, _) := d_run dbg p w fails no_world [DNew 0 n; DGet 0 k] in Ok outs) = if (k + 1) * w <=? r then Ok [0] else Ub UB_bounds.
Proof. exact array_reach. Qed.
Print Assumptions C122_reach.
Example C122_reach_case :
  (let* '(outs, _) := d_run true 12 8 (fun _ => false) no_world [DNew 0 3; DGet 0 511] in Ok outs) = Ok [0] /\
  (let* '(outs, _) := d_run true 12 8 (fun _ => false) no_world [DNew 0 3; DGet 0 512] in Ok outs) = Ub UB_bounds.
Proof. vm_compute. auto. Qed.

(** The product of length and element size is taken modulo 2^64; if the rest is 0 or
    above 2^64 minus a page, the array has a length but no memory, and nothing fails
    before an element is written.  The calls are those of operator>> (lines 122-134)
    for a stream with the length [n]. *)
Theorem C122_null : forall dbg p w fails n k v, 0 <= p <= 64 -> (n * w) mod 2 ^ 64 = 0 \/ 2 ^ 64 - 2 ^ p < (n * w) mod 2 ^ 64 ->
  d_run dbg p w fails no_world [DNew 0 0; DNew 1 n; DAssign 0 1; DDrop 1; DSet 0 k v] = Ub UB_null.
Proof. exact array_null. Qed.
Print Assumptions C122_null.
Example C122_null_case : (2 ^ 61 * 8) mod 2 ^ 64 = 0 /\ 2 ^ 64 - 2 ^ 12 < ((2 ^ 61 - 1) * 8) mod 2 ^ 64.
Proof. vm_compute. auto. Qed.
Theorem C122_pages_refuted : exists n, 1 <= n < 2 ^ 64 /\ forall dbg fails, exists s,
  d_run dbg 12 8 fails no_world [DNew 0 n; DSize 0] = Ok ([n], s) /\ forall id, w_live s id = None.
Proof. exists (2 ^ 61). split; [lia|]. intros. eexists. split; [cbn; reflexivity|]. reflexivity. Qed.
Print Assumptions C122_pages_refuted.

(** When mmap fails, the assertion does; without assertions the array has its length, and
    no element can be accessed. *)
Theorem C122_failed : forall dbg p w fails n k, 0 <= k -> page_aligned p w n <> 0 -> fails (page_aligned p w n) = true ->
  d_run dbg p w fails no_world [DNew 0 n; DGet 0 k] = (if dbg then AssertFail else Ub UB_bounds) /\
  (dbg = false -> exists s, d_run dbg p w fails no_world [DNew 0 n; DSize 0; DDrop 0] = Ok ([n], s)).
Proof. exact array_failed. Qed.
Print Assumptions C122_failed.
Example C122_failed_case : page_aligned 12 8 (2 ^ 50) = 2 ^ 53 /\ d_run false 12 8 (fun b => b >? 2 ^ 47) no_world [DNew 0 (2 ^ 50); DGet 0 0] = Ub UB_bounds.
Proof. vm_compute. auto. Qed.

(** ** C123: arrays are values and own their memory *)

(** Programs of constructors, moves, assignments, swaps and destructors print what they
    print with plain values, and unmap all memory if all arrays are destroyed. *)
Theorem C123_values : forall dbg p w fails limit ops outs st, 0 <= p <= 64 -> 1 <= w -> 0 <= limit -> limit + 2 ^ p <= 2 ^ 64 ->
  (forall b, 0 < b < limit + 2 ^ p -> fails b = false) -> value_run w limit no_values ops = Some (outs, st) ->
  exists s, d_run dbg p w fails no_world ops = Ok (outs, s) /\ ((forall i, st i = None) -> forall id, w_live s id = None).
Proof. exact run_values. Qed.
Print Assumptions C123_values.
Example C123_values_case :
  let ops := [DNew 0 3; DSet 0 2 7; DMove 1 0; DSize 0; DGet 1 2; DNew 2 5; DSet 2 4 300; DAssign 1 2; DGet 2 2; DGet 1 4; DSize 1; DSwap 0 1; DSize 0; DAssign 2 2; DGet 2 2;
              DDrop 1; DDrop 0; DDrop 2] in
  (exists st, value_run 1 (2 ^ 40) no_values ops = Some ([0; 7; 7; 44; 5; 5; 7], st)) /\
  exists s, d_run true 12 1 (fun b => b >? 2 ^ 47) no_world ops = Ok ([0; 7; 7; 44; 5; 5; 7], s) /\ w_next s = 2 /\ w_live s 0 = None /\ w_live s 1 = None.
Proof. cbv zeta. split; [eexists; vm_compute; reflexivity|]. eexists. split; [vm_compute; reflexivity|]. vm_compute. auto. Qed.

(** Whatever a program does, whether mmap fails or lengths wrap: memory that is not
    mapped any more is never accessed or unmapped, ... *)
Theorem C123_never_freed : forall dbg p w fails ops, d_run dbg p w fails no_world ops <> Ub UB_freed.
Proof. exact run_not_freed. Qed.
Print Assumptions C123_never_freed.
(** ... and every mapping belongs to exactly one array, whose destructor will unmap all of
    it: there are no leaks and no aliases. *)
Theorem C123_owners : forall dbg p w fails ops outs s, d_run dbg p w fails no_world ops = Ok (outs, s) ->
  forall id b, w_live s id = Some b -> exists i d, w_vars s i = Some d /\ da_buf d = At id /\ b = page_aligned p w (da_size d) /\
    forall j e, w_vars s j = Some e -> da_buf e = At id -> j = i.
Proof. exact run_owners. Qed.
Print Assumptions C123_owners.
Example C123_owners_case : exists s,
  d_run true 12 8 (fun _ => false) no_world [DNew 5 600; DNew 6 1; DAssign 6 5; DDrop 5; DMove 7 6] = Ok ([], s) /\
  w_live s 0 = Some 8192 /\ w_live s 1 = None /\ w_vars s 7 = Some {| da_size := 600; da_buf := At 0 |} /\ w_vars s 6 = Some {| da_size := 0; da_buf := Null |}.
Proof. eexists. split; [vm_compute; reflexivity|]. vm_compute. auto. Qed.
