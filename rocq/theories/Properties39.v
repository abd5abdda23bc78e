(** C125: the nodes of ByteF with and without HFT_DISABLE_TRANSHUGE. *)
From Verif Require Import Base SpecHft Hft SpecHoles HftHoles HftHolesFacts.

(** In both builds every node has the bytes for the sum of its elements, no two share a
    byte, and no access leaves the array. *)
Theorem C125_nodes : forall small B n, 0 <= B < 2 ^ 64 -> 0 <= n <= 2 ^ 48 -> bound_size B + Z.log2 n <= 64 -> exists w,
  (forall i, 1 <= i <= n -> width_opt (bound_size B) i = Ok (w i) /\ forall h, 0 <= h -> (2 ^ h | i) -> B * 2 ^ h < 2 ^ (8 * w i)) /\
  nodes_apart n (bytes_opt small (bound_size B) n) (pos_opt small (bound_size B)) w.
Proof. exact nodes_ok. Qed.
Print Assumptions C125_nodes.
Example C125_nodes_case : bound_size 64 + Z.log2 (2 ^ 40) <= 64 /\
  map (pos_opt true (bound_size 64)) [1; 2; 3; 4; 5; 2 ^ 19; 2 ^ 19 + 1] = [0; 1; 2; 3; 5; 658424; 658433] /\
  map (pos_opt false (bound_size 64)) [2 ^ 19; 2 ^ 19 + 1] = [658424; 658432] /\
  map (width_opt (bound_size 64)) [1; 2; 4; 2 ^ 19] = [Ok 1; Ok 1; Ok 2; Ok 4] /\ bytes_opt true (bound_size 64) (2 ^ 19) = 658441.
Proof. vm_compute. repeat split; intros; discriminate. Qed.

(** What the option costs, exactly. *)
Theorem C125_cost : forall B n, 0 <= B < 2 ^ 64 -> 0 <= n <= 2 ^ 48 -> bound_size B + Z.log2 n <= 64 ->
  bytes_opt true (bound_size B) n - bytes_opt false (bound_size B) n =
    if 32 <=? bound_size B then 0 else n / 2 ^ (18 + (64 - bound_size B) mod 8) - n / 2 ^ (28 + (64 - bound_size B) mod 8).
Proof. exact holes_cost. Qed.
Print Assumptions C125_cost.
Example C125_cost_case : bytes_opt true (bound_size 64) (2 ^ 30) - bytes_opt false (bound_size 64) (2 ^ 30) = 2 ^ 11 - 2.
Proof. vm_compute. reflexivity. Qed.

(** Without the option the positions are those of the other claims on ByteF. *)
Theorem C125_same : forall bs n, pos_opt false bs n = bytef_pos bs n /\ forall B, bytes_opt false (bound_size B) n = f_bytes ByteF B n.
Proof. exact opt_same. Qed.
Print Assumptions C125_same.
