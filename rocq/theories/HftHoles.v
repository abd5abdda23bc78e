(** Model of the node positions of ByteF with and without HFT_DISABLE_TRANSHUGE. *)
From Verif Require Import Base Hft.

(** ByteF::holes, fenwick/bytef.hpp lines 104-115.  [small]: HFT_DISABLE_TRANSHUGE. *)
Definition holes_opt (small : bool) (bs idx : Z) : Z :=
  if 32 <=? bs then 0 else Z.shiftr idx ((if small then 18 else 28) + (64 - bs) mod 8).

(** ByteF::pos, lines 117-128. *)
Definition pos_opt (small : bool) (bs idx : Z) : Z :=
  let idx := u64 (idx - 1) in
  let nextbyte := Z.lor (bs - 1) 7 + 1 in
  let one := Z.shiftr (bs - 1) 3 + 1 in
  let medium := nextbyte - bs + 1 in
  let large := medium + 8 in
  let multiplier := u64 (8 - one - 1) in
  u64 (idx * one + Z.shiftr idx medium + Z.shiftr idx large * multiplier + holes_opt small bs idx).

(** The array of the constructor, lines 25-26: pos(size + 1) + 8 bytes. *)
Definition bytes_opt (small : bool) (bs size : Z) : Z := u64 (pos_opt small bs (u64 (size + 1)) + 8).

(** ByteF::bytesize, line 102. *)
Definition width_opt (bs idx : Z) : res Z := let* h := rho idx in Ok (heightsize bs h).
