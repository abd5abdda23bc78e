(** Files of RankMPE32. *)
From Coq Require Import ZifyBool.
From Verif Require Import Base BaseFacts Mem MemFacts Words WordFacts NodeFacts Trees TreeBuild Spec KernelFacts SpecText SpecFile SpecFile32 MrRank MrRankFacts MrRankFacts2 MrSelect MrSelectFacts4 MrFile MrFileFacts MrFileFacts2 MrRank32 MrRank32Facts2 MrFile32Facts MrMpe MrMpe32.
Ltac Zify.zify_post_hook ::= Z.div_mod_to_equations.

Lemma get_bytes32_eq junk addr len f : 0 <= len < 2 ^ 32 - 128 -> get_bytes32 junk addr len f = get_bytes (fun k => u8 (junk k)) addr len f.
Proof. intros H. unfold get_bytes32, get_bytes, fresh_aligned_b32. rewrite (wrap_small 32 (len + 128)), (wrap_small 64 (len + 128)) by lia. reflexivity. Qed.

Definition mpeL32 (m : memory) (f : list Z) (r : rank_mpe) : Prop :=
  let a := int_field f 4 in let b := int_field f (8 + 4 * a) in
  mp_text_len r = int_field f 0 /\ mp_ranks_len r = a /\ mp_bits_len r = b /\
  intsP (m_junk_r m) (m_addr_r m) a (fun j => int_field f (8 + 4 * j)) (mp_ranks r) /\
  bytesP (fun k => u8 (m_junk_b m k)) (m_addr_b m) b (fun j => zn 0 f (12 + 4 * a + j)) (mp_bits r).

Lemma load_mpe32_any m f : addresses_ok m -> text_ok f -> let a := int_field f 4 in let b := int_field f (8 + 4 * a) in a < 2 ^ 32 - 32 -> b < 2 ^ 32 - 128 ->
  if zlen f <? 12 + 4 * a + b then load_mpe32 m f = Ok Exits
  else exists r, load_mpe32 m f = Ok (Loaded r (drop (12 + 4 * a + b) f)) /\ mpeL32 m f r.
Proof.
  intros (A1 & A2 & A3 & A4) F a b Ha Hb. pose proof (int_bound f 4 F) as Ba. pose proof (int_bound f (8 + 4 * a) F) as Bb. fold a in Ba. fold b in Bb.
  unfold load_mpe32. pose proof (get32_at f 0 ltac:(lia)) as G0. change (drop 0 f) with f in G0. rewrite G0. clear G0. change (0 + 4) with 4.
  destruct (4 <=? zlen f) eqn:E1; cbn [andthen]; [|replace (zlen f <? 12 + 4 * a + b) with true by lia; reflexivity].
  rewrite get32_at by lia. change (4 + 4) with 8. fold a.
  destruct (8 <=? zlen f) eqn:E2; cbn [andthen]; [|replace (zlen f <? 12 + 4 * a + b) with true by lia; reflexivity].
  pose proof (get_ints_at (m_junk_r m) (m_addr_r m) a f 8 ltac:(lia) ltac:(lia) A2) as G1.
  destruct (8 + 4 * a <=? zlen f) eqn:E3; [|rewrite G1; cbn [bind andthen]; replace (zlen f <? 12 + 4 * a + b) with true by lia; reflexivity].
  destruct G1 as (x & -> & W1). cbn [bind andthen]. rewrite get32_at by lia. fold b.
  destruct (8 + 4 * a + 4 <=? zlen f) eqn:E4; cbn [andthen]; [|replace (zlen f <? 12 + 4 * a + b) with true by lia; reflexivity].
  rewrite get_bytes32_eq by lia. pose proof (get_bytes_at (fun k => u8 (m_junk_b m k)) (m_addr_b m) b f (8 + 4 * a + 4) ltac:(lia) ltac:(lia)) as G2.
  destruct (8 + 4 * a + 4 + b <=? zlen f) eqn:E5; [|rewrite G2; cbn [bind andthen]; replace (zlen f <? 12 + 4 * a + b) with true by lia; reflexivity].
  destruct G2 as (y & -> & W2). cbn [bind andthen]. replace (zlen f <? 12 + 4 * a + b) with false by lia.
  replace (12 + 4 * a + b) with (8 + 4 * a + 4 + b) by lia. eexists. split; [reflexivity|]. unfold mpeL32. fold a. fold b. cbn [mp_ranks mp_bits mp_ranks_len mp_bits_len mp_text_len].
  split; [reflexivity|]. split; [reflexivity|]. split; [reflexivity|]. split; [exact W1|]. replace (12 + 4 * a) with (8 + 4 * a + 4) by lia. exact W2.
Qed.

Lemma save_mpe32_ok r : 0 <= mp_ranks_len r -> mp_ranks_len r <= zlen (mp_ranks r) -> 0 <= mp_bits_len r -> mp_bits_len r <= zlen (mp_bits r) ->
  save_mpe32 r = Ok (put32 (mp_text_len r) ++ put32 (mp_ranks_len r) ++ flat_map put32 (prefix (mp_ranks r) (mp_ranks_len r)) ++ put32 (mp_bits_len r) ++ prefix (mp_bits r) (mp_bits_len r)).
Proof.
  intros. unfold save_mpe32. destruct (mp_ranks_len r >? 0) eqn:E1.
  - rewrite out_ints_ok by lia. cbn [bind]. destruct (mp_bits_len r >? 0) eqn:E2; [rewrite out_bytes_ok by lia; reflexivity|]. replace (mp_bits_len r) with 0 by lia. reflexivity.
  - replace (mp_ranks_len r) with 0 by lia. cbn [bind]. destruct (mp_bits_len r >? 0) eqn:E2; [rewrite out_bytes_ok by lia; reflexivity|]. replace (mp_bits_len r) with 0 by lia. reflexivity.
Qed.

Lemma cut_mpe32 m f k : addresses_ok m -> text_ok f -> let a := int_field f 4 in let b := int_field f (8 + 4 * a) in a < 2 ^ 32 - 32 -> b < 2 ^ 32 - 128 ->
  zlen f = 12 + 4 * a + b -> 0 <= k < zlen f -> load_mpe32 m (cut f k) = Ok Exits.
Proof.
  intros A F a b Ha Hb Hl Hk. pose proof (int_bound f 4 F) as Ba. fold a in Ba. pose proof (int_bound f (8 + 4 * a) F) as Bb. fold b in Bb.
  pose proof (cut_ok f k F) as F'. pose proof (int_bound _ 4 F') as Ba'. pose proof (int_cut_le f k 4 F ltac:(lia) ltac:(lia)) as La. fold a in La.
  assert (Lb : int_field (cut f k) (8 + 4 * int_field (cut f k) 4) <= b).
  { destruct (Z_le_gt_dec 8 k); [|rewrite int_cut_out by lia; lia]. replace (int_field (cut f k) 4) with a by (symmetry; apply int_cut_in; lia). apply int_cut_le; auto; lia. }
  pose proof (load_mpe32_any m (cut f k) A F' ltac:(lia) ltac:(lia)) as R. rewrite zlen_cut in R by lia.
  assert (C : k < 12 + 4 * int_field (cut f k) 4 + int_field (cut f k) (8 + 4 * int_field (cut f k) 4)).
  { pose proof (int_bound _ (8 + 4 * int_field (cut f k) 4) F') as Bb'. destruct (Z_le_gt_dec 8 k); [|lia].
    replace (int_field (cut f k) 4) with a in * by (symmetry; apply int_cut_in; lia). destruct (Z_le_gt_dec (12 + 4 * a) k); [|lia]. rewrite int_cut_in by lia. fold b. lia. }
  replace (k <? 12 + _ + _) with true in R by lia. exact R.
Qed.

Definition sameM32 (m : memory) (r r' : rank_mpe) : Prop :=
  mp_text_len r' = mp_text_len r /\ mp_ranks_len r' = mp_ranks_len r /\ mp_bits_len r' = mp_bits_len r /\
  intsP (m_junk_r m) (m_addr_r m) (mp_ranks_len r) (fun j => zn 0 (mp_ranks r) j mod 2 ^ 32) (mp_ranks r') /\
  bytesP (fun k => u8 (m_junk_b m k)) (m_addr_b m) (mp_bits_len r) (zn 0 (mp_bits r)) (mp_bits r').

Lemma mpe_round32 m r : addresses_ok m -> 0 <= mp_text_len r < 2 ^ 32 ->
  0 <= mp_ranks_len r < 2 ^ 32 - 32 -> mp_ranks_len r <= zlen (mp_ranks r) -> 0 <= mp_bits_len r < 2 ^ 32 - 128 -> mp_bits_len r <= zlen (mp_bits r) -> text_ok (mp_bits r) ->
  exists f, save_mpe32 r = Ok f /\ zlen f = 12 + 4 * mp_ranks_len r + mp_bits_len r /\ text_ok f /\
    (forall rest, text_ok rest -> exists r', load_mpe32 m (f ++ rest) = Ok (Loaded r' rest) /\ sameM32 m r r') /\
    (forall k, 0 <= k < zlen f -> load_mpe32 m (cut f k) = Ok Exits).
Proof.
  intros A HT HR HR2 HB HB2 HO. rewrite save_mpe32_ok by lia. set (f := put32 (mp_text_len r) ++ _). exists f. split; [reflexivity|].
  pose proof (zlen_ints (prefix (mp_ranks r) (mp_ranks_len r))) as ZR. rewrite zlen_prefix in ZR by lia.
  assert (L : zlen f = 12 + 4 * mp_ranks_len r + mp_bits_len r). { unfold f. rewrite !zlen_app, !zlen_put32, zlen_prefix by lia. lia. }
  assert (F : text_ok f).
  { unfold f. repeat (apply Forall_app; split); try apply put32_ok; try apply ints_file_ok. apply Forall_forall. intros x Hx. apply in_map_iff in Hx. destruct Hx as (j & <- & _). apply tbyte. exact HO. }
  assert (E0 : forall g, int_field (f ++ g) 0 = mp_text_len r).
  { intros g. unfold f. rewrite <- app_assoc. rewrite int_put_any. apply Z.mod_small. lia. }
  assert (E4 : forall g, int_field (f ++ g) 4 = mp_ranks_len r).
  { intros g. unfold f. rewrite <- !app_assoc. change 4 with (zlen (put32 (mp_text_len r)) + 0) at 1. rewrite int_skip by lia. rewrite int_put_any. apply Z.mod_small. lia. }
  assert (EW : forall g k, 0 <= k < mp_ranks_len r -> int_field (f ++ g) (8 + 4 * k) = zn 0 (mp_ranks r) k mod 2 ^ 32).
  { intros g k Hk. unfold f. rewrite <- !app_assoc. replace (8 + 4 * k) with (zlen (put32 (mp_text_len r)) + (zlen (put32 (mp_ranks_len r)) + 4 * k)) by (rewrite !zlen_put32; lia).
    rewrite !int_skip by (rewrite ?zlen_put32; lia). rewrite int_words_any by (rewrite zlen_prefix; lia). rewrite zn_prefix by lia. reflexivity. }
  assert (EB : forall g, int_field (f ++ g) (8 + 4 * mp_ranks_len r) = mp_bits_len r).
  { intros g. unfold f. rewrite <- !app_assoc.
    replace (8 + 4 * mp_ranks_len r) with (zlen (put32 (mp_text_len r)) + (zlen (put32 (mp_ranks_len r)) + (zlen (flat_map put32 (prefix (mp_ranks r) (mp_ranks_len r))) + 0))) by (rewrite !zlen_put32, ZR; lia).
    rewrite !int_skip by (rewrite ?zlen_put32, ?ZR; lia). rewrite int_put_any. apply Z.mod_small. lia. }
  assert (EV : forall g k, 0 <= k < mp_bits_len r -> zn 0 (f ++ g) (12 + 4 * mp_ranks_len r + k) = zn 0 (mp_bits r) k).
  { intros g k Hk. unfold f. rewrite <- !app_assoc.
    replace (12 + 4 * mp_ranks_len r + k) with (zlen (put32 (mp_text_len r)) + (zlen (put32 (mp_ranks_len r)) + (zlen (flat_map put32 (prefix (mp_ranks r) (mp_ranks_len r))) + (zlen (put32 (mp_bits_len r)) + k)))) by (rewrite !zlen_put32, ZR; lia).
    rewrite !zn_skip by (rewrite ?zlen_put32, ?ZR; lia). rewrite zn_app_l by (rewrite zlen_prefix; lia). apply zn_prefix. lia. }
  clearbody f. split; [exact L|]. split; [exact F|]. split.
  - intros rest FR. assert (FF : text_ok (f ++ rest)) by (apply Forall_app; auto). pose proof (load_mpe32_any m (f ++ rest) A FF) as R. cbv zeta in R. rewrite E4, EB in R.
    specialize (R ltac:(lia) ltac:(lia)). rewrite zlen_app in R. pose proof (zlen_nonneg rest). replace (_ <? _) with false in R by lia. destruct R as (r' & R & B).
    exists r'. rewrite <- L, drop_app in R. split; [exact R|]. unfold mpeL32 in B. rewrite E0, E4, EB in B. destruct B as (B1 & B2 & B3 & B4 & B5).
    split; [exact B1|]. split; [exact B2|]. split; [exact B3|]. split; [eapply intsP_ext; [|exact B4]; cbv beta; auto|eapply bytesP_ext; [|exact B5]; cbv beta; auto].
  - intros k Hk. pose proof (E4 []) as E8'. pose proof (EB []) as EB'. rewrite app_nil_r in E8', EB'.
    apply cut_mpe32; auto; rewrite ?E8', ?EB'; lia.
Qed.
