(* What any delivered group contains, whatever was received (C10, C12, C13, C59). *)
From Verif.Model Require Import Base Util Group BlockSync.
From Verif.Spec Require Import RdsCode RdsStream Reception.
From Verif.Proofs Require Import Tac Syndrome Ring BlockSyncP BlockSyncR BlockSyncT BlockSyncD.

Lemma setBlock_block : forall g n b m,
  g_block (g_setBlock g n b) m = if blockNumber_eqb m n then b else g_block g m.
Proof.
  intros g n b m. unfold g_setBlock.
  assert (P : forall g t h m, g_block (g_put_type g t h) m = g_block g m) by (intros ? ? ? []; reflexivity).
  assert (Q : g_block (g_put_block g n b) m = if blockNumber_eqb m n then b else g_block g m).
  { destruct n, m; reflexivity. }
  destruct (g_has_type (g_put_block g n b)); [exact Q|].
  set (g1 := match n with BLOCK1 => _ | _ => _ end).
  assert (E : g_block g1 m = g_block (g_put_block g n b) m).
  { unfold g1. destruct n; try reflexivity.
    - destruct (gt_version _); apply P.
    - destruct (g_has_c_prime _ && _); [|reflexivity]. destruct (_ && _); [apply P|reflexivity]. }
  destruct (Offset_eqb (blk_offset b) OffCprime && g_has g1 BLOCK2); rewrite ?P, E; exact Q.
Qed.

(* Groups of a block stream never have has_c_prime_ or no_offsets_ set. *)
Definition plain (g : Group) : Prop := g_has_c_prime g = false /\ g_no_offsets g = false.

Lemma setBlock_plain : forall g n b, plain g -> plain (g_setBlock g n b).
Proof.
  intros g n b [H1 H2]. unfold g_setBlock, plain.
  destruct (g_has_type (g_put_block g n b)); [destruct n; auto|].
  set (g1 := match n with BLOCK1 => _ | _ => _ end).
  assert (E : g_has_c_prime g1 = false /\ g_no_offsets g1 = false).
  { unfold g1. destruct n; cbn; auto.
    - destruct (_ =? 0); cbn; auto.
    - rewrite H1. cbn. auto. }
  destruct (Offset_eqb (blk_offset b) OffCprime && g_has g1 BLOCK2); exact E.
Qed.

(* The type is that of block 2, and known only if block 2 was received. *)
Definition type_sound (g : Group) : Prop :=
  (g_has_type g = true -> g_has g BLOCK2 = true) /\
  (g_has g BLOCK2 = true -> g_type g = GroupType_of (getBits 5 (g_get g BLOCK2) 11)) /\
  (g_has_type g = true -> gt_version (g_type g) = VB -> g_has g BLOCK3 = true /\ blk_offset (g_b3 g) = OffCprime).

Lemma setBlock_type : forall g n b, plain g -> type_sound g -> blk_is_received b = true ->
  (n = BLOCK2 -> g_has g BLOCK2 = false) -> (blk_offset b = OffCprime <-> n = BLOCK3 /\ blk_offset b = OffCprime) ->
  (g_has g BLOCK3 = true -> n <> BLOCK3) -> (n = BLOCK2 -> g_has g BLOCK3 = false) ->
  type_sound (g_setBlock g n b).
Proof.
  intros g n b [P1 P2] (T1 & T2 & T3) R H2 HC H3 H23.
  unfold type_sound, g_setBlock, g_has, g_get, g_block in *.
  destruct n; cbn [g_put_block g_has_type g_b1 g_b2 g_b3 g_b4 g_type g_block].
  - destruct (g_has_type g) eqn:HT; cbn; [auto|].
    destruct (Offset_eqb (blk_offset b) OffCprime) eqn:OC; cbn; [|rewrite ?HT; split; [congruence|]; split; [auto|congruence]].
    apply Offset_eqb_eq in OC. apply HC in OC. destruct OC as [X _]. discriminate X.
  - specialize (H2 eq_refl). specialize (H23 eq_refl).
    assert (HT : g_has_type g = false).
    { destruct (g_has_type g); [|reflexivity]. rewrite T1 in H2 by reflexivity. discriminate H2. }
    rewrite HT. destruct (Offset_eqb (blk_offset b) OffCprime) eqn:OC.
    { apply Offset_eqb_eq in OC. apply HC in OC. destruct OC as [X _]. discriminate X. }
    cbn [andb].
    destruct (gt_version (GroupType_of (getBits 5 (blk_data b) 11))) eqn:V;
      cbn -[GroupType_of getBits]; rewrite ?P1, ?P2; cbn -[GroupType_of getBits];
      (split; [congruence|]); (split; [reflexivity|]); congruence.
  - destruct (g_has_type g) eqn:HT; cbn.
    + split; [auto|]. split; [auto|].
      intros _ VB'. destruct (T3 eq_refl VB') as [X _]. exfalso. exact (H3 X eq_refl).
    + destruct (Offset_eqb (blk_offset b) OffCprime) eqn:OC; cbn.
      * destruct (blk_is_received (g_b2 g)) eqn:R2; cbn.
        -- split; [auto|]. split; [auto|]. intros _ _. split; [exact R|].
           apply Offset_eqb_eq. exact OC.
        -- rewrite ?HT, ?R2. repeat split; congruence.
      * rewrite ?HT. split; [congruence|]. split; [auto|congruence].
  - destruct (g_has_type g) eqn:HT; cbn; [auto|]. rewrite P1. cbn.
    destruct (Offset_eqb (blk_offset b) OffCprime) eqn:OC; cbn; [|rewrite ?HT; split; [congruence|]; split; [auto|congruence]].
    apply Offset_eqb_eq in OC. apply HC in OC. destruct OC as [X _]. discriminate X.
Qed.

(* The block received in word w, if any, when offset o is expected. *)
Lemma blk_of_sound : forall fec o w blk, w < 2 ^ 26 -> real_offset o -> blk_of fec o w = Some blk ->
  blk_is_received blk = true /\ blk_offset blk = o /\ blk_data blk < 2 ^ 16 /\
  exists e, fixable fec e /\ w = N.lxor (tx_block o (blk_data blk)) e /\ blk_had_errors blk = negb (e =? 0).
Proof.
  intros fec o w blk Hw Ho H. unfold blk_of in H.
  destruct (Offset_eqb (recognise w) o) eqn:R.
  - apply Offset_eqb_eq in R. injection H as <-. cbn [blk_is_received blk_offset blk_data blk_had_errors].
    split; [reflexivity|]. split; [reflexivity|]. split; [apply shiftr10_lt; exact Hw|].
    exists 0. split; [left; reflexivity|]. rewrite N.lxor_0_r. split; [|reflexivity].
    apply recognise_codeword; assumption.
  - destruct fec; [|discriminate H].
    destruct (correctBurstErrors w o) as [[] c] eqn:C; [|discriminate H].
    assert (B : blk = mkBlock w (N.shiftr c 10) true true o) by congruence. subst blk.
    cbn [blk_is_received blk_offset blk_data blk_had_errors].
    destruct (correct_sound o w c Hw C) as (e & d & He & _ & Hd & -> & E).
    rewrite tx_data by exact Hd.
    split; [reflexivity|]. split; [reflexivity|]. split; [exact Hd|].
    exists e. split; [right; split; [reflexivity|exact He]|]. split; [exact E|].
    pose proof (short_burst_nonzero e He) as NZ. apply N.eqb_neq in NZ. rewrite NZ. reflexivity.
Qed.

Lemma blk_of_complete : forall fec o w d e, real_offset o -> d < 2 ^ 16 -> fixable fec e ->
  w = N.lxor (tx_block o d) e -> blk_of fec o w <> None.
Proof.
  intros fec o w d e Ho Hd HX -> H. unfold blk_of in H.
  destruct (Offset_eqb (recognise (N.lxor (tx_block o d) e)) o) eqn:R; [discriminate H|].
  destruct HX as [->|[-> He]].
  - rewrite N.lxor_0_r, recognise_tx, Offset_eqb_refl in R by assumption. discriminate R.
  - rewrite correct_exact in H by assumption. discriminate H.
Qed.

Definition blocks_of (fec : bool) (w1 w2 w3 w4 : N) : Group :=
  let o3 := settle OffC (recognise w3) in
  put_opt (put_opt (put_opt (put_opt Group_default BLOCK1 (blk_of fec OffA w1))
    BLOCK2 (blk_of fec OffB w2)) BLOCK3 (blk_of fec o3 w3)) BLOCK4 (blk_of fec OffD w4).

Lemma settleC : forall x, settle OffC x = OffC \/ settle OffC x = OffCprime.
Proof. intros []; cbn; auto. Qed.

Lemma four_words : forall fec r w1 w2 w3 w4 st gs,
  sync_steps fec (OffA, r, Group_default) [w1; w2; w3; w4] = (Some st, gs) ->
  gs = [blocks_of fec w1 w2 w3 w4] /\ exists r', st = (OffA, r', Group_default).
Proof.
  intros fec r w1 w2 w3 w4 st gs H. cbn [sync_steps] in H. unfold sync_step in H.
  destruct (42 <? _) eqn:L1 in H; [discriminate H|].
  change (settle OffA (recognise w1)) with OffA in H. cbn [following Offset_eqb] in H.
  destruct (42 <? _) eqn:L2 in H; [discriminate H|].
  change (settle OffB (recognise w2)) with OffB in H. cbn [following Offset_eqb] in H.
  destruct (42 <? _) eqn:L3 in H; [discriminate H|].
  replace (following (settle OffC (recognise w3))) with OffD in H by (destruct (recognise w3); reflexivity).
  replace (getBlockNumberForOffset (settle OffC (recognise w3))) with BLOCK3 in H by (destruct (recognise w3); reflexivity).
  cbn [Offset_eqb] in H.
  destruct (42 <? _) eqn:L4 in H; [discriminate H|].
  change (settle OffD (recognise w4)) with OffD in H. cbn [following Offset_eqb getBlockNumberForOffset app] in H.
  injection H as <- <-. split; [reflexivity|eauto].
Qed.

Lemma put_opt_block : forall g n ob m, g_block (put_opt g n ob) m =
  if blockNumber_eqb m n then match ob with Some b => b | None => g_block g m end else g_block g m.
Proof.
  intros g n [b|] m; cbn [put_opt].
  - apply setBlock_block.
  - destruct (blockNumber_eqb m n); reflexivity.
Qed.

Lemma put_opt_plain : forall g n ob, plain g -> plain (put_opt g n ob).
Proof. intros g n [b|] H; cbn; [apply setBlock_plain|]; exact H. Qed.


Lemma blocks_of_block : forall fec w1 w2 w3 w4 n,
  g_block (blocks_of fec w1 w2 w3 w4) n =
  match blk_of fec (own_offset w3 n) (word_of w1 w2 w3 w4 n) with Some b => b | None => Block_default end.
Proof.
  intros fec w1 w2 w3 w4 n. unfold blocks_of. rewrite !put_opt_block. destruct n; reflexivity.
Qed.

Lemma own_offset_real : forall w3 n, real_offset (own_offset w3 n).
Proof.
  intros w3 n. unfold real_offset. destruct n; cbn [own_offset]; try discriminate.
  destruct (settleC (recognise w3)) as [E|E]; rewrite E; discriminate.
Qed.

Lemma blocks_of_type : forall fec w1 w2 w3 w4, w1 < 2 ^ 26 -> w2 < 2 ^ 26 -> w3 < 2 ^ 26 -> w4 < 2 ^ 26 ->
  type_sound (blocks_of fec w1 w2 w3 w4).
Proof.
  intros fec w1 w2 w3 w4 H1 H2 H3 H4. unfold blocks_of.
  assert (T0 : type_sound Group_default).
  { split; [discriminate|]. split; [discriminate|discriminate]. }
  assert (P0 : plain Group_default) by (split; reflexivity).
  set (o3 := settle OffC (recognise w3)).
  assert (R3 : real_offset o3) by (exact (own_offset_real w3 BLOCK3)).
  set (g1 := put_opt Group_default BLOCK1 (blk_of fec OffA w1)).
  assert (T1 : type_sound g1 /\ plain g1 /\ g_has g1 BLOCK2 = false /\ g_has g1 BLOCK3 = false).
  { split; [|split; [apply put_opt_plain; exact P0|]].
    - unfold g1. destruct (blk_of fec OffA w1) as [b|] eqn:B; [|exact T0]. cbn [put_opt].
      destruct (blk_of_sound fec OffA w1 b H1 ltac:(discriminate) B) as (X1 & X2 & _).
      apply setBlock_type; try assumption; try discriminate.
      rewrite X2. split; [discriminate|intros [Y _]; discriminate Y].
    - unfold g_has. unfold g1. rewrite !put_opt_block. split; reflexivity. }
  destruct T1 as (T1 & P1 & N12 & N13). clearbody g1.
  set (g2 := put_opt g1 BLOCK2 (blk_of fec OffB w2)).
  assert (T2 : type_sound g2 /\ plain g2 /\ g_has g2 BLOCK3 = false).
  { split; [|split; [apply put_opt_plain; exact P1|]].
    - unfold g2. destruct (blk_of fec OffB w2) as [b|] eqn:B; [|exact T1]. cbn [put_opt].
      destruct (blk_of_sound fec OffB w2 b H2 ltac:(discriminate) B) as (X1 & X2 & _).
      apply setBlock_type; try assumption; try discriminate; auto.
      rewrite X2. split; [discriminate|intros [Y _]; discriminate Y].
    - unfold g_has. unfold g2. rewrite !put_opt_block. exact N13. }
  destruct T2 as (T2 & P2 & N23). clearbody g2.
  set (g3 := put_opt g2 BLOCK3 (blk_of fec o3 w3)).
  assert (T3 : type_sound g3 /\ plain g3).
  { split; [|apply put_opt_plain; exact P2].
    unfold g3. destruct (blk_of fec o3 w3) as [b|] eqn:B; [|exact T2]. cbn [put_opt].
    destruct (blk_of_sound fec o3 w3 b H3 R3 B) as (X1 & X2 & _).
    apply setBlock_type; try assumption; try discriminate.
    - split; [auto|tauto].
    - rewrite N23. discriminate. }
  destruct T3 as (T3 & P3). clearbody g3.
  destruct (blk_of fec OffD w4) as [b|] eqn:B; [|exact T3]. cbn [put_opt].
  destruct (blk_of_sound fec OffD w4 b H4 ltac:(discriminate) B) as (X1 & X2 & _).
  apply setBlock_type; try assumption; try discriminate.
  rewrite X2. split; [discriminate|intros [Y _]; discriminate Y].
Qed.

(* --- number of groups --- *)

Lemma sync_steps_count : forall ws fec r st gs,
  sync_steps fec (OffA, r, Group_default) ws = (Some st, gs) ->
  N.of_nat (length gs) = N.of_nat (length ws) / 4.
Proof.
  intros ws. remember (length ws) as n eqn:L. revert ws L.
  induction n as [n IH] using (well_founded_induction lt_wf). intros ws L fec r st gs H.
  assert (ONE : forall e r g w st gs, In e [OffA; OffB; OffC] -> sync_step fec (e, r, g) w = (Some st, gs) ->
     gs = [] /\ fst (fst st) = following e).
  { intros e r0 g w st0 gs0 He HS. unfold sync_step in HS. destruct (42 <? _); [discriminate HS|].
    destruct He as [<-|[<-|[<-|[]]]]; cbn in HS.
    - injection HS as <- <-. auto.
    - injection HS as <- <-. auto.
    - destruct (recognise w); cbn in HS; injection HS as <- <-; auto. }
  destruct ws as [|w1 [|w2 [|w3 [|w4 ws]]]].
  1-4: subst n; cbn [sync_steps length] in *.
  - injection H as _ <-. reflexivity.
  - destruct (sync_step fec _ w1) as [[[[e1 r1] g1]|] gs1] eqn:S1; [|discriminate H].
    apply ONE in S1; [|cbn; auto]. destruct S1 as [-> E1]. injection H as _ <-. reflexivity.
  - destruct (sync_step fec _ w1) as [[[[e1 r1] g1]|] gs1] eqn:S1; [|discriminate H].
    apply ONE in S1; [|cbn; auto]. destruct S1 as [-> E1]. cbn in E1. subst e1.
    destruct (sync_step fec _ w2) as [[[[e2 r2] g2]|] gs2] eqn:S2; [|discriminate H].
    apply ONE in S2; [|cbn; auto]. destruct S2 as [-> E2]. injection H as _ <-. reflexivity.
  - destruct (sync_step fec _ w1) as [[[[e1 r1] g1]|] gs1] eqn:S1; [|discriminate H].
    apply ONE in S1; [|cbn; auto]. destruct S1 as [-> E1]. cbn in E1. subst e1.
    destruct (sync_step fec _ w2) as [[[[e2 r2] g2]|] gs2] eqn:S2; [|discriminate H].
    apply ONE in S2; [|cbn; auto]. destruct S2 as [-> E2]. cbn in E2. subst e2.
    destruct (sync_step fec _ w3) as [[[[e3 r3] g3]|] gs3] eqn:S3; [|discriminate H].
    apply ONE in S3; [|cbn; auto]. destruct S3 as [-> E3]. injection H as _ <-. reflexivity.
  - change (w1 :: w2 :: w3 :: w4 :: ws) with ([w1; w2; w3; w4] ++ ws) in H.
    destruct (sync_steps_app fec [w1; w2; w3; w4] ws (OffA, r, Group_default)) as [A|A].
    2: { rewrite H in A. discriminate A. }
    rewrite A in H. clear A.
    destruct (sync_steps fec (OffA, r, Group_default) [w1; w2; w3; w4]) as [[st1|] gs1] eqn:S1; [|discriminate H].
    destruct (four_words _ _ _ _ _ _ _ _ S1) as (-> & r' & ->).
    destruct (sync_steps fec (OffA, r', Group_default) ws) as [o gs2] eqn:S2. injection H as -> <-.
    cbn [length app] in *.
    specialize (IH (length ws) ltac:(lia) ws eq_refl fec r' st gs2 S2). lia.
Qed.

(* Everything a synchronised receiver puts out after the start of a group. *)
Lemma synced_output : forall fec pre b ws0 ws l, acquires fec pre b ->
  Forall (fun w => w < 2 ^ 26) ws0 -> Forall (fun w => w < 2 ^ 26) ws -> (length l < 26)%nat ->
  let o := recognise (window (pre ++ [b])) in
  kept [false] (err_flags (following o) (ws0 ++ ws)) ->
  expect_after (following o) ws0 = OffA ->
  exists r st gs, sync_steps fec (OffA, r, Group_default) ws = (Some st, gs) /\
    groups_after fec (pre ++ [b] ++ flat_map block_bits ws0) (flat_map block_bits ws ++ l) = gs.
Proof.
  intros fec pre b ws0 ws l AQ HF HW HL o K EA.
  assert (K0 : kept [false] (err_flags (following o) ws0)).
  { replace (err_flags (following o) ws0)
      with (firstn (length ws0) (err_flags (following o) (ws0 ++ ws))).
    - apply kept_firstn. exact K.
    - rewrite <- err_flags_firstn, firstn_app, Nat.sub_diag, firstn_all. cbn. rewrite app_nil_r. reflexivity. }
  destruct (in_sync_blocks fec pre b ws0 AQ HF K0) as (AB & EX & RA). fold o in EX, RA.
  unfold groups_after.
  destruct (state_after_inv fec (pre ++ [b] ++ flat_map block_bits ws0)) as (_ & _ & FE).
  set (s := state_after fec (pre ++ [b] ++ flat_map block_bits ws0)) in *.
  rewrite EA in EX.
  pose proof (run_blocks ws s _ AB HW) as RB.
  destruct AB as (I & _ & Q & _). destruct (inv_sync _ I Q) as (_ & _ & _ & CG).
  specialize (CG EX).
  unfold st_of in RB. rewrite EX, CG, FE in RB.
  destruct (sync_steps_kept ws fec OffA (bst_error_sum50 s) Group_default
    ([false] ++ err_flags (following o) ws0) RA) as (g' & gs & r' & S & _).
  { intros k Hk. rewrite <- app_assoc.
    specialize (K (length ws0 + k)%nat). rewrite err_flags_app, EA in K.
    rewrite firstn_app, err_flags_length in K.
    replace (length ws0 + k - length ws0)%nat with k in K by lia.
    rewrite (firstn_all2 (err_flags (following o) ws0)) in K by (rewrite err_flags_length; lia).
    apply K. rewrite app_length, !err_flags_length in *. lia. }
  rewrite S in RB. destruct RB as (s' & R & (I' & RH' & Q' & U') & _).
  exists (bst_error_sum50 s), (expect_after OffA ws, r', g'), gs. split; [exact S|].
  rewrite bst_run_app, R.
  destruct (run_mid l s' _ I' RH' Q') as (s'' & R'' & _); [rewrite U'; lia|].
  rewrite R''. cbn [snd]. apply app_nil_r.
Qed.

Lemma group_every_104 : forall fec pre b ws0 ws l, acquires fec pre b ->
  Forall (fun w => w < 2 ^ 26) ws0 -> Forall (fun w => w < 2 ^ 26) ws -> (length l < 26)%nat ->
  let o := recognise (window (pre ++ [b])) in
  kept [false] (err_flags (following o) (ws0 ++ ws)) ->
  expect_after (following o) ws0 = OffA ->
  N.of_nat (length (groups_after fec (pre ++ [b] ++ flat_map block_bits ws0) (flat_map block_bits ws ++ l)))
  = N.of_nat (length (flat_map block_bits ws ++ l)) / 104.
Proof.
  intros fec pre b ws0 ws l AQ HF HW HL o K EA.
  destruct (synced_output fec pre b ws0 ws l AQ HF HW HL K EA) as (r & st & gs & S & ->).
  rewrite (sync_steps_count ws fec r st gs S).
  assert (L : length (flat_map block_bits ws) = (26 * length ws)%nat).
  { clear. induction ws as [|w ws IH]; [reflexivity|]. rewrite flat_map_cons, app_length, IH, block_bits_length.
    cbn [length]. lia. }
  rewrite app_length, L. lia.
Qed.

Lemma group_contents : forall fec pre b ws0 w1 w2 w3 w4, acquires fec pre b ->
  Forall (fun w => w < 2 ^ 26) ws0 -> Forall (fun w => w < 2 ^ 26) [w1; w2; w3; w4] ->
  let o := recognise (window (pre ++ [b])) in
  kept [false] (err_flags (following o) (ws0 ++ [w1; w2; w3; w4])) ->
  expect_after (following o) ws0 = OffA ->
  groups_after fec (pre ++ [b] ++ flat_map block_bits ws0) (flat_map block_bits [w1; w2; w3; w4]) =
  [blocks_of fec w1 w2 w3 w4].
Proof.
  intros fec pre b ws0 w1 w2 w3 w4 AQ HF HW o K EA.
  destruct (synced_output fec pre b ws0 _ [] AQ HF HW ltac:(cbn; lia) K EA) as (r & st & gs & S & E).
  rewrite app_nil_r in E. rewrite E.
  exact (proj1 (four_words _ _ _ _ _ _ _ _ S)).
Qed.

Lemma setBlock_keeps_type : forall g n b, g_has_type g = true -> g_has_type (g_setBlock g n b) = true.
Proof.
  intros g n b H. unfold g_setBlock.
  assert (E : g_has_type (g_put_block g n b) = true) by (destruct n; exact H).
  rewrite E. exact E.
Qed.

Lemma put_opt_keeps_type : forall g n ob, g_has_type g = true -> g_has_type (put_opt g n ob) = true.
Proof. intros g n [b|] H; cbn; [apply setBlock_keeps_type|]; exact H. Qed.

Lemma setBlock2_type : forall g b, plain g -> g_has_type g = false -> blk_offset b = OffB ->
  let t := GroupType_of (getBits 5 (blk_data b) 11) in
  g_type (g_setBlock g BLOCK2 b) = t /\
  g_has_type (g_setBlock g BLOCK2 b) = Version_eqb (gt_version t) VA.
Proof.
  intros g b [P1 P2] HT OB t. unfold g_setBlock. cbn [g_put_block g_has_type]. rewrite HT, OB.
  cbn [Offset_eqb andb]. fold t.
  destruct (gt_version t) eqn:V; cbn -[t]; rewrite ?P1, ?P2; split; reflexivity.
Qed.

Lemma setBlock3_type : forall g b, g_has_type g = false -> blk_offset b = OffCprime -> g_has g BLOCK2 = true ->
  gt_version (g_type g) = VB -> g_has_type (g_setBlock g BLOCK3 b) = true.
Proof.
  intros g b HT OC H2 V. unfold g_setBlock. cbn [g_put_block g_has_type]. rewrite HT, OC.
  cbn [Offset_eqb andb]. unfold g_has, g_block in *. cbn. rewrite H2. cbn. rewrite V. reflexivity.
Qed.

Lemma blocks_of_type_complete : forall fec w1 w2 w3 w4,
  w1 < 2 ^ 26 -> w2 < 2 ^ 26 -> w3 < 2 ^ 26 -> w4 < 2 ^ 26 ->
  let g := blocks_of fec w1 w2 w3 w4 in
  g_has g BLOCK2 = true ->
  (gt_version (g_type g) = VB -> g_has g BLOCK3 = true /\ blk_offset (g_b3 g) = OffCprime) ->
  g_has_type g = true.
Proof.
  intros fec w1 w2 w3 w4 H1 H2 H3 H4 g HB HV.
  destruct (blocks_of_type fec w1 w2 w3 w4 H1 H2 H3 H4) as (_ & TT & _). fold g in TT.
  specialize (TT HB).
  pose proof (blocks_of_block fec w1 w2 w3 w4 BLOCK2) as B2. fold g in B2. cbn [own_offset word_of g_block] in B2.
  pose proof (blocks_of_block fec w1 w2 w3 w4 BLOCK3) as B3. fold g in B3. cbn [own_offset word_of g_block] in B3.
  unfold g_has, g_get in *. cbn [g_block] in *.
  destruct (blk_of fec OffB w2) as [b2|] eqn:E2; [|rewrite B2 in HB; discriminate HB].
  destruct (blk_of_sound fec OffB w2 b2 H2 ltac:(discriminate) E2) as (X1 & X2 & _).
  rewrite B2 in TT.
  unfold g, blocks_of. apply put_opt_keeps_type.
  set (g1 := put_opt Group_default BLOCK1 (blk_of fec OffA w1)) in *.
  assert (T1 : plain g1 /\ g_has_type g1 = false).
  { split; [apply put_opt_plain; split; reflexivity|].
    unfold g1. destruct (blk_of fec OffA w1) as [b1|] eqn:E1; [|reflexivity].
    destruct (blk_of_sound fec OffA w1 b1 H1 ltac:(discriminate) E1) as (_ & Y2 & _).
    cbn. rewrite Y2. reflexivity. }
  destruct T1 as [P1 T1]. rewrite E2. cbn [put_opt].
  destruct (setBlock2_type g1 b2 P1 T1 X2) as [T2 T3].
  set (g2 := g_setBlock g1 BLOCK2 b2) in *.
  destruct (g_has_type g2) eqn:HT2; [apply put_opt_keeps_type; exact HT2|].
  assert (V : gt_version (g_type g) = VB).
  { rewrite TT. unfold GroupType_of in *. cbn [gt_version] in *. destruct (_ =? 0); [discriminate T3|reflexivity]. }
  destruct (HV V) as [R3 O3].
  destruct (blk_of fec (settle OffC (recognise w3)) w3) as [b3|]; [|rewrite B3 in R3; discriminate R3].
  cbn [put_opt]. apply setBlock3_type.
  - exact HT2.
  - rewrite <- B3. exact O3.
  - unfold g_has, g2. rewrite setBlock_block. cbn. exact X1.
  - rewrite T2, <- TT. exact V.
Qed.

(* The budget can be checked by computation. *)
Lemma kept_dec : forall h fl,
  forallb (fun k => count_true (lastn 50 (h ++ firstn k fl)) <=? 42) (seq 0 (S (length fl))) = true ->
  kept h fl.
Proof.
  intros h fl H k Hk. rewrite forallb_forall in H. apply N.leb_le. apply H. apply in_seq. lia.
Qed.

