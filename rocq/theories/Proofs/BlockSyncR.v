(* Runs of BlockStream: invariants over whole bit histories, block-wise operation, lock-on. *)
From Verif.Model Require Import Base Util Group BlockSync.
From Verif.Spec Require Import RdsCode RdsStream.
From Verif.Proofs Require Import Tac Syndrome Ring BlockSyncP.

Lemma recognise_settle : forall e o, boundary_offset e -> boundary_offset (following (settle e o)).
Proof. intros [] [] H; cbn in *; intuition discriminate. Qed.

Lemma following_boundary : forall o, boundary_offset (following o).
Proof. intros []; cbn; auto 10. Qed.

Lemma sync_step_inv : forall fec e r g w e' r' g' gs, rs_wf r ->
  sync_step fec (e, r, g) w = (Some (e', r', g'), gs) ->
  rs_wf r' /\ rs_getSum r' <= 42 /\ boundary_offset e' /\ (e' = OffA -> g' = Group_default) /\
  r' = rs_push r (flag (negb (Offset_eqb (recognise w) (settle e (recognise w))))) /\
  e' = following (settle e (recognise w)).
Proof.
  intros fec e r g w e' r' g' gs W H. unfold sync_step in H.
  destruct (42 <? rs_getSum (rs_push r (flag (negb (Offset_eqb (recognise w) (settle e (recognise w))))))) eqn:L;
    [discriminate H|].
  apply N.ltb_ge in L.
  destruct (Offset_eqb (following (settle e (recognise w))) OffA) eqn:FA.
  - apply Offset_eqb_eq in FA. injection H as <- <- <- <-.
    repeat split; try assumption; try (apply rs_push_wf; exact W); try (cbn; auto; fail);
    try (symmetry; exact FA).
  - injection H as <- <- <- <-.
    repeat split; try assumption; try (apply rs_push_wf; exact W); try apply following_boundary;
    try (intros E; rewrite E in FA; discriminate FA).
Qed.

Lemma acquire_unsynced : forall s o, bst_is_in_sync s = false ->
  bst_is_in_sync (acquireSync s o) = false ->
  bst_error_sum50 (acquireSync s o) = bst_error_sum50 s /\
  bst_use_fec (acquireSync s o) = bst_use_fec s /\
  bst_input_register (acquireSync s o) = bst_input_register s /\
  bst_bitcount (acquireSync s o) = bst_bitcount s /\
  bst_sync_buffer (acquireSync s o) =
    (if Offset_eqb o OffInvalid then bst_sync_buffer s
     else sb_push (bst_sync_buffer s) o (bst_bitcount s)) /\
  bst_has_group_ready (acquireSync s o) = bst_has_group_ready s.
Proof.
  intros s o H0 H1. unfold acquireSync in *. rewrite H0 in *.
  destruct (Offset_eqb o OffInvalid); cbn [negb] in *; [repeat split|].
  destruct (isSequenceFound _); [discriminate H1|]. repeat split.
Qed.

Lemma step_inv : forall s bits b s' og, Inv s -> reg_hist s bits -> bst_step s b = (s', og) ->
  Inv s' /\ reg_hist s' (bits ++ [b]) /\ bst_use_fec s' = bst_use_fec s.
Proof.
  intros s bits b s' og I RH H.
  pose proof (bst_step_kind s bits b s' og I RH H) as K.
  pose proof (reg_hist_shifted s bits b RH) as [RH1 RH2].
  destruct I as [Iwf Isync Iun Iready].
  destruct K
    as [Hu Hs|s1 Hs E1 Hn|s1 st gs s' Hs E1 Hn SS IS' U' ST FE RE BC SB HR
       |st gs s' Hs U0 SS IS' U' ST FE RE BC SB HR|s' Hs U0 SS IS' U' RA FE RE BC SB HR].
  - destruct (Isync Hs) as (U & V1 & V2 & V3).
    split; [constructor|split; [split; assumption|reflexivity]].
    + exact Iwf.
    + intros _. cbn [shifted bst_num_bits_until_next_block bst_expected_offset bst_error_sum50 bst_current_group].
      rewrite until_dec by lia. split; [lia|]. auto.
    + cbn [shifted bst_is_in_sync]. congruence.
    + exact Iready.
  - subst s1. destruct (acquire_unsynced (shifted s b) _ Hs Hn) as (Q1 & Q2 & Q3 & Q4 & Q5 & Q6).
    destruct (Iun Hs) as (_ & RA).
    split; [constructor|split; [split|]]; cbn [bst_set_until bst_error_sum50 bst_is_in_sync
      bst_num_bits_until_next_block bst_has_group_ready bst_input_register bst_bitcount bst_use_fec].
    + rewrite Q1. exact Iwf.
    + congruence.
    + intros _. rewrite Q1. split; [reflexivity|exact RA].
    + rewrite Q6. exact Iready.
    + rewrite Q3. exact RH1.
    + rewrite Q4. exact RH2.
    + rewrite Q2. reflexivity.
  - destruct st as [[e r] g]. injection ST as X1 X2 X3.
    destruct (sync_step_inv _ _ _ _ _ _ _ _ _ Iwf SS) as (V1 & V2 & V3 & V4 & _ & _).
    split; [constructor|split; [split|]]; try congruence.
    intros _. rewrite U', X1, X2, X3. repeat split; try assumption; lia.
  - destruct st as [[e r] g]. injection ST as X1 X2 X3.
    destruct (sync_step_inv _ _ _ _ _ _ _ _ _ Iwf SS) as (V1 & V2 & V3 & V4 & _ & _).
    split; [constructor|split; [split|]]; try congruence.
    intros _. rewrite U', X1, X2, X3. repeat split; try assumption; lia.
  - split; [constructor|split; [split|]]; try congruence; try apply RA.
    intros _. split; assumption.
Qed.

Lemma bst_run_app : forall l m s, bst_run s (l ++ m) =
  let '(s1, g1) := bst_run s l in let '(s2, g2) := bst_run s1 m in (s2, g1 ++ g2).
Proof.
  induction l as [|b l IH]; intros m s; cbn [app bst_run].
  - destruct (bst_run s m); reflexivity.
  - destruct (bst_step s b) as [s1 og]. rewrite IH.
    destruct (bst_run s1 l) as [s2 g2]. destruct (bst_run s2 m) as [s3 g3].
    destruct og; reflexivity.
Qed.

Lemma bst_run_one : forall s b, bst_run s [b] =
  let '(s', og) := bst_step s b in (s', match og with Some g => [g] | None => [] end).
Proof. intros s b. cbn. destruct (bst_step s b) as [s' []]; reflexivity. Qed.

Lemma run_inv : forall bits2 s bits s' gs, Inv s -> reg_hist s bits -> bst_run s bits2 = (s', gs) ->
  Inv s' /\ reg_hist s' (bits ++ bits2) /\ bst_use_fec s' = bst_use_fec s.
Proof.
  induction bits2 as [|b l IH]; intros s bits s' gs I RH H; cbn [bst_run] in H.
  - injection H as <- <-. rewrite app_nil_r. auto.
  - destruct (bst_step s b) as [s1 og] eqn:S. destruct (bst_run s1 l) as [s2 g2] eqn:R.
    injection H as <- <-.
    destruct (step_inv s bits b s1 og I RH S) as (I1 & RH1 & F1).
    destruct (IH s1 (bits ++ [b]) s2 g2 I1 RH1 R) as (I2 & RH2 & F2).
    rewrite <- app_assoc in RH2. rewrite F2. auto.
Qed.

Lemma run_reachable : forall fec bits s gs, bst_run (BlockStream_init fec) bits = (s, gs) ->
  Inv s /\ reg_hist s bits /\ bst_use_fec s = fec.
Proof.
  intros fec bits s gs H.
  apply (run_inv bits (BlockStream_init fec) [] s gs (Inv_init fec) (reg_hist_init fec) H).
Qed.

(* --- block-wise operation while synchronised --- *)

(* In the middle of a block nothing happens but shifting. *)
Lemma run_mid : forall l s bits, Inv s -> reg_hist s bits -> bst_is_in_sync s = true ->
  N.of_nat (length l) < bst_num_bits_until_next_block s ->
  exists s', bst_run s l = (s', []) /\ bst_is_in_sync s' = true /\
    bst_num_bits_until_next_block s' = bst_num_bits_until_next_block s - N.of_nat (length l) /\
    bst_expected_offset s' = bst_expected_offset s /\ bst_error_sum50 s' = bst_error_sum50 s /\
    bst_current_group s' = bst_current_group s /\ bst_sync_buffer s' = bst_sync_buffer s.
Proof.
  induction l as [|b l IH]; intros s bits I RH HS HL.
  - exists s. cbn. repeat split; try assumption; lia.
  - cbn [length] in HL. cbn [bst_run].
    destruct (bst_step s b) as [s1 og] eqn:S.
    pose proof (bst_step_kind s bits b s1 og I RH S) as K.
    destruct (step_inv s bits b s1 og I RH S) as (I1 & RH1 & F1).
    inversion K; subst; try congruence; try lia.
    destruct (inv_sync s I HS) as (U & _).
    assert (UU : bst_num_bits_until_next_block (shifted s b) = bst_num_bits_until_next_block s - 1).
    { cbn. apply until_dec; lia. }
    assert (HL2 : N.of_nat (length l) < bst_num_bits_until_next_block (shifted s b)). { rewrite UU. lia. }
    destruct (IH (shifted s b) (bits ++ [b]) I1 RH1 HS HL2) as (s' & R & Q).
    exists s'. rewrite R. split; [reflexivity|].
    destruct Q as (Q1 & Q2 & Q3 & Q4 & Q5 & Q6). rewrite Q2, Q3, Q4, Q5, Q6, UU.
    repeat split; try assumption. cbn [length]. lia.
Qed.

(* At a block boundary, in sync. *)
Definition at_boundary (s : BlockStream) (bits : list bool) : Prop :=
  Inv s /\ reg_hist s bits /\ bst_is_in_sync s = true /\ bst_num_bits_until_next_block s = 26.

Definition st_of (s : BlockStream) := (bst_expected_offset s, bst_error_sum50 s, bst_current_group s).

Lemma run_block : forall s bits w, at_boundary s bits -> w < 2 ^ 26 ->
  match sync_step (bst_use_fec s) (st_of s) w with
  | (Some st, gs) => exists s', bst_run s (block_bits w) = (s', gs) /\
      at_boundary s' (bits ++ block_bits w) /\ st_of s' = st /\ bst_use_fec s' = bst_use_fec s
  | (None, _) => exists s', bst_run s (block_bits w) = (s', []) /\ bst_is_in_sync s' = false /\
      Inv s' /\ reg_hist s' (bits ++ block_bits w) /\ bst_use_fec s' = bst_use_fec s
  end.
Proof.
  intros s bits w (I & RH & HS & HU) Hw.
  assert (SP : exists l b, block_bits w = l ++ [b] /\ length l = 25%nat).
  { pose proof (block_bits_length w) as L.
    destruct (block_bits w) as [|x l] using rev_ind; [discriminate L|].
    exists l, x. split; [reflexivity|]. rewrite app_length in L. cbn in L. lia. }
  destruct SP as (l & b & E & L).
  destruct (run_mid l s bits I RH HS ltac:(rewrite HU, L; lia)) as (s1 & R & Q1 & Q2 & Q3 & Q4 & Q5 & Q6).
  destruct (run_inv l s bits s1 [] I RH R) as (I1 & RH1 & F1).
  destruct (bst_step s1 b) as [s2 og] eqn:S.
  destruct (step_inv s1 (bits ++ l) b s2 og I1 RH1 S) as (I2 & RH2 & F2).
  pose proof (bst_step_kind s1 (bits ++ l) b s2 og I1 RH1 S) as K.
  assert (WE : window ((bits ++ l) ++ [b]) = w).
  { rewrite <- app_assoc, <- E. apply window_app_block. exact Hw. }
  assert (RUN : bst_run s (block_bits w) = (s2, match og with Some g => [g] | None => [] end)).
  { rewrite E, bst_run_app, R, bst_run_one, S. destruct og; reflexivity. }
  assert (BE : (bits ++ l) ++ [b] = bits ++ block_bits w) by (rewrite E, app_assoc; reflexivity).
  rewrite BE in RH2. unfold st_of. rewrite <- Q3, <- Q4, <- Q5, <- F1.
  assert (U1 : bst_num_bits_until_next_block s1 = 1) by (rewrite Q2, HU, L; lia).
  destruct K
    as [Hu Hs|s3 Hs E1 Hn|s3 st gs s' Hs E1 Hn SS IS' U' ST FE RE BC SB HR
       |st gs s' Hs U0 SS IS' U' ST FE RE BC SB HR|s' Hs U0 SS IS' U' RA FE RE BC SB HR];
    try congruence; try lia.
  - rewrite WE in SS. rewrite SS. exists s'. split.
    + rewrite RUN. f_equal. destruct (sync_step_gs _ _ _ _ _ SS) as [->|[g ->]]; reflexivity.
    + split; [|split; [exact ST|rewrite F2; reflexivity]].
      split; [exact I2|]. split; [exact RH2|]. split; assumption.
  - rewrite WE in SS. rewrite SS. exists s'. split; [exact RUN|]. auto.
Qed.
