(* Recovery of synchronisation from any state. *)
From Verif.Model Require Import Base Util Group BlockSync.
From Verif.Spec Require Import RdsCode RdsStream Reception Recovery.
From Verif.Proofs Require Import Tac Syndrome Ring BlockSyncP BlockSyncR BlockSyncT BlockSyncD BlockSyncA BlockSyncE.

(* --- the error window --- *)

Lemma rs_abs_any : forall r, rs_wf r -> exists h, rs_abs r h.
Proof.
  intros r W. exists (rot (N.to_nat (rs_pointer r)) (rs_history r)). split; [exact W|].
  destruct W as [L P]. unfold lastn. rewrite app_length, repeat_length, rot_length, L.
  change (50 + 50 - 50)%nat with 50%nat. rewrite skipn_app, repeat_length. cbn [Nat.sub]. rewrite skipn_all2 by (rewrite repeat_length; lia).
  reflexivity.
Qed.

Lemma push_good : forall r, rs_wf r -> rs_getSum (rs_push r 0) <= rs_getSum r.
Proof.
  intros r W. destruct (rs_abs_any r W) as (h & A).
  rewrite (rs_abs_lastn _ _ (rs_push_abs r h 0 A)), (rs_abs_lastn _ _ A).
  rewrite app_assoc, lastn_snoc by (try rewrite app_length, repeat_length; lia).
  rewrite fold_add_app. cbn [fold_left].
  destruct (lastn 50 (repeat 0 50 ++ h)) as [|x l]; cbn [tl fold_left]; [lia|].
  rewrite (fold_add_acc l (0 + x)). lia.
Qed.

Lemma sum_at_least : forall r h fs, rs_abs r (h ++ map flag fs) -> (length fs <= 50)%nat ->
  count_true fs <= rs_getSum r.
Proof.
  intros r h fs A L. rewrite (rs_abs_lastn _ _ A). rewrite app_assoc.
  unfold lastn. rewrite app_length, map_length.
  rewrite skipn_app.
  replace (length (repeat 0%N 50 ++ h) + length fs - 50 - length (repeat 0%N 50 ++ h))%nat with 0%nat by lia.
  cbn [skipn]. rewrite fold_add_app, sum_flags. lia.
Qed.

Section Recover.
Variables (fec : bool) (bits0 : list bool) (ws : list N) (off : nat -> Offset).
Hypothesis Hws : forall k, (k < length ws)%nat -> nth k ws 0 < 2 ^ 26 /\ recognise (nth k ws 0) = off k.
Hypothesis Hreal : forall k, real_offset (off k).
Hypothesis Hnext : forall k, slot (off (S k)) = following (off k).

Let all := bits0 ++ flat_map block_bits ws.
Let n0 := length bits0.
Let st (t : nat) := state_after fec (firstn t all).

Lemma blocks_length : forall l : list N, length (flat_map block_bits l) = (26 * length l)%nat.
Proof.
  induction l as [|w l IH]; [reflexivity|]. cbn [flat_map length]. rewrite app_length, block_bits_length, IH. lia.
Qed.

Lemma all_length : length all = (n0 + 26 * length ws)%nat.
Proof. unfold all, n0. rewrite app_length, blocks_length. reflexivity. Qed.

Lemma split_nth : forall (l : list N) k, (k < length l)%nat -> exists a b, l = a ++ nth k l 0 :: b /\ length a = k.
Proof.
  intros l k H. destruct (nth_split l 0 H) as (a & b & E & L). exists a, b. split; assumption.
Qed.

Lemma seen_aligned : forall k, (k < length ws)%nat -> seen_at all (n0 + 26 * S k) = off k.
Proof.
  intros k H. destruct (Hws k H) as [B R].
  destruct (split_nth ws k H) as (a & b & E & L).
  unfold seen_at, all. rewrite E, flat_map_app, flat_map_cons, !app_assoc.
  rewrite firstn_app_le by (rewrite !app_length, blocks_length, block_bits_length; unfold n0; lia).
  rewrite firstn_all2 by (rewrite !app_length, blocks_length, block_bits_length; unfold n0; lia).
  rewrite window_app_block by exact B. exact R.
Qed.

Lemma step_at : forall t, (t < length all)%nat -> exists b og,
  firstn (S t) all = firstn t all ++ [b] /\ length (firstn t all) = t /\
  step_kind (st t) (firstn t all) b (st (S t)) og /\ Inv (st t) /\ Inv (st (S t)).
Proof.
  intros t H. destruct (nth_split all false H) as (a & r & E & L).
  assert (F : firstn t all = a). { rewrite E, <- L. apply firstn_all_app. }
  assert (F' : firstn (S t) all = a ++ [nth t all false]).
  { rewrite E at 1. rewrite <- L. replace (a ++ nth (length a) all false :: r) with ((a ++ [nth (length a) all false]) ++ r)
      by (rewrite <- app_assoc; reflexivity).
    rewrite firstn_app_le by (rewrite app_length; cbn [length]; lia). apply firstn_all2. rewrite app_length. cbn [length]. lia. }
  set (b := nth t all false) in *. clearbody b.
  destruct (state_after_snoc fec a b) as (og & S1).
  exists b, og. unfold st. rewrite F', F.
  destruct (state_after_inv fec a) as (I & RH & _).
  destruct (state_after_inv fec (a ++ [b])) as (I' & _).
  repeat (split; [reflexivity || assumption|]).
  split; [|split; assumption].
  exact (bst_step_kind _ a b _ og I RH S1).
Qed.

Lemma seen_step : forall t b, firstn (S t) all = firstn t all ++ [b] ->
  recognise (window (firstn t all ++ [b])) = seen_at all (S t).
Proof. intros t b E. unfold seen_at. rewrite E. reflexivity. Qed.

(* --- in sync, and rightly so --- *)

Definition next_end (t : nat) : nat := (t + N.to_nat (bst_num_bits_until_next_block (st t)))%nat.
Definition right (t : nat) : Prop :=
  bst_is_in_sync (st t) = true /\
  exists k, next_end t = (n0 + 26 * S k)%nat /\ bst_expected_offset (st t) = slot (off k).

Lemma right_dec : forall t, (n0 <= t)%nat -> {right t} + {~ right t}.
Proof.
  intros t Ht. destruct (bst_is_in_sync (st t)) eqn:IS; [|right; intros [X _]; congruence].
  destruct (Nat.eq_dec ((next_end t - n0) mod 26)%nat 0) as [M|M].
  - destruct (Nat.eq_dec (next_end t - n0)%nat 0) as [Z|Z].
    { right. intros [_ (k & E & _)]. lia. }
    destruct (Offset_eqb (bst_expected_offset (st t)) (slot (off ((next_end t - n0) / 26 - 1)%nat))) eqn:EX.
    + left. split; [exact IS|]. exists ((next_end t - n0) / 26 - 1)%nat. split; [|apply Offset_eqb_eq; exact EX].
      pose proof (Nat.div_mod (next_end t - n0) 26 ltac:(lia)) as D. rewrite M in D.
      destruct ((next_end t - n0) / 26)%nat as [|q] eqn:Q; [lia|]. rewrite <- Nat.sub_succ_l by lia. lia.
    + right. intros [_ (k & E & X)]. rewrite E in EX. replace (n0 + 26 * S k - n0)%nat with (S k * 26)%nat in EX by lia.
      rewrite Nat.div_mul in EX by lia. replace (S k - 1)%nat with k in EX by lia. rewrite X, Offset_eqb_refl in EX. discriminate EX.
  - right. intros [_ (k & E & _)]. rewrite E in M. apply M. replace (n0 + 26 * S k - n0)%nat with (S k * 26)%nat by lia.
    apply Nat.mod_mul. lia.
Qed.

Lemma settle_slot : forall o, real_offset o -> settle (slot o) o = o.
Proof. intros [] H; reflexivity || (exfalso; apply H; reflexivity). Qed.

Lemma settle_hit : forall e o, boundary_offset e -> settle e o = o -> e = slot o.
Proof.
  intros e o B H. repeat (destruct B as [<-|B]; [destruct o; cbn in *; congruence|]). destruct B.
Qed.

Lemma settle_real : forall e o, boundary_offset e -> settle e o <> OffInvalid.
Proof. intros e o B. repeat (destruct B as [<-|B]; [destruct o; discriminate|]). destruct B. Qed.

Lemma sync_step_right : forall e r g w o, rs_wf r -> rs_getSum r <= 42 -> real_offset o -> recognise w = o -> e = slot o ->
  exists r' g' gs, sync_step fec (e, r, g) w = (Some (following o, r', g'), gs).
Proof.
  intros e r g w o W S Ho R ->. unfold sync_step. rewrite R, settle_slot, Offset_eqb_refl by exact Ho. cbn [negb flag].
  pose proof (push_good r W) as P. destruct (N.ltb_spec 42 (rs_getSum (rs_push r 0))); [lia|].
  destruct (Offset_eqb (following o) OffA) eqn:F; [|eauto].
  apply Offset_eqb_eq in F. rewrite F. eauto.
Qed.

Lemma next_mid : forall s b, 1 <= bst_num_bits_until_next_block s <= 26 ->
  bst_num_bits_until_next_block (shifted s b) = bst_num_bits_until_next_block s - 1.
Proof. intros s b H. cbn. apply until_dec; lia. Qed.

Lemma right_step : forall t, (t < length all)%nat -> right t -> right (S t).
Proof.
  intros t Ht [IS (k & NE & EX)].
  destruct (step_at t Ht) as (b & og & F & FL & K & I & I').
  pose proof (seen_step t b F) as SE.
  assert (FE : bst_use_fec (st t) = fec) by apply state_after_inv.
  destruct (inv_sync _ I IS) as (U & BO & SM & _).
  unfold next_end in NE.
  inversion K
    as [Hu Hs Es|s3 Hs E1 Hn|s3 st' gs s' Hs E1 Hn SS IS' U' ST FE' RE BC SB HR
       |st' gs s' Hs U0 SS IS' U' ST FE' RE BC SB HR|s' Hs U0 SS IS' U' RA FE' RE BC SB HR]; subst; try congruence.
  - unfold right, next_end. rewrite <- Es. split; [exact IS|]. exists k. rewrite next_mid by exact U. split; [lia|exact EX].
  - rewrite U0 in NE. change (N.to_nat 1) with 1%nat in NE.
    assert (LK : (k < length ws)%nat) by (rewrite all_length in Ht; lia).
    replace (S t) with (n0 + 26 * S k)%nat in SE by lia. rewrite (seen_aligned k LK) in SE.
    destruct (sync_step_right (bst_expected_offset (st t)) (bst_error_sum50 (st t)) (bst_current_group (st t)) (window (firstn t all ++ [b]))
                (off k) (inv_wf _ I) SM (Hreal k) SE EX) as (r' & g' & gs' & Q).
    unfold right, next_end.
    rewrite FE, Q in SS.
    split; [assumption|]. exists (S k). split.
    + replace (bst_num_bits_until_next_block (st (S t))) with 26. change (N.to_nat 26) with 26%nat. lia.
    + assert (X : bst_expected_offset (st (S t)) = following (off k)) by congruence. rewrite X. symmetry. apply Hnext.
  - exfalso. rewrite U0 in NE. change (N.to_nat 1) with 1%nat in NE.
    assert (LK : (k < length ws)%nat) by (rewrite all_length in Ht; lia).
    replace (S t) with (n0 + 26 * S k)%nat in SE by lia. rewrite (seen_aligned k LK) in SE.
    destruct (sync_step_right (bst_expected_offset (st t)) (bst_error_sum50 (st t)) (bst_current_group (st t)) (window (firstn t all ++ [b]))
                (off k) (inv_wf _ I) SM (Hreal k) SE EX) as (r' & g' & gs' & Q).
    rewrite FE, Q in SS. discriminate SS.
Qed.

Lemma right_stays : forall t t', (t <= t')%nat -> (t' <= length all)%nat -> right t -> right t'.
Proof.
  intros t t' H. induction H as [|t' H IH]; intros L R; [exact R|]. apply right_step; [lia|]. apply IH; [lia|exact R].
Qed.

(* --- chance blocks --- *)

Definition mis (t : nat) : bool :=
  match seen_at all t with OffInvalid => false | _ => negb ((t - n0) mod 26 =? 0)%nat end.
Definition chance (t : nat) : nat := length (filter mis (seq (S n0) (t - n0))).

Lemma chance_S : forall t, (n0 <= t)%nat -> chance (S t) = (chance t + if mis (S t) then 1 else 0)%nat.
Proof.
  intros t H. unfold chance. replace (S t - n0)%nat with (S (t - n0)) by lia.
  rewrite seq_S, filter_app, app_length. replace (S n0 + (t - n0))%nat with (S t) by lia.
  cbn [filter]. destruct (mis (S t)); reflexivity.
Qed.

Lemma chance_mono : forall t t', (n0 <= t)%nat -> (t <= t')%nat -> (chance t <= chance t')%nat.
Proof.
  intros t t' H0 H. induction H as [|t' H IH]; [lia|]. rewrite chance_S by lia. destruct (mis (S t')); lia.
Qed.

Lemma chance_between : forall lo hi, (n0 <= lo)%nat -> (lo < hi)%nat ->
  (forall t, (lo < t < hi)%nat -> between_blocks n0 t) ->
  (chance lo + length (phantoms all lo hi) <= chance hi)%nat.
Proof.
  intros lo hi H0 H B. unfold chance, phantoms.
  replace (hi - n0)%nat with ((lo - n0) + ((hi - S lo) + 1))%nat by lia.
  rewrite !seq_app, !filter_app, !app_length.
  replace (S n0 + (lo - n0))%nat with (S lo) by lia.
  rewrite (filter_ext_in (fun t => match recognise (window (firstn t all)) with OffInvalid => false | _ => true end) mis).
  - lia.
  - intros t Ht. apply in_seq in Ht. specialize (B t ltac:(lia)). unfold between_blocks in B. unfold mis, seen_at.
    apply Nat.eqb_neq in B. rewrite B. reflexivity.
Qed.

(* --- in sync, but wrongly --- *)

Hypothesis Hchance : (chance (length all) <= 7)%nat.

Definition count_false (l : list bool) : nat := length (filter negb l).

Lemma counts : forall l, length l = (N.to_nat (count_true l) + count_false l)%nat.
Proof.
  induction l as [|b l IH]; [reflexivity|]. unfold count_false in *. cbn [length count_true filter]. rewrite IH. destruct b; cbn [negb length]; lia.
Qed.

Lemma count_false_snoc : forall l b, count_false (l ++ [b]) = (count_false l + if b then 0 else 1)%nat.
Proof. intros l b. unfold count_false. rewrite filter_app, app_length. destruct b; reflexivity. Qed.

Lemma wrong_run : forall j, (n0 + j <= length all)%nat ->
  (forall t, (n0 <= t <= n0 + j)%nat -> bst_is_in_sync (st t) = true /\ ~ right t) ->
  exists h fs u0, rs_abs (bst_error_sum50 (st (n0 + j))) (h ++ map flag fs) /\
    (next_end (n0 + j) = n0 + u0 + 26 * length fs)%nat /\ (u0 <= 26)%nat /\
    (count_false fs <= chance (n0 + j))%nat /\ (length fs <= 42 + chance (n0 + j))%nat.
Proof.
  induction j as [|j IH]; intros L W.
  - destruct (W (n0 + 0)%nat ltac:(lia)) as [IS _].
    destruct (state_after_inv fec (firstn (n0 + 0) all)) as (I & _).
    destruct (inv_sync _ I IS) as (U & _).
    destruct (rs_abs_any _ (inv_wf _ I)) as (h & A).
    exists h, [], (N.to_nat (bst_num_bits_until_next_block (st (n0 + 0)))). rewrite app_nil_r.
    split; [exact A|]. unfold next_end, st in *. cbn [length]. repeat split; try lia. unfold count_false. cbn. lia.
  - assert (L' : (n0 + j <= length all)%nat) by lia.
    destruct (IH L' ltac:(intros t Ht; apply W; lia)) as (h & fs & u0 & A & NE & HU & CF & LF). clear IH.
    replace (n0 + S j)%nat with (S (n0 + j)) in * by lia. set (t := (n0 + j)%nat) in *.
    destruct (W t ltac:(lia)) as [IS NR]. destruct (W (S t) ltac:(lia)) as [IS1 _].
    destruct (step_at t ltac:(lia)) as (b & og & F & FL & K & I & I').
    pose proof (seen_step t b F) as SE.
    assert (FE : bst_use_fec (st t) = fec) by apply state_after_inv.
    destruct (inv_sync _ I IS) as (U & BO & SM & _).
    destruct (inv_sync _ I' IS1) as (_ & _ & SM1 & _).
    pose proof (chance_S t ltac:(lia)) as CS.
    assert (C7 : (chance (S t) <= 7)%nat) by (eapply Nat.le_trans; [apply chance_mono with (t' := length all); lia|exact Hchance]).
    inversion K
      as [Hu Hs Es|s3 Hs E1 Hn|s3 st' gs s' Hs E1 Hn SS IS' U' ST FE' RE BC SB HR
         |st' gs s' Hs U0 SS IS' U' ST FE' RE BC SB HR|s' Hs U0 SS IS' U' RA FE' RE BC SB HR]; try congruence.
    + exists h, fs, u0. unfold next_end in *. rewrite <- Es.
      split; [exact A|]. rewrite next_mid by exact U. repeat split; lia.
    + set (o := seen_at all (S t)) in *. set (w := window (firstn t all ++ [b])) in *.
      set (e := bst_expected_offset (st t)) in *.
      set (f := negb (Offset_eqb o (settle e o))).
      destruct st' as [[e1 r1] g1].
      destruct (sync_step_inv _ _ _ _ _ _ _ _ _ (inv_wf _ I) SS) as (_ & _ & _ & _ & R1 & E1).
      rewrite SE in R1, E1. fold f in R1.
      exists h, (fs ++ [f]), u0.
      assert (ER : bst_error_sum50 (st (S t)) = r1) by congruence.
      assert (A1 : rs_abs (bst_error_sum50 (st (S t))) (h ++ map flag (fs ++ [f]))).
      { rewrite ER, R1, map_app, app_assoc. apply rs_push_abs. exact A. }
      split; [exact A1|]. unfold next_end in *. rewrite app_length. cbn [length].
      rewrite U0 in NE. rewrite U'. change (N.to_nat 1) with 1%nat in NE. change (N.to_nat 26) with 26%nat.
      split; [lia|]. split; [exact HU|].
      assert (MF : f = false -> mis (S t) = true).
      { intros Hf. unfold f in Hf. apply negb_false_iff, Offset_eqb_eq in Hf.
        unfold mis. fold o.
        assert (ON : o <> OffInvalid) by (rewrite Hf; apply settle_real; exact BO).
        destruct ((S t - n0) mod 26 =? 0)%nat eqn:M.
        - exfalso. apply Nat.eqb_eq in M. apply NR. split; [exact IS|].
          pose proof (Nat.div_mod (S t - n0) 26 ltac:(lia)) as D. rewrite M in D.
          destruct ((S t - n0) / 26)%nat as [|q] eqn:Q; [lia|].
          exists q. unfold next_end. rewrite U0. change (N.to_nat 1) with 1%nat. split; [lia|].
          fold e. assert (OQ : o = off q).
          { unfold o. replace (S t) with (n0 + 26 * S q)%nat by lia. apply seen_aligned. rewrite all_length in L. lia. }
          rewrite <- OQ. apply settle_hit; [exact BO|]. symmetry. exact Hf.
        - destruct o; reflexivity || (exfalso; apply ON; reflexivity). }
      rewrite count_false_snoc.
      assert (CF1 : (count_false fs + (if f then 0 else 1) <= chance (S t))%nat).
      { rewrite CS. destruct f; [destruct (mis (S t)); lia|]. rewrite (MF eq_refl). lia. }
      split; [exact CF1|].
      pose proof (sum_at_least _ _ _ A1) as SA. rewrite app_length in SA. cbn [length] in SA.
      specialize (SA ltac:(lia)).
      pose proof (counts (fs ++ [f])) as CT. rewrite app_length, count_false_snoc in CT. cbn [length] in CT. lia.
Qed.

Lemma first_loss : forall j, (n0 + j <= length all)%nat -> (forall t, (n0 <= t <= n0 + j)%nat -> ~ right t) ->
  (forall t, (n0 <= t <= n0 + j)%nat -> bst_is_in_sync (st t) = true) \/
  exists t, (n0 <= t <= n0 + j)%nat /\ bst_is_in_sync (st t) = false /\ (t <= n0 + 26 * (43 + chance t))%nat.
Proof.
  induction j as [|j IH]; intros L NR.
  - destruct (bst_is_in_sync (st n0)) eqn:S0.
    + left. intros t Ht. replace t with n0 by lia. exact S0.
    + right. exists n0. split; [lia|]. split; [exact S0|lia].
  - destruct (IH ltac:(lia) ltac:(intros t Ht; apply NR; lia)) as [A|(t & Ht & Q)].
    2: { right. exists t. split; [lia|exact Q]. }
    destruct (bst_is_in_sync (st (n0 + S j))) eqn:S1.
    + left. intros t Ht. destruct (Nat.eq_dec t (n0 + S j)) as [->|NE]; [exact S1|]. apply A. lia.
    + right. exists (n0 + S j)%nat. split; [lia|]. split; [exact S1|].
      destruct (wrong_run j ltac:(lia) ltac:(intros t Ht; split; [apply A; lia|apply NR; lia])) as (h & fs & u0 & _ & NE & HU & _ & LF).
      unfold next_end in NE.
      pose proof (chance_mono (n0 + j) (n0 + S j) ltac:(lia) ltac:(lia)).
      destruct (state_after_inv fec (firstn (n0 + j) all)) as (I & _).
      destruct (inv_sync _ I (A (n0 + j)%nat ltac:(lia))) as (U & _). fold (st (n0 + j)) in U. lia.
Qed.

(* --- hunting --- *)

Hypothesis Hrhythm : ~ chance_rhythm all n0.

Lemma rhythm_prefix : forall t t1 t2, (t1 <= t)%nat -> (t2 <= t)%nat -> in_rhythm (firstn t all) t1 t2 -> in_rhythm all t1 t2.
Proof.
  intros t t1 t2 H1 H2 R. unfold in_rhythm, seen_at in *. rewrite !firstn_firstn in R.
  replace (Nat.min t1 t) with t1 in R by lia. replace (Nat.min t2 t) with t2 in R by lia. exact R.
Qed.
Lemma rhythm_prefix' : forall t t1 t2, (t1 <= t)%nat -> (t2 <= t)%nat -> in_rhythm all t1 t2 -> in_rhythm (firstn t all) t1 t2.
Proof.
  intros t t1 t2 H1 H2 R. unfold in_rhythm, seen_at in *. rewrite !firstn_firstn.
  replace (Nat.min t1 t) with t1 by lia. replace (Nat.min t2 t) with t2 by lia. exact R.
Qed.

Lemma hunting_step : forall t, (n0 <= t)%nat -> (t < length all)%nat ->
  bst_is_in_sync (st t) = false -> ~ right (S t) -> bst_is_in_sync (st (S t)) = false.
Proof.
  intros t H0 H US NR. destruct (bst_is_in_sync (st (S t))) eqn:IS; [|reflexivity]. exfalso.
  destruct (step_at t H) as (b & og & F & FL & _ & _ & _).
  assert (AQ : acquires fec (firstn t all) b).
  { split; [exact US|]. rewrite <- F. exact IS. }
  destruct (sync_needs_rhythm _ _ _ AQ) as (t1 & t2 & L1 & L2 & L3 & R1 & R2).
  destruct (acquires_state _ _ _ AQ) as ((_ & _ & _ & U) & RO & EX & _).
  rewrite FL in *. rewrite <- F in *. fold (st (S t)) in U, EX.
  apply rhythm_prefix in R1; [|lia|lia]. apply rhythm_prefix in R2; [|lia|lia].
  destruct (Nat.eq_dec ((S t - n0) mod 26)%nat 0) as [M|M].
  - apply NR. split; [exact IS|].
    pose proof (Nat.div_mod (S t - n0) 26 ltac:(lia)) as D. rewrite M in D.
    destruct ((S t - n0) / 26)%nat as [|q] eqn:Q; [lia|].
    exists (S q). unfold next_end. rewrite U. change (N.to_nat 26) with 26%nat. split; [lia|].
    rewrite EX. change (recognise (window (firstn (S t) all))) with (seen_at all (S t)).
    replace (S t) with (n0 + 26 * S q)%nat by lia. rewrite seen_aligned by (rewrite all_length in H; lia).
    symmetry. apply Hnext.
  - apply Hrhythm. exists t1, t2, (S t). do 6 (split; [lia || assumption|]). assumption.
Qed.

Lemma place_slot : forall o, place (slot o) = place o.
Proof. intros []; reflexivity. Qed.
Lemma place_following : forall o, real_offset o -> place (following o) = (place o + 1) mod 4.
Proof. intros [] H; reflexivity || (exfalso; apply H; reflexivity). Qed.

Lemma rhythm_aligned : forall k, (S k < length ws)%nat -> in_rhythm all (n0 + 26 * S k) (n0 + 26 * S (S k)).
Proof.
  intros k H. unfold in_rhythm. rewrite !seen_aligned by lia.
  split; [apply Hreal|]. split; [apply Hreal|]. exists 1. split; [lia|].
  split; [replace (n0 + 26 * S (S k) - (n0 + 26 * S k))%nat with 26%nat by lia; reflexivity|].
  rewrite <- place_slot, Hnext. apply place_following, Hreal.
Qed.

Lemma inside : forall k t, (n0 + 26 * k < t < n0 + 26 * S k)%nat -> between_blocks n0 t.
Proof.
  intros k t H M. pose proof (Nat.div_mod (t - n0) 26 ltac:(lia)) as D. rewrite M in D. lia.
Qed.

Lemma phantoms_prefix : forall t lo hi, (hi <= t)%nat -> phantoms (firstn t all) lo hi = phantoms all lo hi.
Proof.
  intros t lo hi H. unfold phantoms. apply filter_ext_in. intros x Hx. apply in_seq in Hx.
  rewrite firstn_firstn. replace (Nat.min x t) with x by lia. reflexivity.
Qed.

Lemma triple : forall k, (S (S k) < length ws)%nat ->
  (forall t, (n0 + 26 * S k <= S t)%nat -> (t <= n0 + 26 * S (S (S k)))%nat -> bst_is_in_sync (st t) = false) ->
  (chance (n0 + 26 * S k) + 2 <= chance (n0 + 26 * S (S (S k))))%nat.
Proof.
  intros k H US.
  pose proof (chance_between (n0 + 26 * S k) (n0 + 26 * S (S k)) ltac:(lia) ltac:(lia) (inside (S k))) as P1.
  pose proof (chance_between (n0 + 26 * S (S k)) (n0 + 26 * S (S (S k))) ltac:(lia) ltac:(lia) (inside (S (S k)))) as P2.
  destruct (Nat.le_gt_cases (length (phantoms all (n0 + 26 * S k) (n0 + 26 * S (S k))) +
                             length (phantoms all (n0 + 26 * S (S k)) (n0 + 26 * S (S (S k))))) 1) as [Q|Q]; [exfalso|lia].
  set (n3 := (n0 + 26 * S (S (S k)))%nat) in *.
  pose proof all_length as AL.
  destruct (step_at (n3 - 1) ltac:(unfold n3 in *; lia)) as (b & og & F & FL & _).
  replace (S (n3 - 1)) with n3 in F by (unfold n3; lia).
  assert (AQ : acquires fec (firstn (n3 - 1) all) b).
  { apply (lock_on fec (firstn (n3 - 1) all) b (n0 + 26 * S k) (n0 + 26 * S (S k))); rewrite ?FL, <- ?F.
    - lia.
    - lia.
    - unfold n3. lia.
    - apply rhythm_prefix'; [unfold n3; lia|unfold n3; lia|]. apply rhythm_aligned. lia.
    - replace (S (n3 - 1)) with n3 by (unfold n3; lia). apply rhythm_prefix'; [unfold n3; lia|lia|]. apply rhythm_aligned. lia.
    - intros t Ht. rewrite firstn_firstn. replace (Nat.min (t - 1) n3) with (t - 1)%nat by lia. apply US; lia.
    - replace (S (n3 - 1)) with n3 by (unfold n3; lia). rewrite !phantoms_prefix by (unfold n3; lia). exact Q. }
  destruct AQ as [_ AQ]. rewrite <- F in AQ. fold (st n3) in AQ. rewrite (US n3 ltac:(unfold n3; lia) ltac:(lia)) in AQ. discriminate AQ.
Qed.

Hypothesis Henough : length ws = 56%nat.

Lemma some_right : exists t, (n0 <= t <= length all)%nat /\ right t.
Proof.
  pose proof all_length as AL. rewrite Henough in AL.
  assert (D : forall j, (exists t, (n0 <= t <= n0 + j)%nat /\ right t) \/ forall t, (n0 <= t <= n0 + j)%nat -> ~ right t).
  { induction j as [|j [(t & Ht & R)|N]].
    - destruct (right_dec n0 ltac:(lia)) as [R|R]; [left; exists n0; split; [lia|exact R]|].
      right. intros t Ht. replace t with n0 by lia. exact R.
    - left. exists t. split; [lia|exact R].
    - destruct (right_dec (n0 + S j) ltac:(lia)) as [R|R]; [left; exists (n0 + S j)%nat; split; [lia|exact R]|].
      right. intros t Ht. destruct (Nat.eq_dec t (n0 + S j)) as [->|NE]; [exact R|]. apply N. lia. }
  destruct (D (26 * 56)%nat) as [(t & Ht & R)|NR]; [exists t; split; [lia|exact R]|]. exfalso. clear D.
  assert (US : exists t, (n0 <= t <= length all)%nat /\ bst_is_in_sync (st t) = false /\ (t <= n0 + 26 * (43 + chance t))%nat).
  { destruct (first_loss (26 * 56) ltac:(lia) NR) as [A|(t & Ht & Q)].
    - destruct (wrong_run (26 * 56) ltac:(lia) ltac:(intros t Ht; split; [apply A; lia|apply NR; lia])) as (h & fs & u0 & _ & NE & HU & _ & LF).
      rewrite <- AL in *. unfold next_end in NE. lia.
    - exists t. split; [lia|exact Q]. }
  destruct US as (t & Ht & US & TL).
  assert (UA : forall t', (t <= t')%nat -> (t' <= length all)%nat -> bst_is_in_sync (st t') = false).
  { intros t' H. induction H as [|t' H IH]; intros L; [exact US|]. apply hunting_step; [lia|lia|apply IH; lia|apply NR; lia]. }
  set (p := chance t) in *.
  assert (P7 : (p <= 7)%nat).
  { eapply Nat.le_trans; [|exact Hchance]. apply chance_mono; lia. }
  assert (TR : forall j, (43 + p + 3 * j + 3 <= 56)%nat -> (p + 2 * S j <= chance (n0 + 26 * (43 + p + 3 * j + 3)))%nat).
  { induction j as [|j IH]; intros HJ.
    - pose proof (triple (43 + p) ltac:(lia) ltac:(intros t' H1 H2; apply UA; lia)) as T.
      replace (43 + p + 3 * 0 + 3)%nat with (S (S (S (43 + p)))) by lia.
      pose proof (chance_mono t (n0 + 26 * S (43 + p)) ltac:(lia) ltac:(lia)). fold p in H. lia.
    - specialize (IH ltac:(lia)).
      pose proof (triple (43 + p + 3 * j + 3) ltac:(lia) ltac:(intros t' H1 H2; apply UA; lia)) as T.
      replace (43 + p + 3 * S j + 3)%nat with (S (S (S (43 + p + 3 * j + 3)))) by lia.
      pose proof (chance_mono (n0 + 26 * (43 + p + 3 * j + 3)) (n0 + 26 * S (43 + p + 3 * j + 3)) ltac:(lia) ltac:(lia)). lia. }
  assert (CM : forall x, (x <= 56)%nat -> (chance (n0 + 26 * x) <= 7)%nat).
  { intros x Hx. eapply Nat.le_trans; [|exact Hchance]. apply chance_mono; lia. }
  pose proof (TR ((10 - p) / 3)%nat) as T.
  assert (HD : (p = 0 \/ p = 1 \/ p = 2 \/ p = 3 \/ p = 4 \/ p = 5 \/ p = 6 \/ p = 7)%nat) by lia.
  clear - HD T CM.
  destruct HD as [E|[E|[E|[E|[E|[E|[E|E]]]]]]]; rewrite E in *;
    match type of T with context[Nat.div ?a 3] => let v := eval vm_compute in (Nat.div a 3) in change (Nat.div a 3) with v in T end;
    specialize (T ltac:(lia));
    match type of T with context[chance (n0 + 26 * ?x)%nat] => pose proof (CM x ltac:(lia)) end; lia.
Qed.

Lemma recovered : at_boundary (state_after fec all) all /\ bst_expected_offset (state_after fec all) = slot (off 56).
Proof.
  destruct some_right as (t & Ht & R).
  pose proof (right_stays t (length all) ltac:(lia) ltac:(lia) R) as [IS (k & NE & EX)].
  unfold next_end, st in *. rewrite firstn_all in *.
  destruct (state_after_inv fec all) as (I & RH & _).
  destruct (inv_sync _ I IS) as (U & _).
  pose proof all_length as AL. rewrite Henough in AL.
  assert (k = 56%nat) as -> by lia.
  split; [|exact EX]. repeat (split; [assumption|]). lia.
Qed.
End Recover.

(* --- groups --- *)

Fixpoint group_offset (ts : list TxGroup) (k : nat) : Offset :=
  match k with
  | 0 => OffA
  | 1 => OffB
  | 2 => third_offset (hd (mkTx 0 0 0 0) ts)
  | 3 => OffD
  | S (S (S (S k'))) => group_offset (tl ts) k'
  end%nat.

Lemma four_ind : forall P : nat -> Prop, P 0%nat -> P 1%nat -> P 2%nat -> P 3%nat -> (forall k, P k -> P (S (S (S (S k))))) -> forall k, P k.
Proof.
  intros P H0 H1 H2 H3 HS. fix F 1. intros [|[|[|[|k]]]]; try assumption. apply HS, F.
Qed.

Lemma group_offset_next : forall k ts, slot (group_offset ts (S k)) = following (group_offset ts k).
Proof.
  intros k. induction k as [| | | |k IH] using four_ind; intros ts; [| | | |exact (IH (tl ts))];
    cbn [group_offset]; unfold third_offset; try (destruct (N.testbit _ _)); reflexivity.
Qed.

Lemma group_offset_real : forall k ts, real_offset (group_offset ts k).
Proof.
  intros k. induction k as [| | | |k IH] using four_ind; intros ts; cbn [group_offset]; try discriminate; [apply third_real|apply IH].
Qed.

Lemma group_offset_seen : forall ts, Forall tx_ok ts -> forall k, (k < length (flat_map tx_words ts))%nat ->
  nth k (flat_map tx_words ts) 0 < 2 ^ 26 /\ recognise (nth k (flat_map tx_words ts) 0) = group_offset ts k.
Proof.
  induction 1 as [|t ts (T1 & T2 & T3 & T4) HT IH]; intros k Hk; [cbn in Hk; lia|].
  rewrite flat_map_cons in *. cbn [tx_words app] in *.
  destruct k as [|[|[|[|k]]]]; cbn [nth group_offset hd tl];
    try (split; [apply tx_block_lt; assumption|apply recognise_tx; [discriminate || apply third_real|assumption]]).
  apply IH. cbn [length] in Hk. lia.
Qed.

Lemma group_offset_end : forall n ts, group_offset ts (4 * n) = OffA.
Proof.
  induction n as [|n IH]; intros ts; [reflexivity|].
  replace (4 * S n)%nat with (S (S (S (S (4 * n))))) by lia. cbn [group_offset]. apply IH.
Qed.

Lemma tx_bits_words : forall ts, flat_map tx_bits ts = flat_map block_bits (flat_map tx_words ts).
Proof.
  induction ts as [|t ts IH]; [reflexivity|]. rewrite !flat_map_cons, flat_map_app, IH. reflexivity.
Qed.

Lemma clean_steps : forall fec ws e r g, rs_wf r -> rs_getSum r <= 42 -> Forall (eq false) (err_flags e ws) ->
  exists e' r' g' gs, sync_steps fec (e, r, g) ws = (Some (e', r', g'), gs).
Proof.
  intros fec. induction ws as [|w ws IH]; intros e r g W S H; [cbn; eauto 6|].
  cbn [err_flags sync_steps] in *. apply Forall_cons_iff in H. destruct H as [F H].
  destruct (sync_step fec (e, r, g) w) as [[[[e1 r1] g1]|] gs1] eqn:Q.
  - destruct (sync_step_inv _ _ _ _ _ _ _ _ _ W Q) as (W1 & S1 & _ & _ & _ & E1).
    rewrite <- E1 in H. destruct (IH e1 r1 g1 W1 S1 H) as (e' & r' & g' & gs & R).
    rewrite R. eauto 6.
  - exfalso. unfold sync_step in Q. rewrite <- F in Q. cbn [flag] in Q. pose proof (push_good r W).
    destruct (N.ltb_spec 42 (rs_getSum (rs_push r 0))); [lia|]. destruct (Offset_eqb (following _) OffA); discriminate Q.
Qed.

Lemma clean_delivery : forall fec bits ts, at_boundary (state_after fec bits) bits ->
  bst_expected_offset (state_after fec bits) = OffA -> Forall tx_ok ts ->
  Forall2 (fun t g => delivered t (false, false, false, false) g) ts (groups_after fec bits (flat_map tx_bits ts)) /\
  in_sync_after fec (bits ++ flat_map tx_bits ts) = true.
Proof.
  intros fec bits ts AB EX HT.
  set (tes := map (fun t => (t, (0, 0, 0, 0))) ts).
  assert (HR : Forall (rx_ok fec) tes) by (apply rx_zero_ok; exact HT).
  assert (HZ : Forall (fun te : TxGroup * (N * N * N * N) => snd te = (0, 0, 0, 0)) tes).
  { unfold tes. apply Forall_map. apply Forall_forall. reflexivity. }
  destruct (flags_zero fec tes HR HZ) as [FZ _].
  destruct (state_after_inv fec bits) as (_ & _ & FE).
  assert (HW : Forall (fun w => w < 2 ^ 26) (all_words tes)).
  { clear -HR. induction tes as [|te tes IH]; [constructor|].
    inversion HR as [|x y H1 H2 E]; subst. unfold all_words. rewrite flat_map_cons.
    apply Forall_app. split; [eapply rx_words_lt; exact H1|apply IH; exact H2]. }
  pose proof (run_blocks (all_words tes) _ bits AB HW) as RB.
  unfold in_sync_after. rewrite state_after_app. unfold groups_after.
  rewrite all_words_zero, rx_bits_words. fold tes.
  destruct AB as (I & _ & Q & _). destruct (inv_sync _ I Q) as (_ & _ & SM & CG).
  unfold st_of in RB. rewrite EX, (CG EX), FE in RB.
  destruct (clean_steps fec (all_words tes) OffA _ Group_default (inv_wf _ I) SM FZ) as (e' & r' & g' & gs & R).
  rewrite R in RB. destruct RB as (s' & RUN & (_ & _ & IS & _) & _). rewrite RUN. cbn [fst snd].
  split; [|exact IS].
  destruct (groups_ok tes fec _ _ gs HR R) as [G _].
  clear -G. subst tes. revert gs G. induction ts as [|t ts IH]; intros gs G; cbn [map] in G; inversion G as [|x y lx ly X1 X2 X3]; subst; constructor.
  - exact X1.
  - apply IH. exact X2.
Qed.

Lemma recovery : forall fec bits0 ts0 ts, length ts0 = 14%nat -> Forall tx_ok ts0 -> Forall tx_ok ts ->
  let bits := bits0 ++ flat_map tx_bits ts0 in
  (length (chance_blocks bits (length bits0)) <= 7)%nat -> ~ chance_rhythm bits (length bits0) ->
  Forall2 (fun t g => delivered t (false, false, false, false) g) ts (groups_after fec bits (flat_map tx_bits ts)) /\
  in_sync_after fec (bits ++ flat_map tx_bits ts) = true.
Proof.
  intros fec bits0 ts0 ts L T0 T1 bits C R. unfold bits in *. rewrite tx_bits_words in *.
  assert (LW : length (flat_map tx_words ts0) = 56%nat).
  { clear -L. assert (H : length (flat_map tx_words ts0) = (4 * length ts0)%nat); [|lia].
    clear L. induction ts0 as [|t ts0 IH]; [reflexivity|]. rewrite flat_map_cons, app_length, IH. cbn [tx_words length]. lia. }
  destruct (recovered fec bits0 (flat_map tx_words ts0) (group_offset ts0) (group_offset_seen ts0 T0)
              (fun k => group_offset_real k ts0) (fun k => group_offset_next k ts0) C R LW) as [AB EX].
  change 56%nat with (4 * 14)%nat in EX. rewrite group_offset_end in EX. cbn [slot] in EX.
  rewrite <- tx_bits_words in *. apply clean_delivery; assumption.
Qed.

(* --- for the examples --- *)

Definition rhythm_b (bits : list bool) (t1 t2 : nat) : bool :=
  match seen_at bits t1, seen_at bits t2 with
  | OffInvalid, _ | _, OffInvalid => false
  | o1, o2 => let d := N.of_nat (t2 - t1) in
      (d mod 26 =? 0) && (d / 26 <=? 6) && (place o2 =? (place o1 + d / 26) mod 4)
  end.
Definition rhythm_free (bits : list bool) (cs : list nat) : bool :=
  forallb (fun t => forallb (fun k => negb ((26 * k <? t)%nat && rhythm_b bits (t - 26 * k) t &&
       existsb (fun j => (26 * j <=? t - 26 * k)%nat && rhythm_b bits (t - 26 * k - 26 * j) (t - 26 * k)) [1; 2; 3; 4; 5; 6]%nat)) [1; 2; 3; 4; 5; 6]%nat) cs.

Lemma rhythm_b_true : forall bits t1 t2, N.of_nat (length bits) < 2 ^ 32 -> (t2 <= length bits)%nat -> in_rhythm bits t1 t2 ->
  rhythm_b bits t1 t2 = true.
Proof.
  intros bits t1 t2 L H (V1 & V2 & k & K & D & P). unfold rhythm_b.
  change (2 ^ 32) with 4294967296 in *. rewrite N.mod_small in D by lia. rewrite D.
  replace ((26 * k) mod 26) with 0 by (rewrite N.mul_comm; symmetry; apply N.mod_mul; lia).
  replace (26 * k / 26) with k by (rewrite N.mul_comm; symmetry; apply N.div_mul; lia).
  apply N.leb_le in K. rewrite K. cbn [andb N.eqb].
  destruct (seen_at bits t1), (seen_at bits t2); try (exfalso; congruence); rewrite <- P; apply N.eqb_refl.
Qed.

Lemma distance_list : forall bits t1 t2, N.of_nat (length bits) < 2 ^ 32 -> (t1 < t2)%nat -> (t2 <= length bits)%nat -> in_rhythm bits t1 t2 ->
  exists k, In k [1; 2; 3; 4; 5; 6]%nat /\ t1 = (t2 - 26 * k)%nat /\ (26 * k <= t2)%nat.
Proof.
  intros bits t1 t2 L H1 H2 R. destruct (rhythm_distance bits t1 t2 H1 H2 L R) as (k & K & E & _).
  exists k. split; [|split; lia]. cbn [In]. lia.
Qed.

Lemma no_rhythm : forall bits n0, N.of_nat (length bits) < 2 ^ 32 -> rhythm_free bits (chance_blocks bits n0) = true -> ~ chance_rhythm bits n0.
Proof.
  intros bits n0 L H (t1 & t2 & t & L1 & L2 & L3 & L4 & B & R1 & R2).
  pose proof (rhythm_b_true bits t1 t2 L ltac:(lia) R1) as Q1. pose proof (rhythm_b_true bits t2 t L L4 R2) as Q2.
  destruct (distance_list bits t1 t2 L L1 ltac:(lia) R1) as (j & J & EJ & LJ). destruct (distance_list bits t2 t L L2 L4 R2) as (k & K & EK & LK).
  destruct R1 as (V1 & _). destruct R2 as (V2 & V & _).
  unfold rhythm_free in H. rewrite forallb_forall in H. specialize (H t).
  assert (IN : In t (chance_blocks bits n0)).
  { unfold chance_blocks. apply filter_In. split; [apply in_seq; lia|]. unfold between_blocks in B. apply Nat.eqb_neq in B.
    rewrite B. destruct (seen_at bits t); reflexivity || (exfalso; apply V; reflexivity). }
  specialize (H IN). rewrite forallb_forall in H. specialize (H k K).
  apply negb_true_iff, andb_false_iff in H. destruct H as [H|H]; [apply andb_false_iff in H; destruct H as [H|H]|].
  - apply Nat.ltb_ge in H. lia.
  - rewrite <- EK in H. congruence.
  - rewrite <- EK in H. assert (X : existsb (fun j => (26 * j <=? t2)%nat && rhythm_b bits (t2 - 26 * j) t2) [1; 2; 3; 4; 5; 6]%nat = true).
    { apply existsb_exists. exists j. split; [exact J|]. rewrite <- EJ, Q1. apply Nat.leb_le in LJ. rewrite LJ. reflexivity. }
    congruence.
Qed.

(* chance_blocks computed with a shift register *)
Fixpoint scan (r : N) (t : nat) (l : list bool) : list nat :=
  match l with
  | [] => []
  | b :: l' =>
    let r' := (2 * r + (if b then 1 else 0)) mod 2 ^ 26 in
    match getOffsetForSyndrome (calculateSyndrome r') with
    | OffInvalid => scan r' (S t) l'
    | _ => S t :: scan r' (S t) l'
    end
  end.

Lemma window_snoc : forall l b, window (l ++ [b]) = (2 * window l + (if b then 1 else 0)) mod 2 ^ 26.
Proof.
  intros l b. rewrite <- !window_of_value, bits_value_app. cbn [length bits_value fold_left]. change (2 ^ N.of_nat 1) with 2.
  change (2 ^ 26) with 67108864. destruct b; lia.
Qed.

Lemma scan_correct : forall l pre, scan (window pre) (length pre) l =
  filter (fun t => match seen_at (pre ++ l) t with OffInvalid => false | _ => true end) (seq (S (length pre)) (length l)).
Proof.
  induction l as [|b l IH]; intros pre; [reflexivity|].
  cbn [scan length seq filter]. rewrite <- window_snoc.
  replace (seen_at (pre ++ b :: l) (S (length pre))) with (recognise (window (pre ++ [b]))).
  2: { unfold seen_at. replace (pre ++ b :: l) with ((pre ++ [b]) ++ l) by (rewrite <- app_assoc; reflexivity).
       rewrite firstn_app_le by (rewrite app_length; cbn [length]; lia). rewrite firstn_full. reflexivity. }
  rewrite recognise_syndrome by apply window_lt.
  replace (S (length pre)) with (length (pre ++ [b])) by (rewrite app_length; cbn [length]; lia).
  rewrite IH, <- app_assoc. cbn [app].
  destruct (recognise (window (pre ++ [b]))); reflexivity.
Qed.

Lemma chance_scan : forall pre l, chance_blocks (pre ++ l) (length pre) =
  filter (fun t => negb ((t - length pre) mod 26 =? 0)%nat) (scan (window pre) (length pre) l).
Proof.
  intros pre l. rewrite scan_correct. unfold chance_blocks. rewrite app_length. replace (length pre + length l - length pre)%nat with (length l) by lia.
  induction (seq (S (length pre)) (length l)) as [|t ts IH]; [reflexivity|]. cbn [filter].
  destruct (seen_at (pre ++ l) t); cbn [filter]; rewrite IH; reflexivity.
Qed.

(* A stream with two readings *)
Lemma repeat_snoc_app : forall (x y : list bool) n, x ++ flat_map (fun _ => y ++ x) (seq 0 n) = flat_map (fun _ => x ++ y) (seq 0 n) ++ x.
Proof.
  intros x y n. generalize 0%nat. induction n as [|n IH]; intros k; cbn [seq flat_map app]; [rewrite app_nil_r; reflexivity|].
  rewrite !app_assoc. rewrite <- (app_assoc (x ++ y) x), IH, app_assoc. reflexivity.
Qed.

Lemma flat_map_repeat : forall {A B} (f : A -> list B) x n, flat_map f (repeat x n) = flat_map (fun _ => f x) (seq 0 n).
Proof.
  intros A B f x n. generalize 0%nat. induction n as [|n IH]; intros k; [reflexivity|]. cbn [repeat seq flat_map]. rewrite (IH (S k)). reflexivity.
Qed.

Lemma second_reading : forall fec pre x y t t', tx_ok t' -> tx_bits t = y ++ x -> tx_bits t' = x ++ y ->
  at_boundary (state_after fec pre) pre -> bst_expected_offset (state_after fec pre) = OffA ->
  groups_after fec pre x = [] ->
  forall n, Forall2 (fun t g => delivered t (false, false, false, false) g) (repeat t' (S n))
    (groups_after fec (pre ++ x) (flat_map tx_bits (repeat t n) ++ y)).
Proof.
  intros fec pre x y t t' OK E E' AB EX NG n.
  destruct (clean_delivery fec pre (repeat t' (S n)) AB EX) as [D _].
  { apply Forall_forall. intros u Hu. apply repeat_spec in Hu. subst u. exact OK. }
  assert (EQ : flat_map tx_bits (repeat t' (S n)) = x ++ (flat_map tx_bits (repeat t n) ++ y)).
  { rewrite !flat_map_repeat, E, E', app_assoc, repeat_snoc_app, <- app_assoc.
    replace (S n) with (n + 1)%nat by lia. rewrite seq_app, flat_map_app. cbn [seq flat_map].
    rewrite app_nil_r. reflexivity. }
  rewrite EQ in D.
  assert (G : groups_after fec pre (x ++ (flat_map tx_bits (repeat t n) ++ y)) =
              groups_after fec (pre ++ x) (flat_map tx_bits (repeat t n) ++ y)).
  { unfold groups_after in *. rewrite state_after_app, bst_run_app.
    destruct (bst_run (state_after fec pre) x) as [s1 g1]. cbn [fst snd] in *. subst g1.
    destruct (bst_run s1 _) as [s2 g2]. reflexivity. }
  rewrite <- G. exact D.
Qed.

(* --- a receiver that hunts does not care how many bits it has received before --- *)

Definition moved (d : N) (p : SyncPulse) : SyncPulse := mkPulse (sp_offset p) ((sp_bit_position p + d) mod 2 ^ 32).
Definition pulses_small (sb : SyncPulseBuffer) : Prop :=
  sp_bit_position (sb_p0 sb) < 2 ^ 32 /\ sp_bit_position (sb_p1 sb) < 2 ^ 32 /\
  sp_bit_position (sb_p2 sb) < 2 ^ 32 /\ sp_bit_position (sb_p3 sb) < 2 ^ 32.
Definition moved_pulses (d : N) (sb : SyncPulseBuffer) : SyncPulseBuffer :=
  mkPulses (moved d (sb_p0 sb)) (moved d (sb_p1 sb)) (moved d (sb_p2 sb)) (moved d (sb_p3 sb)).

Lemma couldFollow_moved : forall d p q, sp_bit_position p < 2 ^ 32 -> sp_bit_position q < 2 ^ 32 ->
  couldFollow (moved d p) (moved d q) = couldFollow p q.
Proof.
  intros d [o a] [o' b] Ha Hb. cbn [sp_bit_position] in *. unfold couldFollow, moved. cbn [sp_offset sp_bit_position].
  assert (E : u32_sub ((a + d) mod 2 ^ 32) ((b + d) mod 2 ^ 32) = u32_sub a b).
  { unfold u32_sub. change (2 ^ 32) with 4294967296 in *. change 0x100000000 with 4294967296.
    rewrite N.mod_mod by discriminate. rewrite (N.mod_small b) by exact Hb.
    rewrite <- (N.add_mod_idemp_r a d), <- (N.add_mod_idemp_r b d) by discriminate.
    pose proof (N.mod_upper_bound d 4294967296 ltac:(discriminate)) as Hd.
    set (e := d mod 4294967296) in *. clearbody e. lia. }
  rewrite E. reflexivity.
Qed.

Lemma found_moved : forall d sb, pulses_small sb -> isSequenceFound (moved_pulses d sb) = isSequenceFound sb.
Proof.
  intros d sb (H0 & H1 & H2 & H3). unfold isSequenceFound, moved_pulses. cbn [sb_p0 sb_p1 sb_p2 sb_p3].
  rewrite !couldFollow_moved by assumption. reflexivity.
Qed.

Record like (d : N) (s s' : BlockStream) : Prop := mkLike {
  like_sync : bst_is_in_sync s = false /\ bst_is_in_sync s' = false;
  like_reg : bst_input_register s' = bst_input_register s;
  like_count : bst_bitcount s' = (bst_bitcount s + d) mod 2 ^ 32;
  like_small : bst_bitcount s < 2 ^ 32 /\ pulses_small (bst_sync_buffer s);
  like_pulses : bst_sync_buffer s' = moved_pulses d (bst_sync_buffer s) }.

Lemma like_step : forall fec d l l' b, like d (state_after fec l) (state_after fec l') ->
  in_sync_after fec (l ++ [b]) = false ->
  like d (state_after fec (l ++ [b])) (state_after fec (l' ++ [b])) /\ groups_after fec l' [b] = [].
Proof.
  intros fec d l l' b [[U U'] R C [CS PS] P] NS.
  destruct (state_after_inv fec l) as (I & RH & _). destruct (state_after_inv fec l') as (I' & RH' & _).
  destruct (state_after_snoc fec l b) as (og & S). destruct (state_after_snoc fec l' b) as (og' & S').
  pose proof (bst_step_kind _ l b _ og I RH S) as K. pose proof (bst_step_kind _ l' b _ og' I' RH' S') as K'.
  unfold groups_after. rewrite bst_run_one, S'. cbn [snd].
  pose proof (reg_hist_window _ _ (reg_hist_shifted _ _ b RH)) as W. pose proof (reg_hist_window _ _ (reg_hist_shifted _ _ b RH')) as W'.
  assert (RS : bst_input_register (shifted (state_after fec l') b) = bst_input_register (shifted (state_after fec l) b)).
  { cbn [shifted bst_input_register]. rewrite R. reflexivity. }
  assert (CC : bst_bitcount (shifted (state_after fec l') b) = (bst_bitcount (shifted (state_after fec l) b) + d) mod 2 ^ 32).
  { cbn [shifted bst_bitcount]. rewrite C. unfold u32. change 0x100000000 with (2 ^ 32).
    rewrite !N.add_mod_idemp_l by discriminate. f_equal. lia. }
  assert (CS' : bst_bitcount (shifted (state_after fec l) b) < 2 ^ 32).
  { cbn [shifted bst_bitcount]. unfold u32. apply N.mod_upper_bound. discriminate. }
  assert (EW : window (l' ++ [b]) = window (l ++ [b])) by (rewrite <- W, <- W', RS; reflexivity).
  set (o := recognise (window (l ++ [b]))) in *.
  assert (PP : forall sb n, pulses_small sb -> n < 2 ^ 32 -> pulses_small (sb_push sb o n) /\
             sb_push (moved_pulses d sb) o ((n + d) mod 2 ^ 32) = moved_pulses d (sb_push sb o n)).
  { intros sb n (H0 & H1 & H2 & H3) Hn. split; [repeat split; assumption|reflexivity]. }
  assert (AC : bst_is_in_sync (acquireSync (shifted (state_after fec l') b) o) = bst_is_in_sync (acquireSync (shifted (state_after fec l) b) o)).
  { unfold acquireSync. change (bst_is_in_sync (shifted ?x b)) with (bst_is_in_sync x). rewrite U, U'.
    destruct (negb (Offset_eqb o OffInvalid)); [|reflexivity].
    change (bst_sync_buffer (shifted ?x b)) with (bst_sync_buffer x). rewrite P, CC.
    destruct (PP (bst_sync_buffer (state_after fec l)) _ PS CS') as [Q1 Q2]. rewrite Q2, (found_moved d _ Q1).
    destruct (isSequenceFound _); reflexivity. }
  inversion K
    as [Hu Hs Es|s3 Hs E1 Hn Es|s3 st' gs s' Hs E1 Hn SS IS' Un ST FE' RE BC SB HR
       |st' gs s' Hs U0 SS IS' Un ST FE' RE BC SB HR|s' Hs U0 SS IS' Un RA FE' RE BC SB HR]; try congruence.
  2: { unfold in_sync_after in NS. congruence. }
  fold o in E1. rewrite E1 in Hn. rewrite Hn in AC.
  inversion K'
    as [Hu' Hs' Es'|s3' Hs' E1' Hn' Es'|s3' st'' gs' s'' Hs' E1' Hn' SS' IS'' Un' ST' FE'' RE' BC' SB' HR'
       |st'' gs' s'' Hs' U0' SS' IS'' Un' ST' FE'' RE' BC' SB' HR'|s'' Hs' U0' SS' IS'' Un' RA' FE'' RE' BC' SB' HR']; try congruence.
  2: { rewrite EW in E1'. fold o in E1'. congruence. }
  split; [|reflexivity].
  rewrite EW in E1'. fold o in E1'.
  destruct (acquire_unsynced _ o (U : bst_is_in_sync (shifted (state_after fec l) b) = false) Hn) as (_ & _ & X1 & X2 & X3 & _).
  destruct (acquire_unsynced _ o (U' : bst_is_in_sync (shifted (state_after fec l') b) = false) AC) as (_ & _ & Y1 & Y2 & Y3 & _).
  constructor; cbn [bst_set_until bst_is_in_sync bst_input_register bst_bitcount bst_sync_buffer]; rewrite ?E1, ?E1'.
  - split; assumption.
  - rewrite X1, Y1. exact RS.
  - rewrite X2, Y2. exact CC.
  - rewrite X2, X3. split; [exact CS'|].
    change (bst_sync_buffer (shifted ?x b)) with (bst_sync_buffer x).
    destruct (Offset_eqb o OffInvalid); [exact PS|]. apply PP; assumption.
  - rewrite X3, Y3. change (bst_sync_buffer (shifted ?x b)) with (bst_sync_buffer x). rewrite P, CC.
    destruct (Offset_eqb o OffInvalid); [reflexivity|]. apply PP; assumption.
Qed.

Lemma like_run : forall fec d m l l', like d (state_after fec l) (state_after fec l') ->
  (forall k, (k <= length m)%nat -> in_sync_after fec (l ++ firstn k m) = false) ->
  like d (state_after fec (l ++ m)) (state_after fec (l' ++ m)) /\ groups_after fec l' m = [].
Proof.
  intros fec d m. induction m as [|b m IH]; intros l l' L H.
  - rewrite !app_nil_r. split; [exact L|reflexivity].
  - destruct (like_step fec d l l' b L) as [L1 G1]; [exact (H 1%nat ltac:(cbn; lia))|].
    destruct (IH (l ++ [b]) (l' ++ [b]) L1) as [L2 G2].
    { intros k Hk. rewrite <- app_assoc. exact (H (S k) ltac:(cbn; lia)). }
    rewrite <- !app_assoc in L2. split; [exact L2|].
    change (b :: m) with ([b] ++ m). unfold groups_after in *. rewrite state_after_app in G2. rewrite bst_run_app.
    destruct (bst_run (state_after fec l') [b]) as [s1 g1]. cbn [fst snd] in *. subst g1.
    destruct (bst_run s1 m) as [s2 g2]. exact G2.
Qed.

Lemma like_trans : forall d e s s1 s2, like d s s1 -> like e s1 s2 -> like (d + e) s s2.
Proof.
  intros d e s s1 s2 [[U U1] R C [CS PS] P] [[_ U2] R2 C2 _ P2].
  assert (M : forall x, ((x + d) mod 2 ^ 32 + e) mod 2 ^ 32 = (x + (d + e)) mod 2 ^ 32).
  { intros x. rewrite N.add_mod_idemp_l by discriminate. f_equal. lia. }
  constructor.
  - split; assumption.
  - congruence.
  - rewrite C2, C. apply M.
  - split; assumption.
  - rewrite P2, P. unfold moved_pulses, moved. cbn [sb_p0 sb_p1 sb_p2 sb_p3 sp_offset sp_bit_position]. rewrite !M. reflexivity.
Qed.

Lemma never : forall fec T d, like d (state_after fec (T ++ T)) (state_after fec (T ++ T ++ T)) ->
  (forall k, (k <= length T)%nat -> in_sync_after fec ((T ++ T) ++ firstn k T) = false) ->
  forall n, (exists e, like e (state_after fec (T ++ T)) (state_after fec (T ++ T ++ concat (repeat T n)))) /\
            groups_after fec (T ++ T) (concat (repeat T n)) = [].
Proof.
  intros fec T d L H. induction n as [|n [(e & IH) G]].
  - cbn [repeat concat]. rewrite app_nil_r. split; [|reflexivity]. exists 0. destruct L as [[U _] R C [CS PS] P].
    constructor; auto.
    + rewrite N.add_0_r, N.mod_small by exact CS. reflexivity.
    + unfold moved_pulses, moved. destruct (bst_sync_buffer _) as [[o0 p0] [o1 p1] [o2 p2] [o3 p3]].
      destruct PS as (H0 & H1 & H2 & H3). cbn [sb_p0 sb_p1 sb_p2 sb_p3 sp_offset sp_bit_position] in *.
      rewrite !N.add_0_r, !N.mod_small by assumption. reflexivity.
  - destruct (like_run fec e T (T ++ T) (T ++ T ++ concat (repeat T n)) IH H) as [L2 G2].
    assert (E : concat (repeat T (S n)) = concat (repeat T n) ++ T).
    { replace (S n) with (n + 1)%nat by lia. rewrite repeat_app, concat_app. cbn [repeat concat]. rewrite app_nil_r. reflexivity. }
    rewrite E. split.
    + exists (d + e). rewrite <- !app_assoc in L2. eapply like_trans; [exact L|exact L2].
    + unfold groups_after in *. rewrite bst_run_app. rewrite app_assoc, state_after_app in G2.
      destruct (bst_run (state_after fec (T ++ T)) (concat (repeat T n))) as [s1 g1]. cbn [fst snd] in *. subst g1.
      destruct (bst_run s1 T) as [s2 g2]. exact G2.
Qed.

Fixpoint hunts (s : BlockStream) (l : list bool) : bool :=
  negb (bst_is_in_sync s) && match l with [] => true | b :: l' => let '(s', og) := bst_step s b in match og with None => hunts s' l' | Some _ => false end end.

Lemma hunts_run : forall l s, hunts s l = true -> snd (bst_run s l) = [] /\ forall k, (k <= length l)%nat -> bst_is_in_sync (fst (bst_run s (firstn k l))) = false.
Proof.
  induction l as [|b l IH]; intros s H; cbn [hunts] in H; apply andb_true_iff in H; destruct H as [U H]; apply negb_true_iff in U.
  - split; [reflexivity|]. intros k Hk. rewrite firstn_nil. exact U.
  - cbn [bst_run]. destruct (bst_step s b) as [s' og] eqn:E. destruct og as [g|]; [discriminate H|].
    destruct (IH s' H) as [G K]. destruct (bst_run s' l) as [s2 gs] eqn:R. cbn [snd] in *. subst gs. split; [reflexivity|].
    intros [|k] Hk; [exact U|]. cbn [firstn bst_run]. rewrite E. specialize (K k ltac:(cbn in Hk; lia)).
    destruct (bst_run s' (firstn k l)) as [s3 g3]. exact K.
Qed.

Definition like_b (d : N) (s s' : BlockStream) : bool :=
  let p := bst_sync_buffer s in let q := bst_sync_buffer s' in
  let same x y := Offset_eqb (sp_offset x) (sp_offset y) && (sp_bit_position y =? (sp_bit_position x + d) mod 2 ^ 32) && (sp_bit_position x <? 2 ^ 32) in
  negb (bst_is_in_sync s) && negb (bst_is_in_sync s') && (bst_input_register s' =? bst_input_register s) &&
  (bst_bitcount s' =? (bst_bitcount s + d) mod 2 ^ 32) && (bst_bitcount s <? 2 ^ 32) &&
  same (sb_p0 p) (sb_p0 q) && same (sb_p1 p) (sb_p1 q) && same (sb_p2 p) (sb_p2 q) && same (sb_p3 p) (sb_p3 q).

Lemma like_b_true : forall d s s', like_b d s s' = true -> like d s s'.
Proof.
  intros d s s' H. unfold like_b in H. rewrite !andb_true_iff in H.
  destruct H as ((((((((A1 & A2) & A3) & A4) & A5) & ((O0 & P0) & B0)) & ((O1 & P1) & B1)) & ((O2 & P2) & B2)) & ((O3 & P3) & B3)).
  apply negb_true_iff in A1, A2. apply N.eqb_eq in A3, A4, P0, P1, P2, P3. apply N.ltb_lt in A5, B0, B1, B2, B3.
  apply Offset_eqb_eq in O0, O1, O2, O3.
  constructor; auto.
  - repeat split; assumption.
  - unfold moved_pulses, moved. destruct (bst_sync_buffer s) as [[o0 p0] [o1 p1] [o2 p2] [o3 p3]], (bst_sync_buffer s') as [[o0' q0] [o1' q1] [o2' q2] [o3' q3]].
    cbn [sb_p0 sb_p1 sb_p2 sb_p3 sp_offset sp_bit_position] in *. congruence.
Qed.

Definition idle (fec : bool) (T : list bool) (d : N) : bool :=
  let s0 := BlockStream_init fec in
  let s1 := fst (bst_run s0 T) in let s2 := fst (bst_run s1 T) in let s3 := fst (bst_run s2 T) in
  hunts s0 T && hunts s1 T && hunts s2 T && like_b d s2 s3.

Lemma never_at_all : forall fec T d, idle fec T d = true -> forall n, groups_after fec [] (concat (repeat T n)) = [].
Proof.
  intros fec T d Q n. unfold idle in Q. rewrite !andb_true_iff in Q. destruct Q as (((H0 & H1) & H2) & L).
  apply like_b_true in L.
  assert (E1 : fst (bst_run (BlockStream_init fec) T) = state_after fec T) by reflexivity. rewrite E1 in *.
  rewrite <- state_after_app in H2, L. rewrite <- state_after_app, <- app_assoc in L.
  apply hunts_run in H0, H1, H2. destruct H0 as [G0 _]. destruct H1 as [G1 _]. destruct H2 as [_ U].
  destruct n as [|[|n]]; [reflexivity|cbn [repeat concat]; rewrite app_nil_r; exact G0|].
  destruct (never fec T d L) with (n := n) as [_ G].
  { intros k Hk. unfold in_sync_after. rewrite state_after_app. apply U. exact Hk. }
  cbn [repeat concat]. rewrite app_assoc. unfold groups_after in *.
  rewrite (bst_run_app (T ++ T)). change (state_after fec []) with (BlockStream_init fec) in *. rewrite state_after_app in G.
  rewrite (bst_run_app T T). unfold state_after in *.
  destruct (bst_run (BlockStream_init fec) T) as [s1 g1]. cbn [fst snd] in *. subst g1.
  destruct (bst_run s1 T) as [s2 g2]. cbn [fst snd] in *. subst g2.
  destruct (bst_run s2 (concat (repeat T n))) as [s3 g3]. exact G.
Qed.
