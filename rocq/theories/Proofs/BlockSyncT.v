(* Theorems about whole receptions: losing sync, delivering transmitted groups, acquiring sync. *)
From Verif.Model Require Import Base Util Group BlockSync.
From Verif.Spec Require Import RdsCode RdsStream Reception.
From Verif.Proofs Require Import Tac Syndrome Ring BlockSyncP BlockSyncR.


(* --- several blocks --- *)

Fixpoint sync_steps (fec : bool) (st : Offset * RunningSum * Group) (ws : list N)
  : option (Offset * RunningSum * Group) * list Group :=
  match ws with
  | [] => (Some st, [])
  | w :: r =>
    match sync_step fec st w with
    | (None, _) => (None, [])
    | (Some st', gs) => let '(o, gs') := sync_steps fec st' r in (o, gs ++ gs')
    end
  end.

Lemma Forall_firstn : forall {A} (P : A -> Prop) n l, Forall P l -> Forall P (firstn n l).
Proof.
  intros A P n. induction n as [|n IH]; intros [|x l] H; cbn; auto.
  inversion H as [|y m H1 H2 E]; subst. constructor; auto.
Qed.

Lemma flat_map_cons : forall {A B} (f : A -> list B) x l, flat_map f (x :: l) = f x ++ flat_map f l.
Proof. reflexivity. Qed.

Lemma run_blocks : forall ws s bits, at_boundary s bits -> Forall (fun w => w < 2 ^ 26) ws ->
  match sync_steps (bst_use_fec s) (st_of s) ws with
  | (Some st, gs) => exists s', bst_run s (flat_map block_bits ws) = (s', gs) /\
      at_boundary s' (bits ++ flat_map block_bits ws) /\ st_of s' = st /\ bst_use_fec s' = bst_use_fec s
  | (None, _) => True
  end.
Proof.
  induction ws as [|w ws IH]; intros s bits AB HF.
  - cbn. exists s. rewrite app_nil_r. auto.
  - inversion HF as [|w0 ws0 Hw HF' E1]; subst. cbn [sync_steps].
    pose proof (run_block s bits w AB Hw) as RB.
    destruct (sync_step (bst_use_fec s) (st_of s) w) as [[st|] gs]; [|exact Logic.I].
    destruct RB as (s1 & R1 & AB1 & ST1 & F1).
    specialize (IH s1 (bits ++ block_bits w) AB1 HF'). rewrite ST1, F1 in IH.
    destruct (sync_steps (bst_use_fec s) st ws) as [[st2|] gs2]; [|exact Logic.I].
    destruct IH as (s2 & R2 & AB2 & ST2 & F2).
    exists s2. rewrite flat_map_cons, bst_run_app, R1, R2.
    rewrite app_assoc. split; [reflexivity|]. auto.
Qed.

Lemma err_flags_firstn : forall k ws e, err_flags e (firstn k ws) = firstn k (err_flags e ws).
Proof.
  induction k as [|k IH]; intros [|w ws] e; try reflexivity.
  cbn [firstn err_flags]. f_equal. apply IH.
Qed.

Lemma err_flags_length : forall ws e, length (err_flags e ws) = length ws.
Proof. induction ws as [|w ws IH]; intros e; cbn; [reflexivity|]. f_equal. apply IH. Qed.

Lemma err_flags_app : forall ws vs e,
  err_flags e (ws ++ vs) = err_flags e ws ++ err_flags (expect_after e ws) vs.
Proof.
  induction ws as [|w ws IH]; intros vs e; [reflexivity|].
  cbn [app err_flags expect_after]. f_equal. apply IH.
Qed.

Lemma expect_after_app : forall ws vs e, expect_after e (ws ++ vs) = expect_after (expect_after e ws) vs.
Proof. induction ws as [|w ws IH]; intros vs e; [reflexivity|]. cbn. apply IH. Qed.

Lemma rs_push_flag_abs : forall r h b, rs_abs r (map flag h) -> rs_abs (rs_push r (flag b)) (map flag (h ++ [b])).
Proof. intros r h b H. rewrite map_app. apply rs_push_abs. exact H. Qed.

(* One step: kept iff at most 42 errors among the last 50. *)
Lemma sync_step_kept : forall fec e r g w h, rs_abs r (map flag h) ->
  let f := negb (Offset_eqb (recognise w) (settle e (recognise w))) in
  if count_true (lastn 50 (h ++ [f])) <=? 42
  then exists g' gs r', sync_step fec (e, r, g) w = (Some (following (settle e (recognise w)), r', g'), gs) /\
       rs_abs r' (map flag (h ++ [f]))
  else sync_step fec (e, r, g) w = (None, []).
Proof.
  intros fec e r g w h R f. pose proof (rs_push_flag_abs r h f R) as R'.
  pose proof (rs_sum_abs _ _ R') as S. unfold sync_step. fold f. rewrite S.
  rewrite N.leb_antisym.
  destruct (42 <? count_true (lastn 50 (h ++ [f]))); cbn [negb]; [reflexivity|].
  destruct (Offset_eqb (following (settle e (recognise w))) OffA) eqn:FA.
  - apply Offset_eqb_eq in FA. rewrite FA. eauto 10.
  - eauto 10.
Qed.


Lemma sync_steps_kept : forall ws fec e r g h, rs_abs r (map flag h) ->
  kept h (err_flags e ws) ->
  exists g' gs r', sync_steps fec (e, r, g) ws = (Some (expect_after e ws, r', g'), gs) /\
    rs_abs r' (map flag (h ++ err_flags e ws)).
Proof.
  induction ws as [|w ws IH]; intros fec e r g h R K.
  - cbn. exists g, [], r. rewrite app_nil_r. auto.
  - cbn [sync_steps expect_after err_flags] in *.
    set (f := negb (Offset_eqb (recognise w) (settle e (recognise w)))) in *.
    pose proof (sync_step_kept fec e r g w h R) as S. cbn zeta in S. fold f in S.
    assert (K1 : count_true (lastn 50 (h ++ [f])) <= 42).
    { apply (K 1%nat). cbn. lia. }
    apply N.leb_le in K1. rewrite K1 in S. destruct S as (g1 & gs1 & r1 & S1 & R1).
    rewrite S1.
    destruct (IH fec (following (settle e (recognise w))) r1 g1 (h ++ [f]) R1) as (g2 & gs2 & r2 & S2 & R2).
    { intros k Hk. rewrite <- app_assoc. apply (K (S k)). cbn [length]. lia. }
    rewrite S2. exists g2, (gs1 ++ gs2), r2. split; [reflexivity|].
    rewrite <- app_assoc in R2. exact R2.
Qed.

(* --- from the moment sync is acquired --- *)


Lemma state_after_app : forall fec l m, state_after fec (l ++ m) = fst (bst_run (state_after fec l) m).
Proof.
  intros fec l m. unfold state_after. rewrite bst_run_app.
  destruct (bst_run (BlockStream_init fec) l) as [s1 g1]. cbn [fst].
  destruct (bst_run s1 m); reflexivity.
Qed.

Lemma state_after_inv : forall fec bits, Inv (state_after fec bits) /\
  reg_hist (state_after fec bits) bits /\ bst_use_fec (state_after fec bits) = fec.
Proof.
  intros fec bits. unfold state_after.
  destruct (bst_run (BlockStream_init fec) bits) as [s gs] eqn:R. cbn [fst].
  exact (run_reachable fec bits s gs R).
Qed.

Lemma acquires_state : forall fec pre b, acquires fec pre b ->
  let o := recognise (window (pre ++ [b])) in
  let s := state_after fec (pre ++ [b]) in
  at_boundary s (pre ++ [b]) /\ real_offset o /\ bst_expected_offset s = following o /\
  rs_abs (bst_error_sum50 s) (map flag [false]).
Proof.
  intros fec pre b [A0 A1] o s.
  destruct (state_after_inv fec pre) as (I0 & RH0 & F0).
  destruct (state_after_inv fec (pre ++ [b])) as (I1 & RH1 & F1).
  fold s in I1, RH1, F1, A1.
  assert (SE : s = fst (bst_step (state_after fec pre) b)).
  { unfold s. rewrite state_after_app, bst_run_one. destruct (bst_step _ b) as [? []]; reflexivity. }
  destruct (bst_step (state_after fec pre) b) as [s' og] eqn:S. cbn [fst] in SE.
  rewrite SE in *. clear s SE.
  destruct (inv_unsync _ I0 A0) as (_ & RA).
  pose proof (bst_step_kind _ pre b s' og I0 RH0 S) as K.
  destruct K
    as [Hu Hs|s3 Hs E1 Hn|s3 st gs s' Hs E1 Hn SS IS' U' ST FE RE BC SB HR
       |st gs s' Hs U0 SS IS' U' ST FE RE BC SB HR|s' Hs U0 SS IS' U' RA' FE RE BC SB HR];
    try congruence.
  - cbn in A1. congruence.
  - fold o in SS. destruct st as [[e r] g]. injection ST as X1 X2 X3.
    destruct (sync_step_inv _ _ _ _ _ _ _ _ _ (inv_wf _ I0) SS) as (V1 & V2 & V3 & V4 & V5 & V6).
    fold o in V5, V6. rewrite settle_same, Offset_eqb_refl in V5. rewrite settle_same in V6.
    split; [|split; [|split]].
    + split; [exact I1|]. split; [exact RH1|]. split; assumption.
    + assert (HS' : bst_is_in_sync (shifted (state_after fec pre) b) = false) by exact Hs.
      rewrite E1 in Hn. destruct (acquire_synced _ _ HS' Hn) as (Q1 & _). exact Q1.
    + congruence.
    + rewrite X2, V5. apply (rs_push_flag_abs _ [] false). exact RA.
Qed.

(* C06: kept in sync through ws iff at every block at most 42 of the last 50 were bad. *)
Lemma kept_firstn : forall h fl k, kept h fl -> kept h (firstn k fl).
Proof.
  intros h fl k K j Hj. rewrite firstn_length in Hj. rewrite firstn_firstn.
  replace (Nat.min j k) with j by lia. apply K. lia.
Qed.

Lemma in_sync_blocks : forall fec pre b ws, acquires fec pre b ->
  Forall (fun w => w < 2 ^ 26) ws ->
  let o := recognise (window (pre ++ [b])) in
  kept [false] (err_flags (following o) ws) ->
  at_boundary (state_after fec (pre ++ [b] ++ flat_map block_bits ws)) (pre ++ [b] ++ flat_map block_bits ws) /\
  bst_expected_offset (state_after fec (pre ++ [b] ++ flat_map block_bits ws)) = expect_after (following o) ws /\
  rs_abs (bst_error_sum50 (state_after fec (pre ++ [b] ++ flat_map block_bits ws)))
         (map flag ([false] ++ err_flags (following o) ws)).
Proof.
  intros fec pre b ws AQ HF o K.
  destruct (acquires_state fec pre b AQ) as (AB & Ho & EX & RA). fold o in Ho, EX.
  rewrite !(app_assoc pre [b]). rewrite state_after_app.
  set (s := state_after fec (pre ++ [b])) in *.
  destruct (sync_steps_kept ws (bst_use_fec s) (bst_expected_offset s) (bst_error_sum50 s)
              (bst_current_group s) [false] RA) as (g' & gs & r' & S & R').
  { rewrite EX. exact K. }
  pose proof (run_blocks ws s (pre ++ [b]) AB HF) as RB.
  change (bst_expected_offset s, bst_error_sum50 s, bst_current_group s) with (st_of s) in S.
  rewrite S in RB. destruct RB as (s' & R & AB' & ST & F). rewrite R. cbn [fst].
  injection ST as Y1 Y2 Y3. rewrite Y1, Y2, EX in *. auto.
Qed.

Lemma lost_block : forall fec pre b ws w, acquires fec pre b ->
  Forall (fun w => w < 2 ^ 26) ws -> w < 2 ^ 26 ->
  let o := recognise (window (pre ++ [b])) in
  kept [false] (err_flags (following o) ws) ->
  bst_is_in_sync (state_after fec (pre ++ [b] ++ flat_map block_bits (ws ++ [w]))) =
  (count_true (lastn 50 ([false] ++ err_flags (following o) (ws ++ [w]))) <=? 42).
Proof.
  intros fec pre b ws w AQ HF Hw o K.
  destruct (in_sync_blocks fec pre b ws AQ HF K) as (AB & EX & RA). fold o in EX, RA.
  set (s := state_after fec (pre ++ [b] ++ flat_map block_bits ws)) in *.
  assert (SE : state_after fec (pre ++ [b] ++ flat_map block_bits (ws ++ [w])) = fst (bst_run s (block_bits w))).
  { unfold s. rewrite <- state_after_app. f_equal. rewrite flat_map_app. cbn [flat_map].
    rewrite app_nil_r, <- !app_assoc. reflexivity. }
  rewrite SE.
  pose proof (run_block s _ w AB Hw) as RB.
  pose proof (sync_step_kept (bst_use_fec s) (bst_expected_offset s) (bst_error_sum50 s)
    (bst_current_group s) w _ RA) as S. cbn zeta in S.
  change (bst_expected_offset s, bst_error_sum50 s, bst_current_group s) with (st_of s) in S.
  rewrite err_flags_app. cbn [err_flags]. rewrite <- EX, app_assoc.
  destruct (count_true _ <=? 42).
  - destruct S as (g' & gs & r' & S & _). rewrite S in RB.
    destruct RB as (s' & R & (_ & _ & Q & _) & _). rewrite R. exact Q.
  - rewrite S in RB. destruct RB as (s' & R & Q & _). rewrite R. exact Q.
Qed.

Lemma sync_iff : forall fec pre b ws, acquires fec pre b ->
  Forall (fun w => w < 2 ^ 26) ws ->
  let o := recognise (window (pre ++ [b])) in
  (forall k, (k <= length ws)%nat ->
     bst_is_in_sync (state_after fec (pre ++ [b] ++ flat_map block_bits (firstn k ws))) = true) <->
  (forall k, (k <= length ws)%nat ->
     count_true (lastn 50 ([false] ++ err_flags (following o) (firstn k ws))) <= 42).
Proof.
  intros fec pre b ws AQ HF o. split.
  - intros HS k. induction k as [|k IH]; intros Hk.
    + cbn. lia.
    + assert (PK : kept [false] (err_flags (following o) (firstn k ws))).
      { clear IH. revert Hk. induction k as [|k IHk]; intros Hk j Hj.
        - cbn in Hj. replace j with 0%nat by lia. cbn. lia.
        - specialize (IHk ltac:(lia)).
          rewrite err_flags_length, firstn_length in Hj.
          destruct (Nat.eq_dec j (S k)) as [->|NE].
          + assert (EW : exists w, firstn (S k) ws = firstn k ws ++ [w] /\ w < 2 ^ 26).
            { destruct (nth_error ws k) as [w|] eqn:N; [|apply nth_error_None in N; lia].
              exists w. split.
              - apply nth_error_split in N. destruct N as (l1 & l2 & -> & L1). subst k.
                rewrite firstn_app, (firstn_all2 l1) by lia.
                replace (S (length l1) - length l1)%nat with 1%nat by lia.
                rewrite firstn_app, firstn_all, Nat.sub_diag. cbn. rewrite app_nil_r. reflexivity.
              - rewrite Forall_forall in HF. apply HF. eapply nth_error_In. exact N. }
            destruct EW as (w & EW & Hw).
            rewrite err_flags_firstn, firstn_firstn, Nat.min_id, <- err_flags_firstn.
            pose proof (lost_block fec pre b (firstn k ws) w AQ
              ltac:(apply Forall_firstn; exact HF) Hw IHk) as LB. fold o in LB.
            rewrite <- EW, HS in LB by lia. symmetry in LB. apply N.leb_le in LB. exact LB.
          + rewrite err_flags_firstn, firstn_firstn.
            replace (Nat.min j (S k)) with j by lia.
            specialize (IHk j). rewrite err_flags_firstn, firstn_length, err_flags_length, firstn_firstn in IHk.
            replace (Nat.min j k) with j in IHk by lia. apply IHk. lia. }
      assert (EW : exists w, firstn (S k) ws = firstn k ws ++ [w] /\ w < 2 ^ 26).
      { destruct (nth_error ws k) as [w|] eqn:N; [|apply nth_error_None in N; lia].
        exists w. split.
        - apply nth_error_split in N. destruct N as (l1 & l2 & -> & L1). subst k.
          rewrite firstn_app, (firstn_all2 l1) by lia.
          replace (S (length l1) - length l1)%nat with 1%nat by lia.
          rewrite firstn_app, firstn_all, Nat.sub_diag. cbn. rewrite app_nil_r. reflexivity.
        - rewrite Forall_forall in HF. apply HF. eapply nth_error_In. exact N. }
      destruct EW as (w & EW & Hw).
      pose proof (lost_block fec pre b (firstn k ws) w AQ
              ltac:(apply Forall_firstn; exact HF) Hw PK) as LB. fold o in LB.
      rewrite <- EW, HS in LB by lia. symmetry in LB. apply N.leb_le in LB. exact LB.
  - intros HC k Hk.
    assert (PK : kept [false] (err_flags (following o) (firstn k ws))).
    { intros j Hj. rewrite err_flags_length, firstn_length in Hj.
      rewrite err_flags_firstn, firstn_firstn. replace (Nat.min j k) with j by lia.
      rewrite <- err_flags_firstn. apply HC. lia. }
    destruct (in_sync_blocks fec pre b (firstn k ws) AQ ltac:(apply Forall_firstn; exact HF) PK)
      as ((_ & _ & Q & _) & _). exact Q.
Qed.

(* No loss between block boundaries. *)
Lemma mid_block_sync : forall fec pre b ws l, acquires fec pre b ->
  Forall (fun w => w < 2 ^ 26) ws -> (length l < 26)%nat ->
  (forall k, (k <= length ws)%nat ->
     bst_is_in_sync (state_after fec (pre ++ [b] ++ flat_map block_bits (firstn k ws))) = true) ->
  bst_is_in_sync (state_after fec (pre ++ [b] ++ flat_map block_bits ws ++ l)) = true.
Proof.
  intros fec pre b ws l AQ HF HL HS.
  pose proof (proj1 (sync_iff fec pre b ws AQ HF) HS) as HC. cbn zeta in HC.
  set (o := recognise (window (pre ++ [b]))) in *.
  assert (PK : kept [false] (err_flags (following o) ws)).
  { intros j Hj. rewrite err_flags_length in Hj. rewrite <- err_flags_firstn. apply HC. exact Hj. }
  destruct (in_sync_blocks fec pre b ws AQ HF PK) as ((I & RH & Q & U) & _).
  rewrite app_assoc, app_assoc, state_after_app, <- app_assoc.
  destruct (run_mid l _ _ I RH Q) as (s' & R & Q' & _); [rewrite U; lia|].
  rewrite R. exact Q'.
Qed.
