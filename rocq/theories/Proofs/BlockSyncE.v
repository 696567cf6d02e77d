(* Delivery of transmitted groups while in sync. *)
From Verif.Model Require Import Base Util Group BlockSync.
From Verif.Spec Require Import RdsCode RdsStream Reception.
From Verif.Proofs Require Import Tac Syndrome Ring BlockSyncP BlockSyncR BlockSyncT BlockSyncD BlockSyncG.

Lemma rx_words_lt4 : forall fec t e1 e2 e3 e4, rx_ok fec (t, (e1, e2, e3, e4)) ->
  N.lxor (tx_block OffA (tx1 t)) e1 < 2 ^ 26 /\ N.lxor (tx_block OffB (tx2 t)) e2 < 2 ^ 26 /\
  N.lxor (tx_block (third_offset t) (tx3 t)) e3 < 2 ^ 26 /\ N.lxor (tx_block OffD (tx4 t)) e4 < 2 ^ 26.
Proof.
  intros fec t e1 e2 e3 e4 ((T1 & T2 & T3 & T4) & X1 & X2 & X3 & X4 & XC).
  repeat split; (apply lxor_lt_pow2; [apply tx_block_lt; assumption|eapply fixable_lt; eassumption]).
Qed.

Lemma blocks_delivered : forall fec t e1 e2 e3 e4, rx_ok fec (t, (e1, e2, e3, e4)) ->
  delivered t (bad4 (e1, e2, e3, e4))
   (blocks_of fec (N.lxor (tx_block OffA (tx1 t)) e1) (N.lxor (tx_block OffB (tx2 t)) e2)
      (N.lxor (tx_block (third_offset t) (tx3 t)) e3) (N.lxor (tx_block OffD (tx4 t)) e4)).
Proof.
  intros fec t e1 e2 e3 e4 R. destruct (rx_words_lt4 _ _ _ _ _ _ R) as (L1 & L2 & L3 & L4).
  destruct R as ((T1 & T2 & T3 & T4) & X1 & X2 & X3 & X4 & XC).
  destruct (block_ok fec OffA (tx1 t) e1 ltac:(discriminate) T1 X1 ltac:(discriminate)) as (_ & _ & B1).
  destruct (block_ok fec OffB (tx2 t) e2 ltac:(discriminate) T2 X2 ltac:(discriminate)) as (_ & _ & B2).
  destruct (block_ok fec (third_offset t) (tx3 t) e3 (third_real t) T3 X3 XC) as (S3 & _ & B3).
  destruct (block_ok fec OffD (tx4 t) e4 ltac:(discriminate) T4 X4 ltac:(discriminate)) as (_ & _ & B4).
  assert (SL : slot (third_offset t) = OffC) by (unfold third_offset; destruct (N.testbit _ _); reflexivity).
  rewrite SL in S3.
  pose proof (blocks_of_block fec (N.lxor (tx_block OffA (tx1 t)) e1) (N.lxor (tx_block OffB (tx2 t)) e2)
      (N.lxor (tx_block (third_offset t) (tx3 t)) e3) (N.lxor (tx_block OffD (tx4 t)) e4)) as BB.
  pose proof (blocks_of_type fec _ _ _ _ L1 L2 L3 L4) as (_ & TY & _).
  pose proof (blocks_of_type_complete fec _ _ _ _ L1 L2 L3 L4) as TC. cbn zeta in TC.
  set (g := blocks_of fec _ _ _ _) in *. clearbody g.
  pose proof (BB BLOCK1) as G1. pose proof (BB BLOCK2) as G2. pose proof (BB BLOCK3) as G3.
  pose proof (BB BLOCK4) as G4. clear BB.
  cbn [g_block own_offset word_of] in G1, G2, G3, G4. rewrite S3 in G3.
  rewrite B1 in G1. rewrite B2 in G2. rewrite B3 in G3. rewrite B4 in G4.
  unfold g_has, g_get in *. cbn [g_block] in *. unfold delivered, bad4.
  unfold g_has, g_get. cbn [g_block]. rewrite G1, G2, G3, G4 in *.
  cbn [blk_is_received blk_data blk_had_errors blk_offset] in *.
  specialize (TY eq_refl). rewrite type_of_block2 in TY by exact T2.
  split; [auto|]. split; [auto|]. split; [auto|]. split; [auto|].
  split; [|rewrite TY; split; reflexivity].
  apply TC; [reflexivity|]. rewrite TY. cbn [gt_version]. unfold third_offset.
  destruct (N.testbit (tx2 t) 11); [auto|discriminate].
Qed.

Lemma group_ok : forall fec te r g0 st gs, rx_ok fec te -> g0 = Group_default ->
  sync_steps fec (OffA, r, g0) (rx_words (fst te) (snd te)) = (Some st, gs) ->
  exists g r', st = (OffA, r', Group_default) /\ gs = [g] /\ delivered (fst te) (bad4 (snd te)) g.
Proof.
  intros fec [t [[[e1 e2] e3] e4]] r g0 st gs R -> H. cbn [fst snd rx_words] in *.
  destruct (four_words _ _ _ _ _ _ _ _ H) as (-> & r' & ->).
  eexists. exists r'. split; [reflexivity|]. split; [reflexivity|]. apply blocks_delivered. exact R.
Qed.

Lemma rx_words_lt : forall fec te, rx_ok fec te -> Forall (fun w => w < 2 ^ 26) (rx_words (fst te) (snd te)).
Proof.
  intros fec [t [[[e1 e2] e3] e4]] ((T1 & T2 & T3 & T4) & X1 & X2 & X3 & X4 & XC).
  cbn [fst snd rx_words].
  repeat constructor; (apply lxor_lt_pow2; [apply tx_block_lt; assumption|eapply fixable_lt; eassumption]).
Qed.


Lemma rx_bits_words : forall tes, flat_map rx_bits tes = flat_map block_bits (all_words tes).
Proof.
  induction tes as [|te tes IH]; [reflexivity|].
  unfold all_words. rewrite !flat_map_cons, flat_map_app. unfold rx_bits at 1. f_equal. exact IH.
Qed.

Lemma groups_ok : forall tes fec r st gs, Forall (rx_ok fec) tes ->
  sync_steps fec (OffA, r, Group_default) (all_words tes) = (Some st, gs) ->
  Forall2 (fun te g => delivered (fst te) (bad4 (snd te)) g) tes gs /\
  exists r', st = (OffA, r', Group_default).
Proof.
  induction tes as [|te tes IH]; intros fec r st gs HF H.
  - cbn in H. injection H as <- <-. split; [constructor|eauto].
  - inversion HF as [|te0 tes0 H1 H2 E]; subst.
    unfold all_words in H. rewrite flat_map_cons in H. fold (all_words tes) in H.
    destruct (sync_steps_app fec (rx_words (fst te) (snd te)) (all_words tes) (OffA, r, Group_default)) as [A|A].
    2: { rewrite H in A. discriminate A. }
    rewrite A in H. clear A.
    destruct (sync_steps fec (OffA, r, Group_default) (rx_words (fst te) (snd te))) as [[st1|] gs1] eqn:S1;
      [|discriminate H].
    destruct (group_ok fec te r Group_default st1 gs1 H1 eq_refl S1) as (g & r' & -> & -> & D).
    destruct (sync_steps fec (OffA, r', Group_default) (all_words tes)) as [o gs2] eqn:S2.
    injection H as -> <-.
    destruct (IH fec r' st gs2 H2 S2) as (F & Q).
    split; [constructor; assumption|exact Q].
Qed.


Lemma delivery : forall fec pre b ws0 tes, acquires fec pre b ->
  Forall (fun w => w < 2 ^ 26) ws0 -> Forall (rx_ok fec) tes ->
  let o := recognise (window (pre ++ [b])) in
  kept [false] (err_flags (following o) (ws0 ++ all_words tes)) ->
  expect_after (following o) ws0 = OffA ->
  Forall2 (fun te g => delivered (fst te) (bad4 (snd te)) g) tes
    (groups_after fec (pre ++ [b] ++ flat_map block_bits ws0) (flat_map rx_bits tes)).
Proof.
  intros fec pre b ws0 tes AQ HF HT o K EA.
  assert (K0 : kept [false] (err_flags (following o) ws0)).
  { replace (err_flags (following o) ws0)
      with (firstn (length ws0) (err_flags (following o) (ws0 ++ all_words tes))).
    - apply kept_firstn. exact K.
    - rewrite <- err_flags_firstn, firstn_app, Nat.sub_diag, firstn_all. cbn. rewrite app_nil_r. reflexivity. }
  destruct (in_sync_blocks fec pre b ws0 AQ HF K0) as (AB & EX & RA). fold o in EX, RA.
  unfold groups_after.
  destruct (state_after_inv fec (pre ++ [b] ++ flat_map block_bits ws0)) as (_ & _ & FE).
  set (s := state_after fec (pre ++ [b] ++ flat_map block_bits ws0)) in *.
  rewrite EA in EX.
  assert (HW : Forall (fun w => w < 2 ^ 26) (all_words tes)).
  { clear -HT. induction tes as [|te tes IH]; [constructor|].
    inversion HT as [|x y H1 H2 E]; subst. unfold all_words. rewrite flat_map_cons.
    apply Forall_app. split; [eapply rx_words_lt; exact H1|apply IH; exact H2]. }
  rewrite rx_bits_words.
  pose proof (run_blocks (all_words tes) s _ AB HW) as RB.
  destruct AB as (I & _ & Q & _). destruct (inv_sync _ I Q) as (_ & _ & _ & CG).
  specialize (CG EX).
  unfold st_of in RB. rewrite EX, CG, FE in RB.
  destruct (sync_steps_kept (all_words tes) fec OffA (bst_error_sum50 s) Group_default
    ([false] ++ err_flags (following o) ws0) RA) as (g' & gs & r' & S & _).
  { intros k Hk. rewrite <- app_assoc.
    specialize (K (length ws0 + k)%nat). rewrite err_flags_app, EA in K.
    rewrite firstn_app, err_flags_length in K.
    replace (length ws0 + k - length ws0)%nat with k in K by lia.
    rewrite (firstn_all2 (err_flags (following o) ws0)) in K by (rewrite err_flags_length; lia).
    apply K. rewrite app_length, !err_flags_length in *. lia. }
  rewrite S in RB. destruct RB as (s' & R & _). rewrite R. cbn [snd].
  exact (proj1 (groups_ok tes fec _ _ gs HT S)).
Qed.

Lemma window_index_in_range : forall fec bits,
  rs_pointer (bst_error_sum50 (state_after fec bits)) < 50 /\
  length (rs_history (bst_error_sum50 (state_after fec bits))) = 50%nat.
Proof.
  intros fec bits. destruct (state_after_inv fec bits) as (I & _ & _).
  destruct (inv_wf _ I) as [H1 H2]. split; assumption.
Qed.

Lemma run_app_split : forall s l m,
  snd (bst_run s (l ++ m)) = snd (bst_run s l) ++ snd (bst_run (fst (bst_run s l)) m) /\
  fst (bst_run s (l ++ m)) = fst (bst_run (fst (bst_run s l)) m).
Proof.
  intros s l m. rewrite bst_run_app. destruct (bst_run s l) as [s1 g1]. cbn [fst snd].
  destruct (bst_run s1 m) as [s2 g2]. split; reflexivity.
Qed.

Lemma pi_source : forall g, gt_version (g_type g) <> VC ->
  (g_has g BLOCK1 = true -> g_hasPI g = true /\ g_getPI g = g_get g BLOCK1) /\
  (g_has g BLOCK1 = false -> g_has g BLOCK3 = true -> blk_offset (g_block g BLOCK3) = OffCprime ->
     g_hasPI g = true /\ g_getPI g = g_get g BLOCK3) /\
  (g_has g BLOCK1 = false -> (g_has g BLOCK3 = false \/ blk_offset (g_block g BLOCK3) <> OffCprime) ->
     g_hasPI g = false).
Proof.
  intros g HV. unfold g_hasPI, g_getPI, g_has, g_get, g_block.
  assert (V : Version_eqb (gt_version (g_type g)) VC = false).
  { destruct (gt_version (g_type g)); try reflexivity. exfalso. apply HV. reflexivity. }
  rewrite V. cbn [negb andb]. split; [|split].
  - intros ->. split; reflexivity.
  - intros -> -> ->. split; reflexivity.
  - intros -> [->|H]; [reflexivity|].
    destruct (Offset_eqb (blk_offset (g_b3 g)) OffCprime) eqn:E.
    + apply Offset_eqb_eq in E. contradiction.
    + cbn. apply andb_false_r.
Qed.

Lemma words4_lt : forall w1 w2 w3 w4, Forall (fun w => w < 2 ^ 26) [w1; w2; w3; w4] ->
  w1 < 2 ^ 26 /\ w2 < 2 ^ 26 /\ w3 < 2 ^ 26 /\ w4 < 2 ^ 26.
Proof. intros w1 w2 w3 w4 H. rewrite Forall_forall in H. repeat split; apply H; cbn; tauto. Qed.

Lemma group_exact : forall fec pre b ws0 w1 w2 w3 w4, acquires fec pre b ->
  Forall (fun w => w < 2 ^ 26) ws0 -> Forall (fun w => w < 2 ^ 26) [w1; w2; w3; w4] ->
  let o := recognise (window (pre ++ [b])) in
  kept [false] (err_flags (following o) (ws0 ++ [w1; w2; w3; w4])) ->
  expect_after (following o) ws0 = OffA ->
  exists g, groups_after fec (pre ++ [b] ++ flat_map block_bits ws0) (flat_map block_bits [w1; w2; w3; w4]) = [g] /\
  forall n,
    (g_has g n = true <->
     exists d e, d < 2 ^ 16 /\ fixable fec e /\ word_of w1 w2 w3 w4 n = N.lxor (tx_block (own_offset w3 n) d) e) /\
    (g_has g n = true ->
     g_get g n < 2 ^ 16 /\
     exists e, fixable fec e /\ word_of w1 w2 w3 w4 n = N.lxor (tx_block (own_offset w3 n) (g_get g n)) e /\
               blk_had_errors (g_block g n) = negb (e =? 0) /\ blk_offset (g_block g n) = own_offset w3 n).
Proof.
  intros fec pre b ws0 w1 w2 w3 w4 AQ HF HW o K EA.
  exists (blocks_of fec w1 w2 w3 w4).
  split; [exact (group_contents fec pre b ws0 w1 w2 w3 w4 AQ HF HW K EA)|].
  intros n.
  assert (WN : word_of w1 w2 w3 w4 n < 2 ^ 26).
  { destruct (words4_lt _ _ _ _ HW) as (A & B & C & D). destruct n; assumption. }
  pose proof (blocks_of_block fec w1 w2 w3 w4 n) as BB.
  unfold g_has, g_get. rewrite BB.
  pose proof (own_offset_real w3 n) as RO.
  destruct (blk_of fec (own_offset w3 n) (word_of w1 w2 w3 w4 n)) as [bk|] eqn:E.
  - destruct (blk_of_sound _ _ _ _ WN RO E) as (X1 & X2 & X3 & e & X4 & X5 & X6).
    split.
    + split; [|intros _; exact X1]. intros _. exists (blk_data bk), e. auto.
    + intros _. split; [exact X3|]. exists e. auto.
  - split.
    + split; [intros X; discriminate X|]. intros (d & e & Hd & He & EW).
      exfalso. exact (blk_of_complete fec _ _ d e RO Hd He EW E).
    + intros X; discriminate X.
Qed.

Lemma type_exact : forall fec pre b ws0 w1 w2 w3 w4, acquires fec pre b ->
  Forall (fun w => w < 2 ^ 26) ws0 -> Forall (fun w => w < 2 ^ 26) [w1; w2; w3; w4] ->
  let o := recognise (window (pre ++ [b])) in
  kept [false] (err_flags (following o) (ws0 ++ [w1; w2; w3; w4])) ->
  expect_after (following o) ws0 = OffA ->
  exists g, groups_after fec (pre ++ [b] ++ flat_map block_bits ws0) (flat_map block_bits [w1; w2; w3; w4]) = [g] /\
  (g_has_type g = true <->
   g_has g BLOCK2 = true /\
   (N.testbit (g_get g BLOCK2) 11 = true -> g_has g BLOCK3 = true /\ blk_offset (g_block g BLOCK3) = OffCprime)) /\
  (g_has_type g = true ->
   gt_number (g_type g) = g_get g BLOCK2 / 4096 /\
   gt_version (g_type g) = if N.testbit (g_get g BLOCK2) 11 then VB else VA).
Proof.
  intros fec pre b ws0 w1 w2 w3 w4 AQ HF HW o K EA.
  exists (blocks_of fec w1 w2 w3 w4).
  split; [exact (group_contents fec pre b ws0 w1 w2 w3 w4 AQ HF HW K EA)|].
  destruct (words4_lt _ _ _ _ HW) as (A & B & C & D).
  destruct (blocks_of_type fec w1 w2 w3 w4 A B C D) as (T1 & T2 & T3).
  pose proof (blocks_of_type_complete fec w1 w2 w3 w4 A B C D) as T4. cbn zeta in T4.
  assert (D2 : g_has (blocks_of fec w1 w2 w3 w4) BLOCK2 = true -> g_get (blocks_of fec w1 w2 w3 w4) BLOCK2 < 2 ^ 16).
  { unfold g_has, g_get. rewrite blocks_of_block. cbn [own_offset word_of].
    destruct (blk_of fec OffB w2) as [bk|] eqn:E; [|discriminate].
    intros _. destruct (blk_of_sound fec OffB w2 bk B ltac:(discriminate) E) as (_ & _ & X & _). exact X. }
  set (g := blocks_of fec w1 w2 w3 w4) in *. clearbody g.
  assert (TY : g_has g BLOCK2 = true -> g_type g =
     mkGroupType (g_get g BLOCK2 / 4096) (if N.testbit (g_get g BLOCK2) 11 then VB else VA)).
  { intros H. rewrite T2, type_of_block2 by auto. reflexivity. }
  split.
  - split.
    + intros H. specialize (T1 H). split; [exact T1|]. intros HB.
      apply T3; [exact H|]. rewrite TY by exact T1. rewrite HB. reflexivity.
    + intros [H1 H2]. apply T4; [exact H1|]. rewrite TY by exact H1. cbn [gt_version].
      destruct (N.testbit (g_get g BLOCK2) 11); [|discriminate]. intros _. apply H2. reflexivity.
  - intros H. specialize (T1 H). rewrite TY by exact T1. split; reflexivity.
Qed.

Lemma all_words_zero : forall ts, flat_map tx_bits ts =
  flat_map rx_bits (map (fun t => (t, (0, 0, 0, 0))) ts).
Proof.
  induction ts as [|t ts IH]; [reflexivity|]. cbn [map]. rewrite !flat_map_cons, IH. f_equal.
  unfold rx_bits, tx_bits. cbn [fst snd rx_words tx_words]. rewrite !N.lxor_0_r. reflexivity.
Qed.

Lemma rx_zero_ok : forall fec ts, Forall tx_ok ts -> Forall (rx_ok fec) (map (fun t => (t, (0, 0, 0, 0))) ts).
Proof.
  intros fec ts H. apply Forall_map. eapply Forall_impl; [|exact H]. intros t Ht.
  unfold rx_ok, fixable. tauto.
Qed.

Lemma flags_zero : forall fec tes, Forall (rx_ok fec) tes -> Forall (fun te => snd te = (0, 0, 0, 0)) tes ->
  Forall (eq false) (err_flags OffA (all_words tes)) /\ expect_after OffA (all_words tes) = OffA.
Proof.
  intros fec tes HR HZ. induction tes as [|[t e] tes IH]; [split; [constructor|reflexivity]|].
  inversion HR as [|x y R1 R2 E1]; subst. inversion HZ as [|x y Z1 Z2 E2]; subst. cbn in Z1. subst e.
  destruct R1 as ((T1 & T2 & T3 & T4) & _).
  unfold all_words. rewrite flat_map_cons. fold (all_words tes).
  rewrite err_flags_app, expect_after_app.
  assert (Q : err_flags OffA (rx_words t (0, 0, 0, 0)) = [false; false; false; false] /\
              expect_after OffA (rx_words t (0, 0, 0, 0)) = OffA).
  { cbn [rx_words err_flags expect_after]. rewrite !N.lxor_0_r.
    rewrite !recognise_tx by (assumption || discriminate || apply third_real).
    cbn [settle following Offset_eqb negb].
    unfold third_offset. destruct (N.testbit (tx2 t) 11); split; reflexivity. }
  destruct Q as [Q1 Q2]. cbn [fst snd]. rewrite Q1, Q2.
  destruct (IH R2 Z2) as [I1 I2]. split; [|exact I2].
  apply Forall_app. split; [repeat constructor|exact I1].
Qed.

Lemma count_true_app : forall l m, count_true (l ++ m) = count_true l + count_true m.
Proof. induction l as [|b l IH]; intros m; cbn; [reflexivity|]. rewrite IH. lia. Qed.

Lemma count_true_false : forall l, Forall (eq false) l -> count_true l = 0.
Proof. induction 1 as [|b l E F IH]; [reflexivity|]. subst b. cbn. exact IH. Qed.

Lemma lastn_app_count : forall n (l m : list bool), Forall (eq false) m ->
  count_true (lastn n (l ++ m)) <= count_true (lastn n l).
Proof.
  intros n l m HM. unfold lastn. rewrite app_length, skipn_app.
  rewrite count_true_app.
  assert (Z : count_true (skipn (length l + length m - n - length l) m) = 0).
  { apply count_true_false. clear -HM. generalize (length l + length m - n - length l)%nat as k. revert m HM.
    intros m HM k. revert k. induction HM as [|b m E F IH]; intros [|k]; cbn; auto. }
  rewrite Z, N.add_0_r.
  assert (MONO : forall k j (x : list bool), count_true (skipn (j + k) x) <= count_true (skipn j x)).
  { clear. intros k j. induction j as [|j IH]; intros x.
    - cbn [plus skipn]. revert x. induction k as [|k IHk]; intros [|b y]; cbn; try lia. specialize (IHk y). destruct b; lia.
    - destruct x as [|b y]; cbn [plus skipn]; [lia|apply IH]. }
  replace (length l + length m - n)%nat with ((length l - n) + (length l + length m - n - (length l - n)))%nat by lia.
  apply MONO.
Qed.

Lemma kept_app_good : forall h fl gl, kept h fl -> Forall (eq false) gl -> kept h (fl ++ gl).
Proof.
  intros h fl gl K G k Hk. rewrite app_length in Hk.
  destruct (Nat.le_gt_cases k (length fl)) as [L|L].
  - rewrite firstn_app. replace (k - length fl)%nat with 0%nat by lia. rewrite firstn_O, app_nil_r.
    apply K. exact L.
  - rewrite firstn_app, (firstn_all2 fl) by lia. rewrite app_assoc.
    eapply N.le_trans.
    + apply lastn_app_count. apply Forall_firstn. exact G.
    + specialize (K (length fl) ltac:(lia)). rewrite firstn_all in K. exact K.
Qed.

Lemma error_free_delivery : forall fec pre b ws0 ts, acquires fec pre b ->
  Forall (fun w => w < 2 ^ 26) ws0 -> Forall tx_ok ts ->
  let o := recognise (window (pre ++ [b])) in
  kept [false] (err_flags (following o) ws0) ->
  expect_after (following o) ws0 = OffA ->
  Forall2 (fun t g => delivered t (false, false, false, false) g) ts
    (groups_after fec (pre ++ [b] ++ flat_map block_bits ws0) (flat_map tx_bits ts)) /\
  in_sync_after fec (pre ++ [b] ++ flat_map block_bits ws0 ++ flat_map tx_bits ts) = true.
Proof.
  intros fec pre b ws0 ts AQ HF HT o K EA.
  set (tes := map (fun t => (t, (0, 0, 0, 0))) ts).
  assert (HR : Forall (rx_ok fec) tes) by (apply rx_zero_ok; exact HT).
  assert (HZ : Forall (fun te : TxGroup * (N * N * N * N) => snd te = (0, 0, 0, 0)) tes).
  { apply Forall_map. apply Forall_forall. reflexivity. }
  destruct (flags_zero fec tes HR HZ) as [FZ EZ].
  assert (K' : kept [false] (err_flags (following o) (ws0 ++ all_words tes))).
  { rewrite err_flags_app, EA. apply kept_app_good; assumption. }
  rewrite all_words_zero. fold tes. split.
  - pose proof (delivery fec pre b ws0 tes AQ HF HR K' EA) as D.
    remember (groups_after fec _ _) as gs. clear -D.
    revert gs D. unfold tes. induction ts as [|t ts IH]; intros gs D; cbn [map] in D.
    + inversion D. constructor.
    + inversion D as [|x y l l' H1 H2 E1 E2]; subst. constructor; [exact H1|apply IH; exact H2].
  - rewrite rx_bits_words, <- flat_map_app.
    assert (HW : Forall (fun w => w < 2 ^ 26) (ws0 ++ all_words tes)).
    { apply Forall_app. split; [exact HF|]. clear -HR. induction tes as [|te tes IH]; [constructor|].
      inversion HR as [|x y H1 H2 E]; subst. unfold all_words. rewrite flat_map_cons.
      apply Forall_app. split; [eapply rx_words_lt; exact H1|apply IH; exact H2]. }
    destruct (in_sync_blocks fec pre b (ws0 ++ all_words tes) AQ HW K') as ((_ & _ & Q & _) & _). exact Q.
Qed.

(* The finding about C'. *)
Lemma cprime_miscorrected : forall pre b ws0 t, acquires true pre b -> t = mkTx 0x6201 0x2D48 0x6201 0x4142 ->
  Forall (fun w => w < 2 ^ 26) ws0 ->
  kept [false] (err_flags (following (recognise (window (pre ++ [b])))) (ws0 ++ rx_words t (0, 0, 0x1800000, 0))) ->
  expect_after (following (recognise (window (pre ++ [b])))) ws0 = OffA ->
  exists t e3 g, acquires true pre b /\ tx_ok t /\ third_offset t = OffCprime /\
  short_burst e3 /\
  groups_after true (pre ++ [b] ++ flat_map block_bits ws0) (rx_bits (t, (0, 0, e3, 0))) = [g] /\
  g_has g BLOCK3 = true /\ g_get g BLOCK3 <> tx3 t.
Proof.
  intros pre b ws0 t AQ -> HF K EA.
  exists (mkTx 0x6201 0x2D48 0x6201 0x4142), 0x1800000.
  eexists. split; [exact AQ|]. split; [repeat split; vm_compute; reflexivity|].
  split; [reflexivity|]. split; [apply short_burst_In; vm_compute; tauto|].
  split.
  - unfold rx_bits. cbn [fst snd rx_words]. rewrite (group_contents true pre b ws0); try assumption.
    + reflexivity.
    + repeat constructor; vm_compute; reflexivity.
  - vm_compute. split; [reflexivity|discriminate].
Qed.
