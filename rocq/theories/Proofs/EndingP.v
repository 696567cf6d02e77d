(* The end of the input. *)
From Verif.Model Require Import Base Util Group BlockSync Options Json Tmc Station Channel.
From Verif.Spec Require Import RdsCode RdsStream Reception JsonText Session Ending.
From Verif.Proofs Require Import Tac Syndrome Ring BlockSyncP BlockSyncR BlockSyncT BlockSyncD BlockSyncG BlockSyncE SessionP UpdateP ChannelP HistoryP.

Local Open Scope N_scope.
Local Open Scope list_scope.

(* The group under way after some words *)
Definition first_words (fec : bool) (ws : list N) : Group :=
  match ws with
  | [] => Group_default
  | [w1] => put_opt Group_default BLOCK1 (blk_of fec OffA w1)
  | [w1; w2] => put_opt (put_opt Group_default BLOCK1 (blk_of fec OffA w1)) BLOCK2 (blk_of fec OffB w2)
  | w1 :: w2 :: w3 :: _ => put_opt (put_opt (put_opt Group_default BLOCK1 (blk_of fec OffA w1)) BLOCK2 (blk_of fec OffB w2)) BLOCK3 (blk_of fec (settle OffC (recognise w3)) w3)
  end.
Lemma words_begun : forall fec r ws st gs, (length ws < 4)%nat -> sync_steps fec (OffA, r, Group_default) ws = (Some st, gs) -> snd st = first_words fec ws.
Proof.
  intros fec r ws st gs L H. destruct ws as [|w1 ws]; [cbn in H; injection H as <- _; reflexivity|].
  cbn [sync_steps] in H. unfold sync_step in H at 1.
  destruct (42 <? _) in H; [discriminate H|]. change (settle OffA (recognise w1)) with OffA in H. cbn [following Offset_eqb] in H.
  destruct ws as [|w2 ws]; [cbn in H; injection H as <- _; reflexivity|]. cbn [sync_steps] in H. unfold sync_step in H at 1.
  destruct (42 <? _) in H; [discriminate H|]. change (settle OffB (recognise w2)) with OffB in H. cbn [following Offset_eqb] in H.
  destruct ws as [|w3 ws]; [cbn in H; injection H as <- _; reflexivity|]. cbn [sync_steps] in H. unfold sync_step in H at 1.
  destruct (42 <? _) in H; [discriminate H|].
  replace (following (settle OffC (recognise w3))) with OffD in H by (destruct (recognise w3); reflexivity).
  replace (getBlockNumberForOffset (settle OffC (recognise w3))) with BLOCK3 in H by (destruct (recognise w3); reflexivity).
  cbn [Offset_eqb] in H. destruct ws as [|w4 ws]; [cbn in H; injection H as <- _; reflexivity|cbn [length] in L; lia].
Qed.

Lemma begun_blocks : forall fec t e k, rx_ok fec (t, e) -> (k < 4)%nat -> first_blocks t k (first_words fec (firstn k (rx_words t e))).
Proof.
  intros fec t [[[e1 e2] e3] e4] k R K.
  destruct R as ((T1 & T2 & T3 & T4) & X1 & X2 & X3 & X4 & XC).
  destruct (block_ok fec OffA (tx1 t) e1 ltac:(discriminate) T1 X1 ltac:(discriminate)) as (_ & _ & B1).
  destruct (block_ok fec OffB (tx2 t) e2 ltac:(discriminate) T2 X2 ltac:(discriminate)) as (_ & _ & B2).
  destruct (block_ok fec (third_offset t) (tx3 t) e3 (third_real t) T3 X3 XC) as (S3 & _ & B3).
  assert (SL : slot (third_offset t) = OffC) by (unfold third_offset; destruct (N.testbit _ _); reflexivity). rewrite SL in S3.
  intros n. unfold g_has, g_get.
  destruct k as [|[|[|[|k]]]]; try lia; cbn [firstn rx_words first_words]; rewrite ?put_opt_block;
    destruct n; cbn [block_index Nat.ltb Nat.leb blockNumber_eqb sent_word]; rewrite ?S3, ?B1, ?B2, ?B3; cbn; auto.
Qed.

Lemma current_begun : forall fec bits t k, ends_within fec bits t k -> first_blocks t k (bst_current_group (state_after fec bits)) /\ (k = 0%nat -> bst_current_group (state_after fec bits) = Group_default).
Proof.
  intros fec bits t k (pre & b & ws0 & tes & e & l & -> & Hk & Hl & AQ & HF & HT & HR & K & EA). cbv zeta in *.
  set (o := recognise (window (pre ++ [b]))) in *. set (ws := firstn k (rx_words t e)) in *.
  assert (HW : Forall (fun w => w < 2 ^ 26) (all_words tes ++ ws)).
  { apply Forall_app. split.
    - clear - HT. induction tes as [|te tes IH]; [constructor|]. rewrite Forall_cons_iff in HT. unfold all_words. rewrite flat_map_cons. apply Forall_app. split; [eapply rx_words_lt; apply HT|apply IH; apply HT].
    - apply Forall_firstn. exact (rx_words_lt fec (t, e) HR). }
  assert (K0 : kept [false] (err_flags (following o) ws0)).
  { replace (err_flags (following o) ws0) with (firstn (length ws0) (err_flags (following o) (ws0 ++ all_words tes ++ ws))).
    - apply kept_firstn. exact K.
    - rewrite <- err_flags_firstn, firstn_app, Nat.sub_diag, firstn_all. cbn. rewrite app_nil_r. reflexivity. }
  destruct (in_sync_blocks fec pre b ws0 AQ HF K0) as (AB & EX & RA). fold o in EX, RA.
  destruct (state_after_inv fec (pre ++ [b] ++ flat_map block_bits ws0)) as (_ & _ & FE).
  replace (pre ++ [b] ++ flat_map block_bits ws0 ++ flat_map rx_bits tes ++ flat_map block_bits ws ++ l)
    with ((pre ++ [b] ++ flat_map block_bits ws0) ++ flat_map block_bits (all_words tes ++ ws) ++ l).
  2: { rewrite rx_bits_words, flat_map_app, <- !app_assoc. reflexivity. }
  rewrite state_after_app.
  set (s := state_after fec (pre ++ [b] ++ flat_map block_bits ws0)) in *.
  rewrite EA in EX. pose proof (run_blocks (all_words tes ++ ws) s _ AB HW) as RB.
  destruct AB as (I & _ & Q & _). destruct (inv_sync _ I Q) as (_ & _ & _ & CG). specialize (CG EX).
  unfold st_of in RB. rewrite EX, CG, FE in RB.
  destruct (sync_steps_kept (all_words tes ++ ws) fec OffA (bst_error_sum50 s) Group_default ([false] ++ err_flags (following o) ws0) RA) as (g' & gs & r' & S & _).
  { intros j Hj. rewrite <- app_assoc. specialize (K (length ws0 + j)%nat). rewrite err_flags_app, EA in K. rewrite firstn_app, err_flags_length in K.
    replace (length ws0 + j - length ws0)%nat with j in K by lia. rewrite (firstn_all2 (err_flags (following o) ws0)) in K by (rewrite err_flags_length; lia).
    apply K. rewrite app_length, !err_flags_length in *. lia. }
  rewrite S in RB. destruct RB as (s' & R & (I' & RH' & Q' & U') & ST & _).
  assert (G : g' = first_words fec ws).
  { destruct (sync_steps_app fec (all_words tes) ws (OffA, bst_error_sum50 s, Group_default)) as [A|A]; [|rewrite S in A; discriminate A].
    rewrite A in S. destruct (sync_steps fec (OffA, bst_error_sum50 s, Group_default) (all_words tes)) as [[st1|] gs1] eqn:S1; [|discriminate S].
    destruct (groups_ok tes fec _ _ _ HT S1) as (_ & r1 & ->). destruct (sync_steps fec (OffA, r1, Group_default) ws) as [[st2|] gs2] eqn:S2; [|discriminate S].
    assert (st2 = (expect_after OffA (all_words tes ++ ws), r', g')) as -> by congruence.
    exact (words_begun fec r1 ws _ gs2 ltac:(unfold ws; rewrite firstn_length; lia) S2). }
  assert (C : bst_current_group (fst (bst_run s (flat_map block_bits (all_words tes ++ ws) ++ l))) = first_words fec ws).
  { rewrite BlockSyncR.bst_run_app, R. destruct (run_mid l s' _ I' RH' Q') as (s2 & R2 & _ & _ & _ & _ & C2 & _); [rewrite U'; lia|]. rewrite R2. cbn [fst]. rewrite C2, <- G.
    unfold st_of in ST. congruence. }
  rewrite C. split; [apply begun_blocks; assumption|]. intros ->. reflexivity.
Qed.

Lemma left_stream : forall fec bits, left_over fec bits (let g := bst_current_group (state_after fec bits) in if g_isEmpty g then None else Some g).
Proof.
  intros fec bits t k E. cbv zeta. destruct (current_begun fec bits t k E) as [F Z]. destruct (g_isEmpty _) eqn:Em.
  - destruct k as [|k]; [reflexivity|]. exfalso. specialize (F BLOCK1). cbn in F. destruct F as [F _]. unfold g_isEmpty, g_has in Em, F. cbn in Em, F. rewrite F in Em. discriminate Em.
  - split; [|exact F]. destruct k as [|k]; [|lia]. rewrite (Z eq_refl) in Em. discriminate Em.
Qed.

Lemma session_app : forall env o a b c, session env o c (a ++ b) =
  ('(c, l1) <- session env o c a ;; '(c, l2) <- session env o c b ;; Ok (c, l1 ++ l2)).
Proof.
  intros env o. induction a as [|x a IH]; intros b c; cbn [app session].
  - cbn [bind]. destruct (session env o c b) as [[c1 l]| |]; reflexivity.
  - destruct (do_call env o c x) as [[c1 o1]| |]; cbn [bind]; [|reflexivity|reflexivity]. rewrite IH.
    destruct (session env o c1 a) as [[c2 l2]| |]; cbn [bind]; [|reflexivity|reflexivity].
    destruct (session env o c2 b) as [[c3 l3]| |]; cbn [bind]; [|reflexivity|reflexivity]. rewrite app_assoc. reflexivity.
Qed.

Definition left_of (c : Channel) (w : N) : option Group :=
  match stream_state c w with Some s => if g_isEmpty (bst_current_group s) then None else Some (bst_current_group s) | None => None end.
Lemma flush_as_groups : forall env o now ws c, Forall (fun w => stream_state c w <> None) ws ->
  ('(c, out) <- flush_loop env o now ws c ;; Ok (c, printed out)) = session env o c (flat_map (fun w => given now w (left_of c w)) ws).
Proof.
  intros env o now. induction ws as [|w ws IH]; intros c F; [reflexivity|]. rewrite Forall_cons_iff in F. destruct F as [Fw F]. cbn [flush_loop flat_map]. unfold left_of at 1.
  destruct (stream_state c w) as [s|] eqn:Es; [|congruence].
  assert (Eg : arr_get (ch_block_stream c) w = Ok s) by (unfold stream_state in Es; unfold arr_get; rewrite Es; reflexivity). rewrite Eg. cbn [bind].
  destruct (g_isEmpty (bst_current_group s)) eqn:Em; cbn [bind given app].
  - rewrite <- (IH c F). destruct (flush_loop env o now ws c) as [[c1 o1]| |]; reflexivity.
  - cbn [session do_call]. destruct (processGroup env o now c (bst_current_group s) w) as [[c1 l1]| |] eqn:P; cbn [bind]; [|reflexivity|reflexivity].
    pose proof (process_streams _ _ _ _ _ _ _ _ P) as PS. assert (SS : forall v, stream_state c1 v = stream_state c v) by (intros v; unfold stream_state; rewrite PS; reflexivity).
    assert (LE : forall v, left_of c1 v = left_of c v) by (intros v; unfold left_of; rewrite SS; reflexivity).
    specialize (IH c1 ltac:(eapply Forall_impl; [|exact F]; intros v; rewrite SS; auto)).
    rewrite (flat_map_ext _ (fun w0 => given now w0 (left_of c w0))) in IH by (intros v; rewrite LE; reflexivity). rewrite <- IH.
    destruct (flush_loop env o now ws c1) as [[c2 o2]| |]; cbn [bind]; [|reflexivity|reflexivity]. unfold printed. rewrite flat_map_app. reflexivity.
Qed.
