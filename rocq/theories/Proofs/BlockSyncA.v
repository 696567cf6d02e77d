(* Acquiring sync: what it takes (C05) and when it is guaranteed (C09). *)
From Coq Require Import Sorted.
From Verif.Model Require Import Base Util Group BlockSync.
From Verif.Spec Require Import RdsCode RdsStream Reception.
From Verif.Proofs Require Import Tac Syndrome Ring BlockSyncP BlockSyncR BlockSyncT.

Definition valid_at (bits : list bool) (t : nat) : bool :=
  match seen_at bits t with OffInvalid => false | _ => true end.
Definition pulse_at (bits : list bool) (t : nat) : SyncPulse :=
  mkPulse (seen_at bits t) (N.of_nat t mod 2 ^ 32).
Definition push_pulse (b : SyncPulseBuffer) (p : SyncPulse) : SyncPulseBuffer :=
  mkPulses (sb_p1 b) (sb_p2 b) (sb_p3 b) p.

(* Bit positions that were entered in the pulse buffer. *)
Definition hunted (fec : bool) (bits : list bool) (t : nat) : bool :=
  negb (bst_is_in_sync (state_after fec (firstn (t - 1) bits))) && valid_at bits t.
Definition pulses (fec : bool) (bits : list bool) : list nat :=
  filter (hunted fec bits) (seq 1 (length bits)).

Definition buffer_of (fec : bool) (bits : list bool) : SyncPulseBuffer :=
  fold_left push_pulse (map (pulse_at bits) (pulses fec bits)) SyncPulseBuffer_default.

Lemma firstn_app_le : forall {A} n (l m : list A), (n <= length l)%nat -> firstn n (l ++ m) = firstn n l.
Proof.
  intros A n l m H. rewrite firstn_app. replace (n - length l)%nat with 0%nat by lia.
  cbn. apply app_nil_r.
Qed.

Lemma firstn_all_app : forall {A} (l m : list A), firstn (length l) (l ++ m) = l.
Proof. intros A l m. rewrite firstn_app_le by lia. apply firstn_all. Qed.

Lemma filter_ext_In' : forall {A} (f g : A -> bool) l, (forall x, In x l -> f x = g x) -> filter f l = filter g l.
Proof. exact filter_ext_in. Qed.

Lemma buffer_snoc : forall fec bits b,
  buffer_of fec (bits ++ [b]) =
  if negb (bst_is_in_sync (state_after fec bits)) && valid_at (bits ++ [b]) (S (length bits))
  then push_pulse (buffer_of fec bits) (pulse_at (bits ++ [b]) (S (length bits)))
  else buffer_of fec bits.
Proof.
  intros fec bits b. unfold buffer_of, pulses.
  rewrite app_length. cbn [length]. replace (length bits + 1)%nat with (S (length bits)) by lia.
  rewrite seq_S, filter_app, map_app, fold_left_app. cbn [plus].
  assert (E : map (pulse_at (bits ++ [b])) (filter (hunted fec (bits ++ [b])) (seq 1 (length bits))) =
              map (pulse_at bits) (filter (hunted fec bits) (seq 1 (length bits)))).
  { rewrite (filter_ext_In' (hunted fec (bits ++ [b])) (hunted fec bits)).
    - apply map_ext_in. intros t Ht. apply filter_In in Ht. destruct Ht as [Ht _].
      apply in_seq in Ht. unfold pulse_at, seen_at. rewrite firstn_app_le by lia. reflexivity.
    - intros t Ht. apply in_seq in Ht. unfold hunted, valid_at, seen_at.
      rewrite !firstn_app_le by lia. reflexivity. }
  assert (HH : hunted fec (bits ++ [b]) (S (length bits)) =
    negb (bst_is_in_sync (state_after fec bits)) && valid_at (bits ++ [b]) (S (length bits))).
  { unfold hunted. replace (S (length bits) - 1)%nat with (length bits) by lia.
    rewrite firstn_all_app. reflexivity. }
  rewrite E. cbn [filter]. rewrite HH.
  destruct (negb _ && _); reflexivity.
Qed.

Lemma state_after_snoc : forall fec bits b, exists og,
  bst_step (state_after fec bits) b = (state_after fec (bits ++ [b]), og).
Proof.
  intros fec bits b. rewrite state_after_app, bst_run_one.
  destruct (bst_step (state_after fec bits) b) as [s [g|]]; eauto.
Qed.

Lemma firstn_full : forall {A} (l : list A) (b : A), firstn (S (length l)) (l ++ [b]) = l ++ [b].
Proof. intros A l b. apply firstn_all2. rewrite app_length. cbn. lia. Qed.

Lemma valid_at_last : forall bits b,
  valid_at (bits ++ [b]) (S (length bits)) = negb (Offset_eqb (recognise (window (bits ++ [b]))) OffInvalid).
Proof.
  intros bits b. unfold valid_at, seen_at. rewrite firstn_full. destruct (recognise _); reflexivity.
Qed.

Lemma shifted_count : forall s bits b, reg_hist s bits ->
  bst_bitcount (shifted s b) = N.of_nat (S (length bits)) mod 2 ^ 32.
Proof.
  intros s bits b RH. destruct (reg_hist_shifted s bits b RH) as [_ C]. rewrite C, app_length.
  cbn [length]. replace (length bits + 1)%nat with (S (length bits)) by lia. reflexivity.
Qed.

Lemma push_last : forall s bits b sb, reg_hist s bits ->
  sb_push sb (recognise (window (bits ++ [b]))) (bst_bitcount (shifted s b)) =
  push_pulse sb (pulse_at (bits ++ [b]) (S (length bits))).
Proof.
  intros s bits b sb RH. unfold sb_push, push_pulse, pulse_at, seen_at.
  rewrite firstn_full, (shifted_count s bits b RH). reflexivity.
Qed.

Lemma buffer_correct : forall fec bits, bst_sync_buffer (state_after fec bits) = buffer_of fec bits.
Proof.
  intros fec bits. induction bits as [|b bits IH] using rev_ind; [reflexivity|].
  destruct (state_after_inv fec bits) as (I & RH & _).
  destruct (state_after_snoc fec bits b) as (og & S).
  rewrite buffer_snoc, valid_at_last, <- IH.
  pose proof (bst_step_kind _ bits b _ og I RH S) as K.
  pose proof (push_last _ bits b (bst_sync_buffer (state_after fec bits)) RH) as PL.
  inversion K
    as [Hu Hs|s3 Hs E1 Hn|s3 st gs s' Hs E1 Hn SS IS' U' ST FE RE BC SB HR
       |st gs s' Hs U0 SS IS' U' ST FE RE BC SB HR|s' Hs U0 SS IS' U' RA FE RE BC SB HR]; subst; rewrite Hs; cbn [negb andb].
  - reflexivity.
  - destruct (acquire_unsynced _ _ (Hs : bst_is_in_sync (shifted _ b) = false) Hn)
      as (_ & _ & _ & _ & X & _).
    change (bst_sync_buffer (bst_set_until ?s 1)) with (bst_sync_buffer s). rewrite X.
    destruct (Offset_eqb _ OffInvalid); cbn [negb]; [reflexivity|]. exact PL.
  - destruct (acquire_synced _ _ (Hs : bst_is_in_sync (shifted _ b) = false) Hn)
      as (X1 & _ & _ & X & _).
    rewrite SB, X.
    destruct (Offset_eqb (recognise (window (bits ++ [b]))) OffInvalid) eqn:OE.
    + exfalso. apply X1. apply Offset_eqb_eq. exact OE.
    + exact PL.
  - exact SB.
  - exact SB.
Qed.

(* Sync is acquired exactly when the pulse just entered completes a sequence. *)
Lemma acquire_iff : forall fec bits b, bst_is_in_sync (state_after fec bits) = false ->
  bst_is_in_sync (state_after fec (bits ++ [b])) =
  valid_at (bits ++ [b]) (S (length bits)) && isSequenceFound (buffer_of fec (bits ++ [b])).
Proof.
  intros fec bits b H0.
  destruct (state_after_inv fec bits) as (I & RH & _).
  destruct (state_after_snoc fec bits b) as (og & S).
  rewrite buffer_snoc, H0. cbn [negb andb]. rewrite valid_at_last, <- buffer_correct.
  pose proof (bst_step_kind _ bits b _ og I RH S) as K.
  pose proof (push_last _ bits b (bst_sync_buffer (state_after fec bits)) RH) as PL.
  inversion K
    as [Hu Hs|s3 Hs E1 Hn|s3 st gs s' Hs E1 Hn SS IS' U' ST FE RE BC SB HR
       |st gs s' Hs U0 SS IS' U' ST FE RE BC SB HR|s' Hs U0 SS IS' U' RA FE RE BC SB HR]; subst; try congruence.
  - change (bst_is_in_sync (bst_set_until ?s 1)) with (bst_is_in_sync s). rewrite Hn.
    unfold acquireSync in Hn. change (bst_is_in_sync (shifted ?s b)) with (bst_is_in_sync s) in Hn.
    rewrite Hs in Hn.
    destruct (Offset_eqb _ OffInvalid) eqn:OE; cbn [negb] in *; [reflexivity|].
    change (bst_sync_buffer (shifted ?s b)) with (bst_sync_buffer s) in Hn.
    rewrite PL in Hn.
    destruct (isSequenceFound _); [discriminate Hn|reflexivity].
  - rewrite IS'.
    destruct (acquire_synced _ _ (Hs : bst_is_in_sync (shifted _ b) = false) Hn)
      as (X1 & _ & _ & _ & X).
    change (bst_sync_buffer (shifted ?s b)) with (bst_sync_buffer s) in X. rewrite PL in X.
    destruct (Offset_eqb (recognise (window (bits ++ [b]))) OffInvalid) eqn:OE.
    + exfalso. apply X1. apply Offset_eqb_eq. exact OE.
    + cbn [negb andb]. symmetry. exact X.
Qed.

(* --- the shape of the buffer --- *)

Lemma block_place : forall o, blockNumber_N (getBlockNumberForOffset o) = place o.
Proof. intros []; reflexivity. Qed.

Lemma couldFollow_spec : forall bits t1 t2, (t1 <= t2)%nat ->
  couldFollow (pulse_at bits t2) (pulse_at bits t1) = true <->
  seen_at bits t1 <> OffInvalid /\ seen_at bits t2 <> OffInvalid /\
  exists k, k <= 6 /\ N.of_nat (t2 - t1) mod 2 ^ 32 = 26 * k /\
    place (seen_at bits t2) = (place (seen_at bits t1) + k) mod 4.
Proof.
  intros bits t1 t2 Ht. unfold couldFollow. cbn [pulse_at sp_offset sp_bit_position].
  assert (D : u32_sub (N.of_nat t2 mod 2 ^ 32) (N.of_nat t1 mod 2 ^ 32) = N.of_nat (t2 - t1) mod 2 ^ 32).
  { unfold u32_sub. change (2 ^ 32) with 4294967296. lia. }
  rewrite D. clear D. set (d := N.of_nat (t2 - t1) mod 2 ^ 32). clearbody d.
  change kBlockLength with 26. rewrite !block_place.
  rewrite !andb_true_iff, !N.eqb_eq, N.leb_le, !negb_true_iff.
  assert (OE : forall o, Offset_eqb o OffInvalid = false <-> o <> OffInvalid).
  { intros []; cbn; split; congruence. }
  rewrite !OE. split.
  - intros ((((H1 & H2) & H3) & H4) & H5). split; [exact H4|]. split; [exact H3|].
    exists (d / 26). split; [exact H2|]. split; [lia|]. congruence.
  - intros (H4 & H3 & k & H2 & E & H5).
    assert (K : d / 26 = k) by (rewrite E, N.mul_comm; apply N.div_mul; lia).
    rewrite K. repeat split; try assumption; try lia.
Qed.

Lemma couldFollow_default : forall p, couldFollow p SyncPulse_default = false.
Proof.
  intros p. unfold couldFollow. cbn [SyncPulse_default sp_offset Offset_eqb negb].
  rewrite !andb_false_r. reflexivity.
Qed.

Lemma couldFollow_default_l : forall p, couldFollow SyncPulse_default p = false.
Proof.
  intros p. unfold couldFollow. cbn [SyncPulse_default sp_offset Offset_eqb negb].
  rewrite andb_false_r. reflexivity.
Qed.

Lemma list_tail4 : forall {A} (l : list A),
  l = [] \/ (exists a, l = [a]) \/ (exists a b, l = [a; b]) \/ (exists a b c, l = [a; b; c]) \/
  exists x a b c d, l = x ++ [a; b; c; d].
Proof.
  intros A l. induction l as [|y l IH] using rev_ind; [left; reflexivity|right].
  destruct IH as [->|[(a & ->)|[(a & b & ->)|[(a & b & c & ->)|(x & a & b & c & d & ->)]]]].
  - left. exists y. reflexivity.
  - right. left. exists a, y. reflexivity.
  - right. right. left. exists a, b, y. reflexivity.
  - right. right. right. exists [], a, b, c, y. reflexivity.
  - right. right. right. exists (x ++ [a]), b, c, d, y. rewrite <- !app_assoc. reflexivity.
Qed.

Lemma sorted_seq_filter : forall f n m, StronglySorted lt (filter f (seq n m)).
Proof.
  intros f n m. revert n. induction m as [|m IH]; intros n; cbn; [constructor|].
  destruct (f n); [|apply IH]. constructor; [apply IH|].
  apply Forall_forall. intros x Hx. apply filter_In in Hx. destruct Hx as [Hx _].
  apply in_seq in Hx. lia.
Qed.

Lemma sorted_app_r : forall (x y : list nat), StronglySorted lt (x ++ y) -> StronglySorted lt y.
Proof.
  induction x as [|a x IH]; intros y H; [exact H|]. inversion H; subst. apply IH. assumption.
Qed.

Lemma buffer_app : forall bits x y sb,
  fold_left push_pulse (map (pulse_at bits) (x ++ y)) sb =
  fold_left push_pulse (map (pulse_at bits) y) (fold_left push_pulse (map (pulse_at bits) x) sb).
Proof. intros. rewrite map_app, fold_left_app. reflexivity. Qed.


Lemma found_inv : forall bits ps, StronglySorted lt ps ->
  isSequenceFound (fold_left push_pulse (map (pulse_at bits) ps) SyncPulseBuffer_default) = true ->
  exists t1 t2 t3, In t1 ps /\ (t1 < t2)%nat /\ (t2 < t3)%nat /\ (exists x, ps = x ++ [t3]) /\
    in_rhythm bits t1 t2 /\ in_rhythm bits t2 t3.
Proof.
  intros bits ps SO H.
  destruct (list_tail4 ps) as [->|[(a & ->)|[(a & b & ->)|[(a & b & c & ->)|(x & a & b & c & d & ->)]]]].
  - cbn in H. discriminate H.
  - cbn [map fold_left push_pulse SyncPulseBuffer_default] in H. unfold isSequenceFound in H.
    cbn [sb_p0 sb_p1 sb_p2 sb_p3 push_pulse] in H.
    rewrite !couldFollow_default in H. discriminate H.
  - cbn [map fold_left push_pulse SyncPulseBuffer_default] in H. unfold isSequenceFound in H.
    cbn [sb_p0 sb_p1 sb_p2 sb_p3 push_pulse] in H.
    rewrite !couldFollow_default, !andb_false_r in H. discriminate H.
  - cbn [map fold_left push_pulse SyncPulseBuffer_default] in H. unfold isSequenceFound in H.
    cbn [sb_p0 sb_p1 sb_p2 sb_p3 push_pulse] in H.
    rewrite !couldFollow_default, !andb_false_r in H. cbn [orb] in H.
    apply andb_true_iff in H. destruct H as [H1 H2].
    inversion SO as [|a0 l0 SO1 F1 E]; subst. inversion SO1 as [|b0 l1 SO2 F2 E]; subst.
    inversion F1; subst. inversion F2; subst.
    apply couldFollow_spec in H1; [|lia]. apply couldFollow_spec in H2; [|lia].
    exists a, b, c. split; [left; reflexivity|]. split; [assumption|]. split; [assumption|].
    split; [exists [a; b]; reflexivity|]. split; assumption.
  - rewrite buffer_app in H.
    cbn [map fold_left push_pulse] in H. unfold isSequenceFound in H.
    cbn [sb_p0 sb_p1 sb_p2 sb_p3 push_pulse] in H.
    apply sorted_app_r in SO as SOr.
    inversion SOr as [|a0 l0 SO1 F1 E1]; subst. inversion SO1 as [|b0 l1 SO2 F2 E2]; subst.
    inversion SO2 as [|c0 l2 SO3 F3 E3]; subst.
    assert (O : (a < b)%nat /\ (b < c)%nat /\ (c < d)%nat /\ (a < c)%nat /\ (a < d)%nat /\ (b < d)%nat).
    { rewrite Forall_forall in F1, F2, F3.
      pose proof (F1 b ltac:(cbn; auto)). pose proof (F2 c ltac:(cbn; auto)).
      pose proof (F3 d ltac:(cbn; auto)). lia. }
    destruct O as (O1 & O2 & O3 & O4 & O5 & O6).
    assert (TL : exists y, x ++ [a; b; c; d] = y ++ [d]).
    { exists (x ++ [a; b; c]). rewrite <- app_assoc. reflexivity. }
    rewrite !orb_true_iff, !andb_true_iff in H.
    destruct H as [[[H1 H2]|[H1 H2]]|[H1 H2]];
      (apply couldFollow_spec in H1; [|lia]); (apply couldFollow_spec in H2; [|lia]).
    + exists a, b, d. rewrite in_app_iff. cbn [In]. auto 10.
    + exists a, c, d. rewrite in_app_iff. cbn [In]. auto 10.
    + exists b, c, d. rewrite in_app_iff. cbn [In]. auto 10.
Qed.

(* C05 *)
Lemma sync_needs_rhythm : forall fec pre b, acquires fec pre b ->
  exists t1 t2, (1 <= t1)%nat /\ (t1 < t2)%nat /\ (t2 < S (length pre))%nat /\
    in_rhythm (pre ++ [b]) t1 t2 /\ in_rhythm (pre ++ [b]) t2 (S (length pre)).
Proof.
  intros fec pre b [H0 H1]. rewrite (acquire_iff fec pre b H0) in H1.
  apply andb_true_iff in H1. destruct H1 as [V F].
  unfold buffer_of in F.
  assert (SO : StronglySorted lt (pulses fec (pre ++ [b]))) by apply sorted_seq_filter.
  destruct (found_inv _ _ SO F) as (t1 & t2 & t3 & I1 & L12 & L23 & (x & EX) & R1 & R2).
  assert (E3 : t3 = S (length pre)).
  { unfold pulses in EX. rewrite app_length in EX. cbn [length] in EX.
    replace (length pre + 1)%nat with (S (length pre)) in EX by lia.
    rewrite seq_S, filter_app in EX. cbn [plus filter] in EX.
    assert (HU : hunted fec (pre ++ [b]) (S (length pre)) = true).
    { unfold hunted. replace (S (length pre) - 1)%nat with (length pre) by lia.
      rewrite firstn_all_app, H0, V. reflexivity. }
    rewrite HU in EX. apply app_inj_tail in EX. destruct EX as [_ EX]. symmetry. exact EX. }
  subst t3. exists t1, t2.
  assert (1 <= t1)%nat.
  { unfold pulses in I1. apply filter_In in I1. destruct I1 as [I1 _]. apply in_seq in I1. lia. }
  auto 10.
Qed.

(* C09 *)
Lemma filter_hunting : forall fec bits lo n,
  (forall t, (lo <= t < lo + n)%nat -> bst_is_in_sync (state_after fec (firstn (t - 1) bits)) = false) ->
  filter (hunted fec bits) (seq lo n) = filter (valid_at bits) (seq lo n).
Proof.
  intros fec bits lo n H. apply filter_ext_in. intros t Ht. apply in_seq in Ht.
  unfold hunted. rewrite H by lia. reflexivity.
Qed.

Lemma seq_split3 : forall n1 n2 n3, (1 <= n1)%nat -> (n1 < n2)%nat -> (n2 < n3)%nat ->
  seq 1 n3 = seq 1 (n1 - 1) ++ [n1] ++ seq (S n1) (n2 - S n1) ++ [n2] ++ seq (S n2) (n3 - S n2) ++ [n3].
Proof.
  intros n1 n2 n3 H1 H2 H3.
  replace n3 with ((n1 - 1) + (1 + ((n2 - S n1) + (1 + ((n3 - S n2) + 1)))))%nat at 1 by lia.
  rewrite !seq_app.
  replace (1 + (n1 - 1))%nat with n1 by lia.
  replace (n1 + 1)%nat with (S n1) by lia.
  replace (S n1 + (n2 - S n1))%nat with n2 by lia.
  replace (n2 + 1)%nat with (S n2) by lia.
  replace (S n2 + (n3 - S n2))%nat with n3 by lia.
  reflexivity.
Qed.

Lemma lock_on : forall fec pre b n1 n2,
  let bits := pre ++ [b] in
  let n3 := S (length pre) in
  (1 <= n1)%nat -> (n1 < n2)%nat -> (n2 < n3)%nat ->
  in_rhythm bits n1 n2 -> in_rhythm bits n2 n3 ->
  (forall t, (n1 <= t <= n3)%nat -> bst_is_in_sync (state_after fec (firstn (t - 1) bits)) = false) ->
  (length (phantoms bits n1 n2) + length (phantoms bits n2 n3) <= 1)%nat ->
  acquires fec pre b.
Proof.
  intros fec pre b n1 n2 bits n3 L1 L2 L3 R1 R2 HU HP.
  assert (H0 : bst_is_in_sync (state_after fec pre) = false).
  { specialize (HU n3 ltac:(lia)). unfold n3, bits in HU.
    replace (S (length pre) - 1)%nat with (length pre) in HU by lia.
    rewrite firstn_all_app in HU. exact HU. }
  split; [exact H0|]. rewrite (acquire_iff fec pre b H0). fold bits n3.
  destruct R1 as (V1 & V2 & R1). destruct R2 as (_ & V3 & R2).
  assert (VV : forall t, seen_at bits t <> OffInvalid -> valid_at bits t = true).
  { intros t Ht. unfold valid_at. destruct (seen_at bits t); congruence. }
  rewrite (VV n3 V3). cbn [andb].
  unfold buffer_of, pulses.
  replace (length bits) with n3 by (unfold n3, bits; rewrite app_length; cbn; lia).
  rewrite (seq_split3 n1 n2 n3 L1 L2 L3).
  rewrite !filter_app.
  rewrite (filter_hunting fec bits (S n1)) by (intros t Ht; apply HU; lia).
  rewrite (filter_hunting fec bits (S n2)) by (intros t Ht; apply HU; lia).
  assert (S1 : forall n, (n1 <= n <= n3)%nat -> seen_at bits n <> OffInvalid -> filter (hunted fec bits) [n] = [n]).
  { intros n Hn Hv. cbn [filter]. unfold hunted. rewrite (HU n Hn), (VV n Hv). reflexivity. }
  rewrite (S1 n1), (S1 n2), (S1 n3) by (assumption || lia).
  rewrite buffer_app.
  change (filter (valid_at bits) (seq (S n1) (n2 - S n1))) with (phantoms bits n1 n2).
  change (filter (valid_at bits) (seq (S n2) (n3 - S n2))) with (phantoms bits n2 n3).
  set (sb := fold_left push_pulse _ SyncPulseBuffer_default). clearbody sb.
  assert (C12 : couldFollow (pulse_at bits n2) (pulse_at bits n1) = true).
  { apply couldFollow_spec; [lia|]. auto. }
  assert (C23 : couldFollow (pulse_at bits n3) (pulse_at bits n2) = true).
  { apply couldFollow_spec; [lia|]. auto. }
  destruct (phantoms bits n1 n2) as [|x [|y P]], (phantoms bits n2 n3) as [|x' [|y' P']]; cbn [length] in HP; try lia;
    cbn [app map fold_left]; unfold isSequenceFound; cbn [push_pulse sb_p0 sb_p1 sb_p2 sb_p3];
    rewrite C12, C23; cbn [andb]; rewrite ?orb_true_r; reflexivity.
Qed.

Lemma rhythm_distance : forall bits t1 t2, (t1 < t2)%nat -> (t2 <= length bits)%nat ->
  N.of_nat (length bits) < 2 ^ 32 -> in_rhythm bits t1 t2 ->
  exists k, (1 <= k <= 6)%nat /\ (t2 = t1 + 26 * k)%nat /\
    place (seen_at bits t2) = (place (seen_at bits t1) + N.of_nat k) mod 4.
Proof.
  intros bits t1 t2 H12 H2 HB (_ & _ & k & K6 & D & P).
  rewrite N.mod_small in D by (change (2 ^ 32) with 4294967296 in *; lia).
  exists (N.to_nat k). split; [lia|]. split; [lia|]. rewrite N2Nat.id. exact P.
Qed.

Lemma cold_start : forall fec bits0 o1 o2 o3 d1 d2 d3,
  real_offset o1 -> real_offset o2 -> real_offset o3 ->
  d1 < 2 ^ 16 -> d2 < 2 ^ 16 -> d3 < 2 ^ 16 ->
  place o2 = (place o1 + 1) mod 4 -> place o3 = (place o2 + 1) mod 4 ->
  let w1 := block_bits (tx_block o1 d1) in
  let w2 := block_bits (tx_block o2 d2) in
  let w3 := block_bits (tx_block o3 d3) in
  let bits := bits0 ++ w1 ++ w2 ++ w3 in
  let n1 := (length bits0 + 26)%nat in
  (forall k, (n1 - 1 <= k)%nat -> (k < length bits)%nat -> in_sync_after fec (firstn k bits) = false) ->
  (length (phantoms bits n1 (n1 + 26)) + length (phantoms bits (n1 + 26) (n1 + 52)) <= 1)%nat ->
  in_sync_after fec bits = true /\
  bst_expected_offset (state_after fec bits) = following o3.
Proof.
  intros fec bits0 o1 o2 o3 d1 d2 d3 R1 R2 R3 D1 D2 D3 P12 P23 w1 w2 w3 bits n1 HU HP.
  assert (L1 : length w1 = 26%nat) by apply block_bits_length.
  assert (L2 : length w2 = 26%nat) by apply block_bits_length.
  assert (L3 : length w3 = 26%nat) by apply block_bits_length.
  assert (LB : length bits = (n1 + 52)%nat).
  { unfold bits, n1. rewrite !app_length. lia. }
  assert (S1 : seen_at bits n1 = o1).
  { unfold seen_at, bits. rewrite app_assoc. rewrite firstn_app_le by (rewrite app_length; unfold n1; lia).
    rewrite firstn_all2 by (rewrite app_length; unfold n1; lia).
    unfold w1. rewrite window_app_block by (apply tx_block_lt; exact D1). apply recognise_tx; assumption. }
  assert (S2 : seen_at bits (n1 + 26) = o2).
  { unfold seen_at, bits. rewrite !app_assoc.
    rewrite firstn_app_le by (rewrite !app_length; unfold n1; lia).
    rewrite firstn_all2 by (rewrite !app_length; unfold n1; lia).
    unfold w2. rewrite window_app_block by (apply tx_block_lt; exact D2). apply recognise_tx; assumption. }
  assert (S3 : seen_at bits (n1 + 52) = o3).
  { unfold seen_at. rewrite firstn_all2 by lia. unfold bits. rewrite !app_assoc.
    unfold w3. rewrite window_app_block by (apply tx_block_lt; exact D3). apply recognise_tx; assumption. }
  assert (RH12 : in_rhythm bits n1 (n1 + 26)).
  { split; [rewrite S1; exact R1|]. split; [rewrite S2; exact R2|]. exists 1. split; [lia|].
    split; [|rewrite S1, S2; exact P12]. replace (n1 + 26 - n1)%nat with 26%nat by lia. reflexivity. }
  assert (RH23 : in_rhythm bits (n1 + 26) (n1 + 52)).
  { split; [rewrite S2; exact R2|]. split; [rewrite S3; exact R3|]. exists 1. split; [lia|].
    split; [|rewrite S2, S3; exact P23]. replace (n1 + 52 - (n1 + 26))%nat with 26%nat by lia. reflexivity. }
  clearbody n1.
  assert (SP : exists pre b, bits = pre ++ [b]).
  { destruct bits as [|x l] using rev_ind; [cbn in LB; lia|]. eauto. }
  clear S1 S2. clearbody bits. destruct SP as (pre & b & EB).
  rewrite EB in *. rewrite app_length in LB. cbn [length] in LB.
  assert (N3 : (n1 + 52)%nat = S (length pre)) by lia.
  rewrite N3 in *.
  assert (AQ : acquires fec pre b).
  { destruct (Nat.eq_dec n1 0) as [Z|NZ].
    - exfalso. destruct RH12 as [X _]. rewrite Z in X. apply X. vm_compute. reflexivity.
    - apply (lock_on fec pre b n1 (n1 + 26)); try assumption; try lia.
      intros t Ht. apply HU; [lia|]. rewrite app_length. cbn. lia. }
  split; [exact (proj2 AQ)|].
  destruct (acquires_state fec pre b AQ) as (_ & _ & EX & _). rewrite EX. f_equal.
  unfold seen_at in S3. rewrite firstn_full in S3. exact S3.
Qed.
