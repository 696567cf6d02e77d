(* The bit level of BlockStream: shift register, block boundaries, the synchronised machine. *)
From Verif.Model Require Import Base Util Group BlockSync.
From Verif.Spec Require Import RdsCode RdsStream.
From Verif.Proofs Require Import Tac Syndrome Ring.

#[global] Strategy 1000 [calculateSyndrome table_find error_lookup_table correctBurstErrors
  getOffsetForSyndrome tx_block checkword].

(* --- words and bits --- *)

Definition bval (a : N) (b : bool) : N := 2 * a + (if b then 1 else 0).

Lemma bits_value_acc : forall l a, fold_left bval l a = a * 2 ^ N.of_nat (length l) + fold_left bval l 0.
Proof.
  induction l as [|b l IH]; intros a; cbn [fold_left length].
  - change (2 ^ N.of_nat 0) with 1. lia.
  - rewrite Nat2N.inj_succ, N.pow_succ_r'. rewrite IH, (IH (bval 0 b)). unfold bval. lia.
Qed.

Lemma bits_value_app : forall l m,
  bits_value (l ++ m) = bits_value l * 2 ^ N.of_nat (length m) + bits_value m.
Proof.
  intros l m. unfold bits_value. rewrite fold_left_app.
  change (fun a (b : bool) => 2 * a + (if b then 1 else 0)) with bval. apply bits_value_acc.
Qed.

Lemma bits_value_lt : forall l, bits_value l < 2 ^ N.of_nat (length l).
Proof.
  intros l. induction l as [|b l IH] using rev_ind; [cbn; lia|].
  rewrite bits_value_app, app_length. cbn [length]. rewrite Nat2N.inj_add, N.pow_add_r.
  change (2 ^ N.of_nat 1) with 2. destruct b; cbn [bits_value fold_left]; lia.
Qed.

Lemma bits_value_msb : forall n w, bits_value (bits_msb n w) = w mod 2 ^ N.of_nat n.
Proof.
  induction n as [|n IH]; intros w.
  - cbn. rewrite N.mod_1_r. reflexivity.
  - cbn [bits_msb]. change (N.testbit w (N.of_nat n) :: bits_msb n w) with
      ([N.testbit w (N.of_nat n)] ++ bits_msb n w).
    rewrite bits_value_app, IH.
    assert (L : length (bits_msb n w) = n).
    { clear IH. induction n as [|n IHn]; cbn; [reflexivity|]. f_equal. exact IHn. }
    rewrite L. rewrite Nat2N.inj_succ, N.pow_succ_r'.
    assert (T : bits_value [N.testbit w (N.of_nat n)] = (w / 2 ^ N.of_nat n) mod 2).
    { rewrite <- N.testbit_spec'. unfold bits_value. cbn [fold_left].
      destruct (N.testbit w (N.of_nat n)); reflexivity. }
    rewrite T. rewrite (N.mul_comm 2). rewrite N.mod_mul_r by lia. lia.
Qed.

Lemma bits_msb_length : forall n w, length (bits_msb n w) = n.
Proof. induction n as [|n IH]; intros w; cbn; [reflexivity|]. f_equal. apply IH. Qed.

Lemma block_bits_length : forall w, length (block_bits w) = 26%nat.
Proof. intros w. apply bits_msb_length. Qed.

Lemma window_of_value : forall bits, bits_value bits mod 2 ^ 26 = window bits.
Proof.
  intros bits. unfold window, lastn.
  rewrite <- (firstn_skipn (length bits - 26) bits) at 1. rewrite bits_value_app.
  set (m := skipn (length bits - 26) bits).
  assert (Lm : (length m <= 26)%nat) by (unfold m; rewrite skipn_length; lia).
  pose proof (bits_value_lt m) as B.
  destruct (Nat.eq_dec (length m) 26) as [E|E].
  - rewrite E in *. change (N.of_nat 26) with 26 in *. lia.
  - assert (Z : firstn (length bits - 26) bits = []).
    { unfold m in E. rewrite skipn_length in E.
      replace (length bits - 26)%nat with 0%nat by lia. reflexivity. }
    rewrite Z. cbn [bits_value fold_left]. rewrite N.mul_0_l, N.add_0_l.
    apply N.mod_small. eapply N.lt_le_trans; [exact B|]. apply N.pow_le_mono_r; lia.
Qed.

Lemma window_app_block : forall bits w, w < 2 ^ 26 -> window (bits ++ block_bits w) = w.
Proof.
  intros bits w H. rewrite <- window_of_value, bits_value_app, block_bits_length.
  unfold block_bits. rewrite bits_value_msb. change (N.of_nat 26) with 26.
  rewrite (N.mod_small w) by exact H.
  rewrite N.add_comm, N.mod_add by lia. apply N.mod_small. exact H.
Qed.

Lemma window_lt : forall bits, window bits < 2 ^ 26.
Proof. intros bits. rewrite <- window_of_value. apply N.mod_lt. lia. Qed.

(* --- recognise agrees with the syndrome --- *)

Lemma shiftr10_lt : forall w, w < 2 ^ 26 -> N.shiftr w 10 < 2 ^ 16.
Proof.
  intros w H. rewrite N.shiftr_div_pow2. change (2 ^ 26) with (2 ^ 16 * 2 ^ 10) in H.
  apply N.div_lt_upper_bound; lia.
Qed.

Lemma recognise_tx : forall o d, real_offset o -> d < 2 ^ 16 -> recognise (tx_block o d) = o.
Proof.
  intros o d Ho Hd. unfold recognise. rewrite tx_data by exact Hd.
  destruct (find _ _) as [o'|] eqn:F.
  - apply find_some in F. destruct F as [Hin E]. apply N.eqb_eq in E.
    assert (R : real_offset o').
    { intros ->. cbn in Hin. intuition discriminate. }
    rewrite <- (tx_recognised o' d R Hd), <- (tx_recognised o d Ho Hd), E. reflexivity.
  - exfalso. pose proof (find_none _ _ F o (real_offset_In o Ho)) as HH. cbn beta in HH.
    rewrite N.eqb_refl in HH. discriminate HH.
Qed.

Lemma recognise_syndrome : forall w, w < 2 ^ 26 ->
  getOffsetForSyndrome (calculateSyndrome w) = recognise w.
Proof.
  intros w Hw. pose proof (shiftr10_lt w Hw) as Hd.
  destruct (Offset_eqb (getOffsetForSyndrome (calculateSyndrome w)) OffInvalid) eqn:E.
  - apply Offset_eqb_eq in E. rewrite E. unfold recognise.
    destruct (find _ _) as [o|] eqn:F; [|reflexivity].
    apply find_some in F. destruct F as [Hin F]. apply N.eqb_eq in F.
    assert (R : real_offset o) by (intros ->; cbn in Hin; intuition discriminate).
    rewrite F, tx_recognised in E by assumption. symmetry. exact E.
  - assert (R : real_offset (getOffsetForSyndrome (calculateSyndrome w))).
    { intros HH. rewrite HH in E. discriminate E. }
    set (o := getOffsetForSyndrome (calculateSyndrome w)) in *.
    assert (HS : calculateSyndrome w = calculateSyndrome (offset_word o)).
    { rewrite offset_syndrome_ok. apply getOffset_inv; [reflexivity|exact R]. }
    pose proof (codeword_of_syndrome o w Hw HS) as C. rewrite C.
    symmetry. apply recognise_tx; assumption.
Qed.

Lemma recognise_codeword : forall w o, w < 2 ^ 26 -> recognise w = o -> real_offset o ->
  w = tx_block o (N.shiftr w 10).
Proof.
  intros w o Hw E Ho. apply codeword_of_syndrome; [exact Hw|].
  rewrite offset_syndrome_ok. apply getOffset_inv; [|exact Ho].
  rewrite recognise_syndrome by exact Hw. exact E.
Qed.

(* --- register --- *)

Lemma mask26 : forall v, N.land v kBlockBitmask = v mod 2 ^ 26.
Proof. intros v. change kBlockBitmask with (N.ones 26). apply N.land_ones. Qed.

Lemma reg_push : forall r (b : bool), u32 (N.shiftl r 1 + (if b then 1 else 0)) =
  (2 * r + (if b then 1 else 0)) mod 2 ^ 32.
Proof.
  intros r b. unfold u32. rewrite N.shiftl_mul_pow2. change (2 ^ 1) with 2.
  change 0x100000000 with (2 ^ 32). rewrite (N.mul_comm r 2). reflexivity.
Qed.

(* History of a stream: shift register and bit counter.  Independent of everything else. *)
Definition reg_hist (s : BlockStream) (bits : list bool) : Prop :=
  bst_input_register s = bits_value bits mod 2 ^ 32 /\
  bst_bitcount s = N.of_nat (length bits) mod 2 ^ 32.

(* State after the shift part of pushBit *)
Definition shifted (s : BlockStream) (bit : bool) : BlockStream :=
  mkBlockStream (u32 (bst_bitcount s + 1)) (u32_sub (bst_num_bits_until_next_block s) 1)
      (u32 (N.shiftl (bst_input_register s) 1 + (if bit then 1 else 0)))
      (bst_expected_offset s) (bst_is_in_sync s) (bst_error_sum50 s) (bst_use_fec s)
      (bst_current_group s) (bst_ready_group s) (bst_has_group_ready s)
      (bst_num_bits_since_sync_lost s) (bst_sync_buffer s).

Lemma pushBit_eq : forall s b, pushBit s b =
  if bst_num_bits_until_next_block (shifted s b) =? 0 then
    let s2 := findBlockInInputRegister (shifted s b) in
    bst_set_until s2 (if bst_is_in_sync s2 then kBlockLength else 1)
  else shifted s b.
Proof. reflexivity. Qed.

Lemma acquireSync_reg : forall s o,
  bst_input_register (acquireSync s o) = bst_input_register s /\
  bst_bitcount (acquireSync s o) = bst_bitcount s /\
  bst_use_fec (acquireSync s o) = bst_use_fec s /\
  bst_has_group_ready (acquireSync s o) = bst_has_group_ready s /\
  bst_error_sum50 (acquireSync s o) = bst_error_sum50 s.
Proof.
  intros s o. unfold acquireSync. destruct (bst_is_in_sync s); [repeat split|].
  destruct (negb (Offset_eqb o OffInvalid)); [|repeat split].
  destruct (isSequenceFound _); repeat split.
Qed.

(* A compact description of findBlockInInputRegister. *)
Definition blk_of (fec : bool) (exp : Offset) (w : N) : option Block :=
  if Offset_eqb (recognise w) exp then Some (mkBlock w (N.shiftr w 10) true false exp)
  else if fec then
    match correctBurstErrors w exp with
    | (true, c) => Some (mkBlock w (N.shiftr c 10) true true exp)
    | (false, _) => None
    end
  else None.

Definition put_opt (g : Group) (n : blockNumber) (ob : option Block) : Group :=
  match ob with Some b => g_setBlock g n b | None => g end.

(* One block of the synchronised machine: state (expected, error window, group in progress). *)
Definition sync_step (fec : bool) (st : Offset * RunningSum * Group) (w : N)
  : option (Offset * RunningSum * Group) * list Group :=
  let '(e, r, g) := st in
  let e' := settle e (recognise w) in
  let bad := negb (Offset_eqb (recognise w) e') in
  let r' := rs_push r (flag bad) in
  if 42 <? rs_getSum r' then (None, [])
  else
    let g' := put_opt g (getBlockNumberForOffset e') (blk_of fec e' w) in
    if Offset_eqb (following e') OffA then (Some (OffA, r', Group_default), [g'])
    else (Some (following e', r', g'), []).

Lemma following_next : forall o, getNextOffsetFor o = following o.
Proof. intros []; reflexivity. Qed.

Lemma settle_eq : forall e o,
  (if Offset_eqb e OffC && Offset_eqb o OffCprime then OffCprime else e) = settle e o.
Proof. intros [] []; reflexivity. Qed.

Lemma u16_shiftr10 : forall w, w < 2 ^ 26 -> u16 (N.shiftr w 10) = N.shiftr w 10.
Proof. intros w H. unfold u16. apply N.mod_small. apply shiftr10_lt. exact H. Qed.

Lemma correct_lt : forall w o c, w < 2 ^ 26 -> correctBurstErrors w o = (true, c) -> c < 2 ^ 26.
Proof.
  intros w o c Hw H. apply correct_sound in H; [|exact Hw].
  destruct H as (e & d & _ & _ & Hd & -> & _). apply tx_block_lt. exact Hd.
Qed.

Lemma find_in_sync : forall s0 w,
  N.land (bst_input_register s0) kBlockBitmask = w -> w < 2 ^ 26 ->
  let s1 := acquireSync s0 (recognise w) in
  bst_is_in_sync s1 = true ->
  let s' := findBlockInInputRegister s0 in
  let '(ost, gs) := sync_step (bst_use_fec s0)
        (bst_expected_offset s1, bst_error_sum50 s0, bst_current_group s1) w in
  bst_input_register s' = bst_input_register s0 /\ bst_bitcount s' = bst_bitcount s0 /\
  bst_use_fec s' = bst_use_fec s0 /\ bst_sync_buffer s' = bst_sync_buffer s1 /\
  match ost with
  | Some st => bst_is_in_sync s' = true /\
      (bst_expected_offset s', bst_error_sum50 s', bst_current_group s') = st
  | None => bst_is_in_sync s' = false /\
      bst_error_sum50 s' =
        rs_clear (rs_push (bst_error_sum50 s0)
          (flag (negb (Offset_eqb (recognise w) (settle (bst_expected_offset s1) (recognise w))))))
  end /\
  (match gs with
   | [] => bst_has_group_ready s' = bst_has_group_ready s0
   | g :: _ => bst_has_group_ready s' = true /\ bst_ready_group s' = g
   end).
Proof.
  intros s0 w Hreg Hw s1 Hs1 s'.
  pose proof (acquireSync_reg s0 (recognise w)) as (A1 & A2 & A3 & A4 & A5).
  fold s1 in A1, A2, A3, A4, A5.
  unfold s'. unfold findBlockInInputRegister. rewrite Hreg.
  rewrite recognise_syndrome by exact Hw. fold s1. rewrite Hs1.
  (* the C' adjustment *)
  set (s2 := if Offset_eqb (bst_expected_offset s1) OffC && Offset_eqb (recognise w) OffCprime
             then bst_set_expected s1 OffCprime else s1).
  assert (E2 : bst_expected_offset s2 = settle (bst_expected_offset s1) (recognise w)).
  { unfold s2. rewrite <- settle_eq. destruct (_ && _); reflexivity. }
  assert (K2 : bst_input_register s2 = bst_input_register s0 /\ bst_bitcount s2 = bst_bitcount s0 /\
    bst_use_fec s2 = bst_use_fec s0 /\ bst_sync_buffer s2 = bst_sync_buffer s1 /\
    bst_has_group_ready s2 = bst_has_group_ready s0 /\ bst_error_sum50 s2 = bst_error_sum50 s0 /\
    bst_current_group s2 = bst_current_group s1 /\ bst_is_in_sync s2 = true).
  { unfold s2. destruct (_ && _); cbn; auto 10. }
  clearbody s2. destruct K2 as (K1 & K2 & K3 & K4 & K5 & K6 & K7 & K8).
  rewrite E2. set (e' := settle (bst_expected_offset s1) (recognise w)).
  unfold sync_step. fold e'.
  set (bad := negb (Offset_eqb (recognise w) e')).
  cbn [bst_set_sum bst_error_sum50]. rewrite K6.
  change kMaxErrorsToleratedOver50Blocks with 42.
  change (if bad then 1 else 0) with (flag bad).
  destruct (42 <? rs_getSum (rs_push (bst_error_sum50 s0) (flag bad))).
  { cbn. auto 10. }
  change (bst_use_fec (bst_set_sum s2 (rs_push (bst_error_sum50 s0) (flag bad)))) with (bst_use_fec s2).
  rewrite K3. change kCheckwordLength with 10.
  rewrite u16_shiftr10 by exact Hw.
  unfold blk_of.
  assert (FIN : forall data off ob,
    (if Offset_eqb off e' then Some (mkBlock w data true bad off) else None) = ob ->
    let s3 := bst_set_sum s2 (rs_push (bst_error_sum50 s0) (flag bad)) in
    let s4 := if Offset_eqb off e'
              then bst_set_group s3 (g_setBlock (bst_current_group s3) (getBlockNumberForOffset e')
                                       (mkBlock w data true bad off))
              else s3 in
    let s5 := bst_set_expected s4 (getNextOffsetFor e') in
    let s6 := if Offset_eqb (bst_expected_offset s5) OffA then handleNewlyReceivedGroup s5 else s5 in
    let '(ost, gs) :=
      (let g' := put_opt (bst_current_group s1) (getBlockNumberForOffset e') ob in
       if Offset_eqb (following e') OffA
       then (Some (OffA, rs_push (bst_error_sum50 s0) (flag bad), Group_default), [g'])
       else (Some (following e', rs_push (bst_error_sum50 s0) (flag bad), g'), [])) in
    bst_input_register s6 = bst_input_register s0 /\ bst_bitcount s6 = bst_bitcount s0 /\
    bst_use_fec s6 = bst_use_fec s0 /\ bst_sync_buffer s6 = bst_sync_buffer s1 /\
    match ost with
    | Some st => bst_is_in_sync s6 = true /\
        (bst_expected_offset s6, bst_error_sum50 s6, bst_current_group s6) = st
    | None => bst_is_in_sync s6 = false /\
        bst_error_sum50 s6 = rs_clear (rs_push (bst_error_sum50 s0) (flag bad))
    end /\
    (match gs with
     | [] => bst_has_group_ready s6 = bst_has_group_ready s0
     | g :: _ => bst_has_group_ready s6 = true /\ bst_ready_group s6 = g
     end)).
  { intros data off ob Hob s3 s4 s5 s6.
    assert (S4 : bst_current_group s4 = put_opt (bst_current_group s1) (getBlockNumberForOffset e') ob /\
      bst_input_register s4 = bst_input_register s0 /\ bst_bitcount s4 = bst_bitcount s0 /\
      bst_use_fec s4 = bst_use_fec s0 /\ bst_sync_buffer s4 = bst_sync_buffer s1 /\
      bst_has_group_ready s4 = bst_has_group_ready s0 /\
      bst_error_sum50 s4 = rs_push (bst_error_sum50 s0) (flag bad) /\ bst_is_in_sync s4 = true).
    { unfold s4, s3. subst ob. destruct (Offset_eqb off e'); cbn; rewrite K7; auto 10. }
    clearbody s4. destruct S4 as (G1 & G2 & G3 & G4 & G5 & G6 & G7 & G8).
    unfold s6, s5. cbn [bst_set_expected bst_expected_offset].
    change (getNextOffsetFor e') with (following e').
    destruct (Offset_eqb (following e') OffA) eqn:FA; cbn; rewrite ?G1, ?G2, ?G3, ?G4, ?G5, ?G6, ?G7, ?G8; auto 10.
    repeat split. apply Offset_eqb_eq in FA. rewrite FA. reflexivity. }
  cbn [bst_set_sum bst_error_sum50] in FIN.
  destruct (Offset_eqb (recognise w) e') eqn:R.
  - assert (HB : bad = false) by reflexivity.
    clearbody bad. subst bad. cbn [andb]. apply FIN. rewrite R.
    apply Offset_eqb_eq in R. rewrite R. reflexivity.
  - assert (HB : bad = true) by reflexivity.
    clearbody bad. subst bad. cbn [andb]. destruct (bst_use_fec s0).
    + destruct (correctBurstErrors w e') as [ok c] eqn:C. destruct ok.
      * rewrite u16_shiftr10 by (eapply correct_lt; eassumption).
        apply FIN. rewrite Offset_eqb_refl. reflexivity.
      * apply FIN. rewrite R. reflexivity.
    + apply FIN. rewrite R. reflexivity.
Qed.

Lemma find_unsync : forall s0 w,
  N.land (bst_input_register s0) kBlockBitmask = w -> w < 2 ^ 26 ->
  bst_is_in_sync (acquireSync s0 (recognise w)) = false ->
  findBlockInInputRegister s0 = acquireSync s0 (recognise w).
Proof.
  intros s0 w Hreg Hw H. unfold findBlockInInputRegister. rewrite Hreg.
  rewrite recognise_syndrome by exact Hw. rewrite H. reflexivity.
Qed.

(* --- invariant of every reachable state --- *)

Definition boundary_offset (o : Offset) : Prop := In o [OffA; OffB; OffC; OffD].

Record Inv (s : BlockStream) : Prop := mkInv {
  inv_wf : rs_wf (bst_error_sum50 s);
  inv_sync : bst_is_in_sync s = true ->
    1 <= bst_num_bits_until_next_block s <= 26 /\
    boundary_offset (bst_expected_offset s) /\
    rs_getSum (bst_error_sum50 s) <= 42 /\
    (bst_expected_offset s = OffA -> bst_current_group s = Group_default);
  inv_unsync : bst_is_in_sync s = false ->
    bst_num_bits_until_next_block s = 1 /\ rs_abs (bst_error_sum50 s) [];
  inv_ready : bst_has_group_ready s = false
}.

Lemma Inv_init : forall fec, Inv (BlockStream_init fec).
Proof.
  intros fec. constructor; cbn.
  - apply rs_default_abs.
  - discriminate.
  - intros _. split; [reflexivity|apply rs_default_abs].
  - reflexivity.
Qed.

Lemma reg_hist_init : forall fec, reg_hist (BlockStream_init fec) [].
Proof. intros fec. split; vm_compute; reflexivity. Qed.

Lemma reg_hist_shifted : forall s bits b, reg_hist s bits -> reg_hist (shifted s b) (bits ++ [b]).
Proof.
  intros s bits b [R C]. split; cbn [shifted bst_input_register bst_bitcount].
  - rewrite reg_push, R, bits_value_app. cbn [length bits_value fold_left].
    change (2 ^ N.of_nat 1) with 2. change (2 ^ 32) with 4294967296. destruct b; lia.
  - rewrite C, app_length. cbn [length]. unfold u32. change 0x100000000 with (2 ^ 32).
    change (2 ^ 32) with 4294967296. lia.
Qed.

Lemma reg_hist_window : forall s bits, reg_hist s bits ->
  N.land (bst_input_register s) kBlockBitmask = window bits.
Proof.
  intros s bits [R _]. rewrite mask26, R, <- window_of_value.
  change (2 ^ 32) with (2 ^ 26 * 2 ^ 6). rewrite N.mod_mul_r by lia.
  rewrite N.mul_comm, N.mod_add by lia. apply N.mod_mod. lia.
Qed.

Lemma until_dec : forall n, 1 <= n -> n <= 26 -> u32_sub n 1 = n - 1.
Proof. intros n H1 H2. unfold u32_sub. lia. Qed.

Definition adv_group (s' : BlockStream) (gs : list Group) : BlockStream * option Group :=
  match gs with [] => (s', None) | g :: _ => (popGroup s', Some g) end.

(* What one bit does. *)
Inductive step_kind (s : BlockStream) (bits : list bool) (b : bool) : BlockStream -> option Group -> Prop :=
| sk_mid : 1 < bst_num_bits_until_next_block s -> bst_is_in_sync s = true ->
    step_kind s bits b (shifted s b) None
| sk_hunt : forall s1, bst_is_in_sync s = false ->
    s1 = acquireSync (shifted s b) (recognise (window (bits ++ [b]))) ->
    bst_is_in_sync s1 = false ->
    step_kind s bits b (bst_set_until s1 1) None
| sk_lock : forall s1 st gs s', bst_is_in_sync s = false ->
    s1 = acquireSync (shifted s b) (recognise (window (bits ++ [b]))) ->
    bst_is_in_sync s1 = true ->
    sync_step (bst_use_fec s) (recognise (window (bits ++ [b])), bst_error_sum50 s, Group_default)
      (window (bits ++ [b])) = (Some st, gs) ->
    bst_is_in_sync s' = true -> bst_num_bits_until_next_block s' = 26 ->
    (bst_expected_offset s', bst_error_sum50 s', bst_current_group s') = st ->
    bst_use_fec s' = bst_use_fec s ->
    bst_input_register s' = bst_input_register (shifted s b) ->
    bst_bitcount s' = bst_bitcount (shifted s b) ->
    bst_sync_buffer s' = bst_sync_buffer s1 ->
    bst_has_group_ready s' = false ->
    step_kind s bits b s' (hd_error gs)
| sk_block : forall st gs s', bst_is_in_sync s = true -> bst_num_bits_until_next_block s = 1 ->
    sync_step (bst_use_fec s) (bst_expected_offset s, bst_error_sum50 s, bst_current_group s)
      (window (bits ++ [b])) = (Some st, gs) ->
    bst_is_in_sync s' = true -> bst_num_bits_until_next_block s' = 26 ->
    (bst_expected_offset s', bst_error_sum50 s', bst_current_group s') = st ->
    bst_use_fec s' = bst_use_fec s ->
    bst_input_register s' = bst_input_register (shifted s b) ->
    bst_bitcount s' = bst_bitcount (shifted s b) ->
    bst_sync_buffer s' = bst_sync_buffer s ->
    bst_has_group_ready s' = false ->
    step_kind s bits b s' (hd_error gs)
| sk_lost : forall s', bst_is_in_sync s = true -> bst_num_bits_until_next_block s = 1 ->
    sync_step (bst_use_fec s) (bst_expected_offset s, bst_error_sum50 s, bst_current_group s)
      (window (bits ++ [b])) = (None, []) ->
    bst_is_in_sync s' = false -> bst_num_bits_until_next_block s' = 1 ->
    rs_abs (bst_error_sum50 s') [] ->
    bst_use_fec s' = bst_use_fec s ->
    bst_input_register s' = bst_input_register (shifted s b) ->
    bst_bitcount s' = bst_bitcount (shifted s b) ->
    bst_sync_buffer s' = bst_sync_buffer s ->
    bst_has_group_ready s' = false ->
    step_kind s bits b s' None.

Lemma settle_same : forall o, settle o o = o.
Proof. intros []; reflexivity. Qed.

Lemma sync_step_none : forall fec st w gs, sync_step fec st w = (None, gs) -> gs = [].
Proof.
  intros fec [[e r] g] w gs H. unfold sync_step in H.
  destruct (42 <? _); [congruence|]. destruct (Offset_eqb (following _) OffA); congruence.
Qed.

Lemma sync_step_gs : forall fec st w ost gs, sync_step fec st w = (ost, gs) ->
  gs = [] \/ exists g, gs = [g].
Proof.
  intros fec [[e r] g] w ost gs H. unfold sync_step in H.
  destruct (42 <? _); [left; congruence|].
  destruct (Offset_eqb (following _) OffA); [right; eexists; injection H as _ <-; reflexivity|left; congruence].
Qed.

Lemma acquire_synced : forall s o, bst_is_in_sync s = false -> bst_is_in_sync (acquireSync s o) = true ->
  o <> OffInvalid /\ bst_expected_offset (acquireSync s o) = o /\
  bst_current_group (acquireSync s o) = Group_default /\
  bst_sync_buffer (acquireSync s o) = sb_push (bst_sync_buffer s) o (bst_bitcount s) /\
  isSequenceFound (sb_push (bst_sync_buffer s) o (bst_bitcount s)) = true.
Proof.
  intros s o H0 H1. unfold acquireSync in *. rewrite H0 in *.
  destruct (negb (Offset_eqb o OffInvalid)) eqn:E.
  - destruct (isSequenceFound _) eqn:F; [|discriminate H1].
    repeat split. intros ->. discriminate E.
  - discriminate H1.
Qed.

Lemma rs_abs_lastn : forall r h, rs_abs r h -> rs_getSum r = fold_left N.add (lastn 50 (repeat 0 50 ++ h)) 0.
Proof.
  intros r h [_ R]. unfold rs_getSum. rewrite <- (sum_rot (N.to_nat (rs_pointer r))), R. reflexivity.
Qed.

Lemma sync_step_fresh : forall fec o r g w, rs_abs r [] -> recognise w = o -> o <> OffInvalid ->
  exists st gs, sync_step fec (o, r, g) w = (Some st, gs).
Proof.
  intros fec o r g w R E Ho. unfold sync_step. rewrite E, settle_same, Offset_eqb_refl.
  cbn [negb flag].
  pose proof (rs_push_abs r [] 0 R) as R'. cbn [app] in R'.
  pose proof (rs_abs_lastn _ _ R') as S. cbn [app] in S.
  assert (Z : rs_getSum (rs_push r 0) = 0).
  { rewrite S. vm_compute. reflexivity. }
  rewrite Z. change (42 <? 0) with false. cbn iota.
  destruct (Offset_eqb (following o) OffA); eauto.
Qed.

Lemma bst_step_kind : forall s bits b s' og, Inv s -> reg_hist s bits ->
  bst_step s b = (s', og) -> step_kind s bits b s' og.
Proof.
  intros s bits b s' og I RH H. unfold bst_step in H. rewrite pushBit_eq in H.
  pose proof (reg_hist_shifted s bits b RH) as RH1.
  pose proof (reg_hist_window _ _ RH1) as W.
  pose proof (window_lt (bits ++ [b])) as WL.
  destruct I as [Iwf Isync Iun Iready].
  set (w := window (bits ++ [b])) in *.
  destruct (bst_is_in_sync s) eqn:HS.
  - destruct (Isync eq_refl) as (U & BO & SM & CG).
    change (bst_num_bits_until_next_block (shifted s b)) with
      (u32_sub (bst_num_bits_until_next_block s) 1) in H.
    rewrite until_dec in H by lia.
    destruct (N.eqb_spec (bst_num_bits_until_next_block s - 1) 0) as [E|E].
    + (* block boundary *)
      assert (U1 : bst_num_bits_until_next_block s = 1) by lia.
      pose proof (find_in_sync (shifted s b) w W WL) as F. cbn zeta in F.
      assert (A : acquireSync (shifted s b) (recognise w) = shifted s b).
      { unfold acquireSync. change (bst_is_in_sync (shifted s b)) with (bst_is_in_sync s).
        rewrite HS. reflexivity. }
      rewrite A in F. specialize (F HS).
      change (bst_use_fec (shifted s b)) with (bst_use_fec s) in F.
      change (bst_expected_offset (shifted s b)) with (bst_expected_offset s) in F.
      change (bst_error_sum50 (shifted s b)) with (bst_error_sum50 s) in F.
      change (bst_current_group (shifted s b)) with (bst_current_group s) in F.
      change (bst_sync_buffer (shifted s b)) with (bst_sync_buffer s) in F.
      change (bst_has_group_ready (shifted s b)) with (bst_has_group_ready s) in F.
      destruct (sync_step (bst_use_fec s) (bst_expected_offset s, bst_error_sum50 s, bst_current_group s) w)
        as [ost gs] eqn:SS.
      destruct F as (F1 & F2 & F3 & F4 & F5 & F6).
      set (f := findBlockInInputRegister (shifted s b)) in *. clearbody f.
      cbn zeta in H.
      destruct ost as [st|].
      * destruct F5 as [F5 F5']. rewrite F5 in H.
        destruct (sync_step_gs _ _ _ _ _ SS) as [->|[g ->]].
        -- cbn [bst_set_until bst_has_group_ready] in H. rewrite F6, Iready in H.
           injection H as <- <-.
           apply (sk_block s bits b st []); try assumption; try reflexivity.
           cbn. rewrite F6. exact Iready.
        -- destruct F6 as [F6 F7]. cbn [bst_set_until bst_has_group_ready bst_ready_group] in H.
           rewrite F6, F7 in H. injection H as <- <-.
           apply (sk_block s bits b st [g]); try assumption; try reflexivity.
      * destruct F5 as [F5 F5']. rewrite F5 in H.
        pose proof (sync_step_none _ _ _ _ SS) as ->.
        cbn [bst_set_until bst_has_group_ready] in H. rewrite F6, Iready in H.
        injection H as <- <-.
        apply sk_lost; try assumption; try reflexivity.
        -- cbn. rewrite F5'. apply rs_clear_abs. apply rs_push_wf. exact Iwf.
        -- cbn. rewrite F6. exact Iready.
    + change (bst_has_group_ready (shifted s b)) with (bst_has_group_ready s) in H.
      rewrite Iready in H. injection H as <- <-. apply sk_mid; [lia|exact HS].
  - destruct (Iun eq_refl) as (U1 & RA).
    change (bst_num_bits_until_next_block (shifted s b)) with
      (u32_sub (bst_num_bits_until_next_block s) 1) in H.
    rewrite U1 in H. change (u32_sub 1 1 =? 0) with true in H. cbn iota zeta in H.
    destruct (bst_is_in_sync (acquireSync (shifted s b) (recognise w))) eqn:HA.
    + pose proof (find_in_sync (shifted s b) w W WL) as F. cbn zeta in F. specialize (F HA).
      destruct (acquire_synced (shifted s b) (recognise w) HS HA) as (Q1 & Q2 & Q3 & Q4 & Q5).
      rewrite Q2, Q3 in F.
      change (bst_use_fec (shifted s b)) with (bst_use_fec s) in F.
      change (bst_error_sum50 (shifted s b)) with (bst_error_sum50 s) in F.
      change (bst_has_group_ready (shifted s b)) with (bst_has_group_ready s) in F.
      destruct (sync_step_fresh (bst_use_fec s) (recognise w) (bst_error_sum50 s) Group_default w RA eq_refl Q1)
        as (st & gs & SS).
      rewrite SS in F. destruct F as (F1 & F2 & F3 & F4 & (F5 & F5') & F6).
      set (f := findBlockInInputRegister (shifted s b)) in *. clearbody f.
      rewrite F5 in H.
      destruct (sync_step_gs _ _ _ _ _ SS) as [->|[g ->]].
      * cbn [bst_set_until bst_has_group_ready] in H. rewrite F6, Iready in H.
        injection H as <- <-.
        apply (sk_lock s bits b _ st [] _ HS eq_refl HA SS); try assumption; try reflexivity.
        cbn. rewrite F6. exact Iready.
      * destruct F6 as [F6 F7]. cbn [bst_set_until bst_has_group_ready bst_ready_group] in H.
        rewrite F6, F7 in H. injection H as <- <-.
        apply (sk_lock s bits b _ st [g] _ HS eq_refl HA SS); try assumption; try reflexivity.
    + rewrite (find_unsync (shifted s b) w W WL HA) in H. rewrite HA in H.
      pose proof (acquireSync_reg (shifted s b) (recognise w)) as (_ & _ & _ & R4 & _).
      cbn [bst_set_until bst_has_group_ready] in H. rewrite R4 in H.
      change (bst_has_group_ready (shifted s b)) with (bst_has_group_ready s) in H.
      rewrite Iready in H. injection H as <- <-.
      apply (sk_hunt s bits b _ HS eq_refl HA).
Qed.
