(* Delivery of transmitted groups while in sync. *)
From Verif.Model Require Import Base Util Group BlockSync.
From Verif.Spec Require Import RdsCode RdsStream Reception.
From Verif.Proofs Require Import Tac Syndrome Ring BlockSyncP BlockSyncR BlockSyncT.


Lemma fixable_lt : forall fec e, fixable fec e -> e < 2 ^ 26.
Proof.
  intros fec e [->|[_ H]]; [reflexivity|]. apply short_burst_lt. exact H.
Qed.

Lemma short_burst_nonzero : forall e, short_burst e -> e <> 0.
Proof.
  intros e He. apply short_burst_In in He. intros ->.
  assert (S : forallb (fun e => negb (e =? 0)) short_burst_list = true) by (vm_compute; reflexivity).
  pose proof (forallb_In _ _ 0 S He) as H. discriminate H.
Qed.

Lemma short_burst_len : forall e, short_burst e -> exists len, len <= 10 /\ burst len e.
Proof. intros e [H|H]; [exists 1|exists 2]; (split; [lia|exact H]). Qed.

Lemma recognise_short : forall o d e, real_offset o -> d < 2 ^ 16 -> short_burst e ->
  recognise (N.lxor (tx_block o d) e) <> o.
Proof.
  intros o d e Ho Hd He.
  destruct (short_burst_len e He) as (len & Hl & Hb).
  rewrite <- recognise_syndrome.
  - destruct (own_offset_rejects_burst o d len e Hd Hl Hb) as [H|H]; [exact H|].
    exfalso. apply Ho. exact H.
  - apply lxor_lt_pow2; [apply tx_block_lt; exact Hd|apply short_burst_lt; exact He].
Qed.

Lemma c_not_cprime : forall d e, d < 2 ^ 16 -> short_burst e ->
  recognise (N.lxor (tx_block OffC d) e) <> OffCprime.
Proof.
  intros d e Hd He.
  rewrite <- recognise_syndrome
    by (apply lxor_lt_pow2; [apply tx_block_lt; exact Hd|apply short_burst_lt; exact He]).
  rewrite syndrome_lxor, tx_syndrome by exact Hd.
  apply short_burst_In in He.
  assert (S : forallb (fun e => negb (Offset_eqb (getOffsetForSyndrome
     (N.lxor (calculateSyndrome (offset_word OffC)) (calculateSyndrome e))) OffCprime)) short_burst_list = true)
    by (vm_compute; reflexivity).
  pose proof (forallb_In _ _ e S He) as H. cbv beta in H. intros E. rewrite E in H. discriminate H.
Qed.

Definition slot (o : Offset) : Offset := match o with OffCprime => OffC | _ => o end.

(* A (possibly repaired) transmitted block in its place. *)
Lemma block_ok : forall fec o d e, real_offset o -> d < 2 ^ 16 -> fixable fec e ->
  (o = OffCprime -> e = 0) ->
  let w := N.lxor (tx_block o d) e in
  settle (slot o) (recognise w) = o /\
  Offset_eqb (recognise w) o = (e =? 0) /\
  blk_of fec o w = Some (mkBlock w d true (negb (e =? 0)) o).
Proof.
  intros fec o d e Ho Hd HX HC w.
  destruct HX as [->|[-> He]].
  - assert (W : w = tx_block o d) by (unfold w; apply N.lxor_0_r).
    rewrite W. rewrite recognise_tx by assumption.
    split; [destruct o; try reflexivity; congruence|].
    split; [apply Offset_eqb_refl|].
    unfold blk_of. rewrite recognise_tx by assumption. rewrite Offset_eqb_refl, tx_data by exact Hd.
    reflexivity.
  - assert (NZ : e <> 0) by (apply short_burst_nonzero; exact He).
    apply N.eqb_neq in NZ as NZb.
    assert (R : Offset_eqb (recognise w) o = false).
    { destruct (Offset_eqb (recognise w) o) eqn:X; [|reflexivity].
      apply Offset_eqb_eq in X. exfalso. revert X. apply recognise_short; assumption. }
    split; [|split].
    + destruct o; try reflexivity.
      * cbn [slot settle]. destruct (recognise w) eqn:X; try reflexivity.
        exfalso. revert X. apply c_not_cprime; assumption.
      * exfalso. apply NZ. apply HC. reflexivity.
    + rewrite R, NZb. reflexivity.
    + unfold blk_of. rewrite R, NZb. unfold w. rewrite correct_exact by assumption.
      rewrite tx_data by exact Hd. reflexivity.
Qed.

Lemma sync_step_ok : forall fec o d e r g st gs, real_offset o -> d < 2 ^ 16 -> fixable fec e ->
  (o = OffCprime -> e = 0) ->
  sync_step fec (slot o, r, g) (N.lxor (tx_block o d) e) = (Some st, gs) ->
  let g' := g_setBlock g (getBlockNumberForOffset o)
              (mkBlock (N.lxor (tx_block o d) e) d true (negb (e =? 0)) o) in
  exists r', (st, gs) = if Offset_eqb o OffD then ((OffA, r', Group_default), [g'])
                        else ((following o, r', g'), []).
Proof.
  intros fec o d e r g st gs Ho Hd HX HC H g'.
  destruct (block_ok fec o d e Ho Hd HX HC) as (S1 & S2 & S3).
  unfold sync_step in H. rewrite S1, S3 in H. cbn [put_opt] in H. fold g' in H.
  destruct (42 <? _); [discriminate H|].
  destruct o; cbn in H |- *; try (injection H as <- <-; eauto).
  exfalso. apply Ho. reflexivity.
Qed.

Lemma type_of_block2 : forall d, d < 2 ^ 16 ->
  GroupType_of (getBits 5 d 11) = mkGroupType (d / 4096) (if N.testbit d 11 then VB else VA).
Proof.
  intros d Hd. unfold GroupType_of, getBits. change (2 ^ 16) with 65536 in Hd.
  assert (E : N.land (N.shiftr d 11) (N.ones 5) = d / 2048).
  { rewrite N.land_ones, N.shiftr_div_pow2. change (2 ^ 11) with 2048. apply N.mod_small.
    change (2 ^ 5) with 32. lia. }
  cbn [N.ones] in E |- *.
  change (N.pred (N.shiftl 1 5)) with 31 in *. rewrite ?E.
  f_equal.
  - change 15 with (N.ones 4). rewrite N.land_ones, N.shiftr_div_pow2. change (2 ^ 1) with 2. change (2 ^ 4) with 16.
    lia.
  - change 1 with (N.ones 1). rewrite N.land_ones. change (2 ^ 1) with 2.
    rewrite N.testbit_eqb. change (2 ^ 11) with 2048.
    destruct (N.eqb_spec ((d / 2048) mod 2) 0) as [Z|Z], (N.eqb_spec ((d / 2048) mod 2) 1) as [O|O]; try reflexivity; lia.
Qed.

Lemma third_real : forall t, real_offset (third_offset t).
Proof. intros t. unfold third_offset, real_offset. destruct (N.testbit _ _); discriminate. Qed.

Lemma sync_steps_app : forall fec ws vs st, sync_steps fec st (ws ++ vs) =
  match sync_steps fec st ws with
  | (Some st', gs) => let '(o, gs') := sync_steps fec st' vs in (o, gs ++ gs')
  | (None, _) => (None, [])
  end \/ fst (sync_steps fec st (ws ++ vs)) = None.
Proof.
  intros fec. induction ws as [|w ws IH]; intros vs st.
  - left. cbn. destruct (sync_steps fec st vs); reflexivity.
  - cbn [app sync_steps]. destruct (sync_step fec st w) as [[st1|] gs1]; [|left; reflexivity].
    destruct (IH vs st1) as [E|E].
    + rewrite E. destruct (sync_steps fec st1 ws) as [[st2|] gs2].
      * destruct (sync_steps fec st2 vs) as [o gs3]. left. rewrite app_assoc. reflexivity.
      * right. reflexivity.
    + right. destruct (sync_steps fec st1 (ws ++ vs)) as [o gs]. exact E.
Qed.

