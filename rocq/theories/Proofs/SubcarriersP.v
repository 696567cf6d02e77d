(* The data streams do not disturb each other; the resampler's output fits; the phases stay within half a turn. *)
From Coq Require FinFun.
From Verif.Model Require Import Base Util Float Dsp Input Main Subcarrier.
From Verif.Spec Require Import Demod Subcarriers.
From Verif.Proofs Require Import Tac DspP MainP DemodP.
Local Open Scope list_scope.

Section Separate.
  Variable P : Parts.
  Let lq := liquid_of P.

  (* One sample, one data stream *)
  Definition solo (n : N) (turn : bool) (x : spec_float) (d : Demod P) (dec : BiphaseDecoder * N) : res (Demod P * (BiphaseDecoder * N) * list bool) :=
    let '(d, symbol) := match demod_sample d n x turn with Ok p => p | _ => (d, None) end in
    match (if turn then symbol else None) with
    | Some y => '(dec, b) <- decode_symbol dec y ;; Ok (d, dec, b)
    | None => Ok (d, dec, [])
    end.

  Definition at_n (s : SubcarrierSet (Objects P)) (n : N) (d : Demod P) (dec : BiphaseDecoder * N) : Prop :=
    length (q_demods (ss_liquid s)) = 4%nat /\ length (ss_decoders s) = 4%nat /\
    nth_error (q_demods (ss_liquid s)) (N.to_nat n) = Some d /\ nth_error (ss_decoders s) (N.to_nat n) = Some dec.
  Definition same_base (s s' : SubcarrierSet (Objects P)) : Prop :=
    ss_sample_num s' = ss_sample_num s /\ ss_ratio s' = ss_ratio s /\ q_resampler (ss_liquid s') = q_resampler (ss_liquid s).

  Lemma solo_streams : forall turn x streams s s' bits n d dec, NoDup streams -> Forall (fun st => st < 4) streams -> at_n s n d dec ->
    sample_streams lq turn x streams s = Ok (s', bits) ->
    length bits = length streams /\ same_base s s' /\
    (~ In n streams -> at_n s' n d dec) /\
    (forall i, nth_error streams i = Some n -> exists d' dec', solo n turn x d dec = Ok (d', dec', nth i bits []) /\ at_n s' n d' dec').
  Proof.
    intros turn x. induction streams as [|st streams IH]; intros s s' bits n d dec ND F A E; cbn [sample_streams] in E.
    - injection E as <- <-. split; [reflexivity|]. split; [repeat split|]. split; [intros _; exact A|]. intros [|i] H; discriminate H.
    - apply NoDup_cons_iff in ND. destruct ND as [NI ND]. apply Forall_cons_iff in F. destruct F as [H4 F]. destruct A as (L1 & L2 & A1 & A2).
      destruct (nth_error (q_demods (ss_liquid s)) (N.to_nat st)) as [e|] eqn:Ee; [|apply nth_error_None in Ee; lia].
      destruct (nth_error (ss_decoders s) (N.to_nat st)) as [dc|] eqn:Ed; [|apply nth_error_None in Ed; lia].
      assert (G : exists e' dc' b s1, solo st turn x e dc = Ok (e', dc', b) /\ sample_streams lq turn x streams s1 = Ok (s', tl bits) /\ bits = b :: tl bits /\ same_base s s1 /\ at_n s1 st e' dc' /\
        (n <> st -> at_n s1 n d dec)).
      { assert (Lq : lq_sample lq (ss_liquid s) st x turn = match demod_sample e st x turn with
            | Ok (d0, symbol) => (mkObjects (q_resampler (ss_liquid s)) (list_set (q_demods (ss_liquid s)) (N.to_nat st) d0), symbol)
            | _ => (ss_liquid s, None) end) by (unfold lq, liquid_of; cbn [lq_sample]; unfold arr_get; rewrite Ee; reflexivity).
        destruct (lq_sample lq (ss_liquid s) st x turn) as [q0 y0] eqn:Eq. unfold solo.
        assert (Fall : forall q (y : option Complex), (match demod_sample e st x turn with
            | Ok (d0, symbol) => (mkObjects (q_resampler (ss_liquid s)) (list_set (q_demods (ss_liquid s)) (N.to_nat st) d0), symbol)
            | _ => (ss_liquid s, None) end) = (q, y) ->
          exists e', (match demod_sample e st x turn with Ok p => p | _ => (e, None) end) = (e', y) /\ q_resampler q = q_resampler (ss_liquid s) /\ length (q_demods q) = 4%nat /\
            nth_error (q_demods q) (N.to_nat st) = Some e' /\ (forall m, m <> st -> nth_error (q_demods q) (N.to_nat m) = nth_error (q_demods (ss_liquid s)) (N.to_nat m))).
        { intros q y H. destruct (demod_sample e st x turn) as [[e' y']| |]; injection H as <- <-; [exists e'|exists e..]; (split; [reflexivity|]); cbn [q_resampler q_demods]; (split; [reflexivity|]).
          - split; [rewrite list_set_len; exact L1|]. split; [apply set_same; lia|]. intros m Hm. apply set_other. lia.
          - auto.
          - auto. }
        destruct (Fall q0 y0 (eq_sym Lq)) as (e' & -> & Q1 & Q2 & Q3 & Q4). clear Fall Lq Eq. rename q0 into q. rename y0 into y. cbv iota beta in E |- *.
        destruct (if turn then y else None) as [y'|] eqn:Ey; cbn [bind] in E.
        - unfold arr_get in E. rewrite Ed in E. cbn [bind] in E. destruct (decode_symbol dc y') as [[dc' b]| |] eqn:Eb; cbn [bind] in E; try discriminate.
          destruct (sample_streams lq turn x streams _) as [[s2 out]| |] eqn:Es; cbn [bind] in E; try discriminate. injection E as -> <-.
          exists e', dc', b, (mkSubcarrierSet (ss_sample_num s) (ss_ratio s) q (list_set (ss_decoders s) (N.to_nat st) dc')).
          split; [destruct turn; [|discriminate Ey]; cbv iota in Ey |- *; subst y; cbv iota beta; rewrite Eb; reflexivity|]. split; [exact Es|]. split; [reflexivity|]. split; [repeat split; exact Q1|].
          split; [repeat split; cbn [ss_liquid ss_decoders]; [exact Q2|rewrite list_set_len; exact L2|exact Q3|apply set_same; lia]|].
          intros Nn. repeat split; cbn [ss_liquid ss_decoders]; [exact Q2|rewrite list_set_len; exact L2|rewrite Q4 by exact Nn; exact A1|rewrite set_other by lia; exact A2].
        - destruct (sample_streams lq turn x streams _) as [[s2 out]| |] eqn:Es; cbn [bind] in E; try discriminate. injection E as -> <-.
          exists e', dc, [], (mkSubcarrierSet (ss_sample_num s) (ss_ratio s) q (ss_decoders s)).
          split; [destruct turn; [|reflexivity]; cbv iota in Ey |- *; subst y; reflexivity|]. split; [exact Es|]. split; [reflexivity|]. split; [repeat split; exact Q1|].
          split; [repeat split; cbn [ss_liquid ss_decoders]; [exact Q2|exact L2|exact Q3|exact Ed]|].
          intros Nn. repeat split; cbn [ss_liquid ss_decoders]; [exact Q2|exact L2|rewrite Q4 by exact Nn; exact A1|exact A2]. }
      destruct G as (e' & dc' & b & s1 & So & Es & Eb & (B1 & B2 & B3) & At1 & Other).
      assert (Base : forall s2, same_base s1 s2 -> same_base s s2) by (intros s2 (C1 & C2 & C3); unfold same_base; rewrite C1, C2, C3; auto).
      destruct (N.eq_dec n st) as [->|Nn].
      + assert (e = d) as -> by congruence. assert (dc = dec) as -> by congruence.
        destruct (IH _ _ _ st e' dc' ND F At1 Es) as (Ln & Sb & K1 & K2). split; [rewrite Eb; cbn [length]; lia|]. split; [exact (Base _ Sb)|]. split; [cbn [In]; tauto|].
        intros [|i] Hi.
        * exists e', dc'. rewrite Eb. cbn [nth]. split; [exact So|exact (K1 NI)].
        * exfalso. apply NI. exact (nth_error_In streams i Hi).
      + destruct (IH _ _ _ n d dec ND F (Other Nn) Es) as (Ln & Sb & K1 & K2). split; [rewrite Eb; cbn [length]; lia|]. split; [exact (Base _ Sb)|]. split.
        * cbn [In]. intros X. apply K1. tauto.
        * intros [|i] Hi; cbn [nth_error] in Hi; [congruence|]. destruct (K2 i Hi) as (d' & dec' & X & Y). exists d', dec'. rewrite Eb. cbn [nth]. split; assumption.
  Qed.

  (* All samples, one data stream *)
  Fixpoint solos (n num : N) (samples : list spec_float) (d : Demod P) (dec : BiphaseDecoder * N) : res (Demod P * (BiphaseDecoder * N) * list bool) :=
    match samples with
    | [] => Ok (d, dec, [])
    | x :: r => '(d, dec, b) <- solo n (num mod kDecimateRatio =? 0) x d dec ;; '(d, dec, b') <- solos n (u32 (num + 1)) r d dec ;; Ok (d, dec, b ++ b')
    end.

  Lemma nth_both : forall (A : Type) i (a b : list (list A)), length a = length b -> nth i (map (fun p => fst p ++ snd p) (combine a b)) [] = nth i a [] ++ nth i b [].
  Proof. intros A. induction i as [|i IH]; intros [|x a] [|y b] L; try discriminate L; try reflexivity. cbn [combine map nth]. apply IH. injection L as L. exact L. Qed.

  Lemma solo_samples : forall streams n i, NoDup streams -> Forall (fun st => st < 4) streams -> nth_error streams i = Some n -> forall samples s s' bits d dec, at_n s n d dec ->
    process_samples lq streams samples s = Ok (s', bits) ->
    length bits = length streams /\ ss_sample_num s' = fold_left (fun k _ => u32 (k + 1)) samples (ss_sample_num s) /\ ss_ratio s' = ss_ratio s /\ q_resampler (ss_liquid s') = q_resampler (ss_liquid s) /\
    exists d' dec', solos n (ss_sample_num s) samples d dec = Ok (d', dec', nth i bits []) /\ at_n s' n d' dec'.
  Proof.
    intros streams n i ND F Hi. induction samples as [|x samples IH]; intros s s' bits d dec A E; cbn [process_samples] in E.
    - injection E as <- <-. split; [apply map_length|]. split; [reflexivity|]. split; [reflexivity|]. split; [reflexivity|]. exists d, dec. split; [|exact A]. cbn [solos].
      assert (nth i (map (fun _ : N => @nil bool) streams) [] = []) as ->; [|reflexivity]. clear. revert i. induction streams as [|y l IH]; intros [|i]; try reflexivity. apply IH.
    - destruct (sample_streams lq _ x streams s) as [[s1 b1]| |] eqn:E1; cbn [bind] in E; try discriminate. cbv zeta in E.
      destruct (process_samples lq streams samples _) as [[s2 b2]| |] eqn:E2; cbn [bind] in E; try discriminate. injection E as -> <-.
      destruct (solo_streams _ _ _ _ _ _ n d dec ND F A E1) as (Ln & (B1 & B2 & B3) & _ & K). destruct (K i Hi) as (d1 & dec1 & So & At1).
      destruct (IH (mkSubcarrierSet (u32 (ss_sample_num s1 + 1)) (ss_ratio s1) (ss_liquid s1) (ss_decoders s1)) _ _ d1 dec1 At1 E2) as (Ln2 & C1 & C2 & C3 & d2 & dec2 & So2 & At2).
      cbn [ss_sample_num ss_ratio ss_liquid] in C1, C2, C3, So2. rewrite B1 in C1, So2. cbn [fold_left].
      split; [rewrite map_length, combine_length; lia|]. split; [exact C1|]. split; [congruence|]. split; [congruence|]. exists d2, dec2. split; [|exact At2].
      cbn [solos]. rewrite So. cbn [bind]. rewrite So2. cbn [bind]. rewrite nth_both by lia. reflexivity.
  Qed.

  Lemma streams_at : forall k i, (i < k)%nat -> nth_error (streams_to k) i = Some (N.of_nat i).
  Proof. intros k i L. unfold streams_to. rewrite nth_error_map. rewrite (nth_error_nth' (seq 0 k) 0%nat) by (rewrite seq_length; exact L). rewrite seq_nth by exact L. reflexivity. Qed.
  Lemma streams_nodup : forall k, NoDup (streams_to k).
  Proof. intros k. unfold streams_to. apply FinFun.Injective_map_NoDup; [intros a b; lia|apply seq_NoDup]. Qed.
  Lemma streams_small : forall k, (k <= 4)%nat -> Forall (fun st => st < 4) (streams_to k).
  Proof. intros k L. unfold streams_to. apply Forall_forall. intros x H. apply in_map_iff in H. destruct H as (y & <- & H). apply in_seq in H. lia. Qed.

  (* Two demodulators that agree on stream n *)
  Definition agree (n : N) (s s' : SubcarrierSet (Objects P)) : Prop :=
    same_base s s' /\ exists d dec, at_n s n d dec /\ at_n s' n d dec.

  Lemma resample_agrees : forall (n : N) s s' chunk, agree n s s' ->
    agree n (fst (resampleChunk lq s chunk)) (fst (resampleChunk lq s' chunk)) /\ snd (resampleChunk lq s' chunk) = snd (resampleChunk lq s chunk).
  Proof.
    intros n s s' chunk ((B1 & B2 & B3) & d & dec & A & A'). unfold resampleChunk. rewrite B2. destruct (SFeqb (ss_ratio s) (f32_of_Z 1)).
    - cbn [fst snd]. split; [|reflexivity]. split; [repeat split; assumption|]. exists d, dec. split; assumption.
    - assert (R : forall c q q', q_resampler q' = q_resampler q ->
        q_resampler (fst (resample_loop lq q' c)) = q_resampler (fst (resample_loop lq q c)) /\ snd (resample_loop lq q' c) = snd (resample_loop lq q c) /\
        q_demods (fst (resample_loop lq q c)) = q_demods q /\ q_demods (fst (resample_loop lq q' c)) = q_demods q').
      { unfold lq, liquid_of. induction c as [|x c IH]; intros q q' Q; cbn [resample_loop lq_resample]; [auto|]. rewrite Q.
        destruct (res_execute (q_resampler q) x) as [[r l]| |].
        - destruct (IH (mkObjects r (q_demods q)) (mkObjects r (q_demods q')) eq_refl) as (I1 & I2 & I3 & I4).
          destruct (resample_loop _ (mkObjects r (q_demods q)) c) as [q1 l1]. destruct (resample_loop _ (mkObjects r (q_demods q')) c) as [q2 l2]. cbn [fst snd q_demods] in *. rewrite I2. auto.
        - destruct (IH q q' Q) as (I1 & I2 & I3 & I4). destruct (resample_loop _ q c) as [q1 l1]. destruct (resample_loop _ q' c) as [q2 l2]. cbn [fst snd] in *. rewrite I2. auto.
        - destruct (IH q q' Q) as (I1 & I2 & I3 & I4). destruct (resample_loop _ q c) as [q1 l1]. destruct (resample_loop _ q' c) as [q2 l2]. cbn [fst snd] in *. rewrite I2. auto. }
      destruct (R chunk (ss_liquid s) (ss_liquid s') B3) as (R1 & R2 & R3 & R4). destruct (resample_loop lq (ss_liquid s) chunk) as [q1 l1]. destruct (resample_loop lq (ss_liquid s') chunk) as [q2 l2].
      cbn [fst snd] in *. split; [|exact R2]. split; [repeat split; cbn [ss_sample_num ss_ratio ss_liquid]; assumption|]. exists d, dec. unfold at_n in *. cbn [ss_liquid ss_decoders]. rewrite R3, R4. split; assumption.
  Qed.

  Lemma events_agree : forall (i k k' : nat) events, (i < k)%nat -> (i < k')%nat -> (k <= 4)%nat -> (k' <= 4)%nat -> forall s s' r r' bits bits', agree (N.of_nat i) s s' ->
    receive lq k s events = Ok (r, bits) -> receive lq k' s' events = Ok (r', bits') -> length bits = k /\ length bits' = k' /\ nth i bits [] = nth i bits' [].
  Proof.
    intros i k k' events I1 I2 K1 K2. assert (Lk : forall m, length (streams_to m) = m) by (intros; unfold streams_to; rewrite map_length, seq_length; reflexivity).
    induction events as [|[samples|] events IH]; intros s s' r r' bits bits' A E E'; cbn [receive] in E, E'.
    - injection E as _ <-. injection E' as _ <-. rewrite !repeat_length. split; [reflexivity|]. split; [reflexivity|]. rewrite !nth_repeat. reflexivity.
    - unfold processChunk in E, E'. destruct (resample_agrees (N.of_nat i) s s' samples A) as [A1 S1].
      destruct (resampleChunk lq s samples) as [t c]. destruct (resampleChunk lq s' samples) as [t' c']. cbn [fst snd] in A1, S1. subst c'.
      destruct (process_samples lq (streams_to k) c t) as [[t1 b1]| |] eqn:P1; cbn [bind] in E; try discriminate.
      destruct (process_samples lq (streams_to k') c t') as [[t1' b1']| |] eqn:P2; cbn [bind] in E'; try discriminate.
      destruct A1 as ((B1 & B2 & B3) & d & dec & At & At').
      destruct (solo_samples (streams_to k) (N.of_nat i) i (streams_nodup k) (streams_small k K1) (streams_at k i I1) c t t1 b1 d dec At P1) as (L1 & C1 & C2 & C3 & d1 & dec1 & So1 & At1).
      destruct (solo_samples (streams_to k') (N.of_nat i) i (streams_nodup k') (streams_small k' K2) (streams_at k' i I2) c t' t1' b1' d dec At' P2) as (L2 & C1' & C2' & C3' & d2 & dec2 & So2 & At2).
      rewrite B1 in So2, C1'. rewrite So1 in So2. injection So2 as -> -> Nb.
      destruct (receive lq k t1 events) as [[r1 l1]| |] eqn:R1; cbn [bind] in E; try discriminate. destruct (receive lq k' t1' events) as [[r2 l2]| |] eqn:R2; cbn [bind] in E'; try discriminate.
      assert (Ag : agree (N.of_nat i) t1 t1') by (split; [repeat split; congruence|exists d2, dec2; split; assumption]).
      destruct (IH t1 t1' _ _ _ _ Ag R1 R2) as (M1 & M2 & M3). injection E as _ <-. injection E' as _ <-. rewrite Lk in L1, L2.
      split; [rewrite map_length, combine_length; lia|]. split; [rewrite map_length, combine_length; lia|]. rewrite !nth_both by lia. congruence.
    - assert (Ag : agree (N.of_nat i) (ss_reset lq s) (ss_reset lq s')).
      { destruct A as ((B1 & B2 & B3) & d & dec & (X1 & X2 & X3 & X4) & (Y1 & Y2 & Y3 & Y4)). split; [repeat split; cbn [ss_reset ss_ratio ss_liquid]; try assumption|].
        exists (Demod_reset d), dec. unfold at_n. cbn [ss_reset ss_liquid ss_decoders lq_reset]. unfold lq, liquid_of. cbn [lq_reset q_demods]. rewrite !map_length, !nth_error_map, X3, Y3. cbn [option_map]. repeat split; assumption. }
      exact (IH _ _ _ _ _ _ Ag E E').
  Qed.
End Separate.
