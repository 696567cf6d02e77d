(* When the symbol synchroniser is given a value. *)
From Verif.Model Require Import Base Util Float Dsp Input Main Subcarrier.
From Verif.Spec Require Import Subcarriers.
From Verif.Proofs Require Import Tac RateP MainP DspP DemodP SubcarriersP.
Local Open Scope list_scope.

Section Grid.
  Context {D : Type}.
  Variable lq : Liquid D.
  Let rq := recording lq.

  Lemma stream_record : forall turn x streams s s' bits, ~ In 0%N streams -> sample_streams rq turn x streams s = Ok (s', bits) ->
    taken s' = taken s /\ ss_sample_num s' = ss_sample_num s.
  Proof.
    intros turn x. induction streams as [|n streams IH]; intros s s' bits F E; cbn [sample_streams] in E; [injection E as <- _; split; reflexivity|].
    unfold rq at 1, recording in E. cbn [lq_sample] in E. destruct (lq_sample lq (fst (ss_liquid s)) n x turn) as [d y].
    destruct (match (if turn then y else None) with Some _ => _ | None => _ end) as [[decs b]| |]; cbn [bind] in E; try discriminate.
    destruct (sample_streams rq turn x streams _) as [[s2 out]| |] eqn:Es; cbn [bind] in E; try discriminate. injection E as -> _.
    assert (Nn : n <> 0) by (intros ->; apply F; left; reflexivity). apply N.eqb_neq in Nn. rewrite Nn in Es.
    destruct (IH _ _ _ (fun Q => F (or_intror Q)) Es) as [A B]. split; [exact A|exact B].
  Qed.
  Lemma streams_record : forall turn x k s s' bits, sample_streams rq turn x (streams_to (S k)) s = Ok (s', bits) ->
    taken s' = taken s ++ [turn] /\ ss_sample_num s' = ss_sample_num s.
  Proof.
    intros turn x k s s' bits E. unfold streams_to in E. cbn [seq map sample_streams] in E. change (N.of_nat 0) with 0%N in E.
    unfold rq at 1, recording in E. cbn [lq_sample] in E. destruct (lq_sample lq (fst (ss_liquid s)) 0 x turn) as [d y].
    destruct (match (if turn then y else None) with Some _ => _ | None => _ end) as [[decs b]| |]; cbn [bind] in E; try discriminate.
    destruct (sample_streams rq turn x (map N.of_nat (seq 1 k)) _) as [[s2 out]| |] eqn:Es; cbn [bind] in E; try discriminate. injection E as -> _.
    assert (Away : ~ In 0%N (map N.of_nat (seq 1 k))) by (intros Q; apply in_map_iff in Q; destruct Q as (m & Em & Q); apply in_seq in Q; lia).
    destruct (stream_record _ _ _ _ _ _ Away Es) as [A B]. split; [exact A|exact B].
  Qed.

  Definition flags (a n : nat) : list bool := map (fun i => (N.of_nat i mod 2 ^ 32) mod 24 =? 0) (seq a n).
  Definition counted (a : nat) (s : SubcarrierSet (D * list bool)) : Prop := ss_sample_num s = N.of_nat a mod 2 ^ 32.

  Lemma samples_record : forall k samples a s s' bits, counted a s -> process_samples rq (streams_to (S k)) samples s = Ok (s', bits) ->
    taken s' = taken s ++ flags a (length samples) /\ counted (a + length samples) s'.
  Proof.
    intros k. induction samples as [|x samples IH]; intros a s s' bits C E; cbn [process_samples] in E.
    - injection E as <- _. unfold flags. cbn [length seq map]. rewrite app_nil_r, Nat.add_0_r. split; [reflexivity|exact C].
    - destruct (sample_streams rq _ x (streams_to (S k)) s) as [[s1 b1]| |] eqn:E1; cbn [bind] in E; try discriminate. cbv zeta in E. destruct (streams_record _ _ _ _ _ _ E1) as [T1 N1].
      destruct (process_samples rq (streams_to (S k)) samples _) as [[s2 b2]| |] eqn:E2; cbn [bind] in E; try discriminate. injection E as -> _.
      assert (C1 : u32 (ss_sample_num s1 + 1) = N.of_nat (S a) mod 2 ^ 32) by (unfold counted in C; rewrite N1, C; unfold u32; rewrite N.add_mod_idemp_l by discriminate; f_equal; lia).
      destruct (IH (S a) (mkSubcarrierSet _ _ _ _) _ _ C1 E2) as [T2 C2].
      split; [|cbn [length]; rewrite Nat.add_succ_r; exact C2]. rewrite T2. unfold taken at 1. cbn [ss_liquid]. fold (taken s1). rewrite T1, <- app_assoc. f_equal. unfold flags. cbn [length seq map app]. f_equal. rewrite C. reflexivity.
  Qed.

  Lemma loop_record : forall c d, resample_loop rq d c = (let '(d', l) := resample_loop lq (fst d) c in ((d', snd d), l)).
  Proof.
    induction c as [|x c IH]; intros [d t]; cbn [resample_loop]; [reflexivity|]. unfold rq at 1, recording. cbn [lq_resample fst snd]. destruct (lq_resample lq d x) as [d1 l1]. rewrite IH. cbn [fst snd]. destruct (resample_loop lq d1 c). reflexivity.
  Qed.
  Lemma flags_app : forall a m n, flags a m ++ flags (a + m) n = flags a (m + n).
  Proof. intros a m n. unfold flags. rewrite <- map_app, <- seq_app. reflexivity. Qed.

  Lemma events_record : forall k events a s s' bits, counted a s -> ~ In Anew events -> receive rq (S k) s events = Ok (s', bits) ->
    exists n, taken s' = taken s ++ flags a n /\ (SFeqb (ss_ratio s) (f32_of_Z 1) = true -> n = length (concat (map (fun e => match e with Chunk c => c | Anew => [] end) events))).
  Proof.
    intros k. induction events as [|[samples|] events IH]; intros a s s' bits C F E; cbn [receive] in E.
    - injection E as <- _. exists 0%nat. unfold flags. cbn [seq map]. rewrite app_nil_r. split; reflexivity.
    - unfold processChunk in E. destruct (resampleChunk rq s samples) as [t c] eqn:Ec.
      assert (Q : taken t = taken s /\ ss_sample_num t = ss_sample_num s /\ ss_ratio t = ss_ratio s /\ (SFeqb (ss_ratio s) (f32_of_Z 1) = true -> length c = length samples)).
      { unfold resampleChunk in Ec. destruct (SFeqb (ss_ratio s) (f32_of_Z 1)); [injection Ec as <- <-; repeat split; reflexivity|]. rewrite loop_record in Ec. destruct (resample_loop lq (fst (ss_liquid s)) samples). injection Ec as <- <-. repeat split; try reflexivity. discriminate. }
      destruct Q as (T & N0 & R & L).
      destruct (process_samples rq (streams_to (S k)) c t) as [[t1 b1]| |] eqn:P1; cbn [bind] in E; try discriminate. destruct (samples_record k c a t t1 b1 ltac:(unfold counted; rewrite N0; exact C) P1) as [T1 C1].
      assert (R1 : ss_ratio t1 = ss_ratio t).
      { clear - P1. revert t t1 b1 P1. induction c as [|x c IH]; intros t t1 b1 E; cbn [process_samples] in E; [injection E as <- _; reflexivity|].
        destruct (sample_streams rq _ x (streams_to (S k)) t) as [[s1 b2]| |] eqn:E1; cbn [bind] in E; try discriminate. cbv zeta in E. destruct (process_samples rq (streams_to (S k)) c _) as [[s2 b3]| |] eqn:E2; cbn [bind] in E; try discriminate. injection E as -> _.
        rewrite (IH _ _ _ E2). cbn [ss_ratio]. clear - E1. revert t s1 b2 E1. generalize (streams_to (S k)). generalize (fun t : SubcarrierSet (D * list bool) => ss_sample_num t mod kDecimateRatio =? 0). intros turn.
        assert (G : forall b l t s1 b2, sample_streams rq b x l t = Ok (s1, b2) -> ss_ratio s1 = ss_ratio t); [|intros l t s1 b2; apply G].
        intros b. induction l as [|n l IH]; intros t s1 b2 E; cbn [sample_streams] in E; [injection E as <- _; reflexivity|].
        destruct (lq_sample rq (ss_liquid t) n x b) as [d y]. destruct (match (if b then y else None) with Some _ => _ | None => _ end) as [[decs b0]| |]; cbn [bind] in E; try discriminate.
        destruct (sample_streams rq b x l _) as [[s3 out]| |] eqn:Es; cbn [bind] in E; try discriminate. injection E as -> _. rewrite (IH _ _ _ Es). reflexivity. }
      destruct (receive rq (S k) t1 events) as [[r1 l1]| |] eqn:R2; cbn [bind] in E; try discriminate. injection E as -> _.
      destruct (IH _ _ _ _ C1 (fun Q => F (or_intror Q)) R2) as (n & T2 & L2). exists (length c + n)%nat. split.
      + rewrite T2, T1, T, <- app_assoc, flags_app. reflexivity.
      + intros Q. cbn [map concat]. rewrite app_length, (L Q), L2; [reflexivity|]. rewrite R1, R. exact Q.
    - exfalso. apply F. left. reflexivity.
  Qed.

  (* The writing down changes nothing *)
  Definition plainly (s : SubcarrierSet (D * list bool)) : SubcarrierSet D := mkSubcarrierSet (ss_sample_num s) (ss_ratio s) (fst (ss_liquid s)) (ss_decoders s).
  Lemma sample_plain : forall turn x streams s s' bits, sample_streams rq turn x streams s = Ok (s', bits) -> sample_streams lq turn x streams (plainly s) = Ok (plainly s', bits).
  Proof.
    intros turn x. induction streams as [|n streams IH]; intros s s' bits E; cbn [sample_streams] in E |- *; [injection E as <- <-; reflexivity|].
    unfold rq at 1, recording in E. cbn [lq_sample] in E. cbn [plainly ss_liquid ss_decoders ss_sample_num ss_ratio]. destruct (lq_sample lq (fst (ss_liquid s)) n x turn) as [d y].
    destruct (match (if turn then y else None) with Some _ => _ | None => _ end) as [[decs b]| |]; cbn [bind] in E |- *; try discriminate.
    destruct (sample_streams rq turn x streams _) as [[s2 out]| |] eqn:Es; cbn [bind] in E; try discriminate. injection E as -> <-.
    apply IH in Es. unfold plainly at 1 in Es. cbn [ss_liquid ss_decoders ss_sample_num ss_ratio fst] in Es. rewrite Es. reflexivity.
  Qed.
  Lemma samples_plain : forall streams samples s s' bits, process_samples rq streams samples s = Ok (s', bits) -> process_samples lq streams samples (plainly s) = Ok (plainly s', bits).
  Proof.
    intros streams. induction samples as [|x samples IH]; intros s s' bits E; cbn [process_samples] in E |- *; [injection E as <- <-; reflexivity|].
    destruct (sample_streams rq _ x streams s) as [[s1 b1]| |] eqn:E1; cbn [bind] in E; try discriminate. cbv zeta in E. destruct (process_samples rq streams samples _) as [[s2 b2]| |] eqn:E2; cbn [bind] in E; try discriminate. injection E as -> <-.
    change (ss_sample_num (plainly s)) with (ss_sample_num s). rewrite (sample_plain _ _ _ _ _ _ E1). cbn [bind]. cbv zeta. apply IH in E2. unfold plainly at 1 in E2. cbn [ss_liquid ss_decoders ss_sample_num ss_ratio] in E2.
    cbn [plainly ss_liquid ss_decoders ss_sample_num ss_ratio]. rewrite E2. reflexivity.
  Qed.
  Lemma receive_plain : forall k events s s' bits, receive rq k s events = Ok (s', bits) -> receive lq k (plainly s) events = Ok (plainly s', bits).
  Proof.
    intros k. induction events as [|[samples|] events IH]; intros s s' bits E; cbn [receive] in E |- *; [injection E as <- <-; reflexivity| |].
    - unfold processChunk in E |- *. destruct (resampleChunk rq s samples) as [t c] eqn:Ec.
      assert (Q : resampleChunk lq (plainly s) samples = (plainly t, c)).
      { unfold resampleChunk in Ec |- *. cbn [plainly ss_ratio ss_liquid]. destruct (SFeqb (ss_ratio s) (f32_of_Z 1)); [injection Ec as <- <-; reflexivity|]. rewrite loop_record in Ec. destruct (resample_loop lq (fst (ss_liquid s)) samples). injection Ec as <- <-. reflexivity. }
      rewrite Q. destruct (process_samples rq (streams_to k) c t) as [[t1 b1]| |] eqn:P1; cbn [bind] in E; try discriminate. rewrite (samples_plain _ _ _ _ _ P1). cbn [bind].
      destruct (receive rq k t1 events) as [[r1 l1]| |] eqn:R1; cbn [bind] in E; try discriminate. injection E as -> <-. rewrite (IH _ _ _ R1). reflexivity.
    - exact (IH _ _ _ E).
  Qed.
End Grid.

Lemma flags_even : forall n, (N.of_nat n <= 2 ^ 32)%N -> flags 0 n = every_24th n.
Proof.
  intros n H. unfold flags, every_24th. apply map_ext_in. intros i I. apply in_seq in I. rewrite (N.mod_small (N.of_nat i)) by lia. reflexivity.
Qed.
Lemma seq_at : forall n i, (i < n)%nat -> nth_error (seq 0 n) i = Some i.
Proof. intros n i H. rewrite (nth_error_nth' _ 0%nat) by (rewrite seq_length; lia). rewrite seq_nth by lia. reflexivity. Qed.
Lemma flags_at : forall n i, (i < n)%nat -> nth_error (flags 0 n) i = Some ((N.of_nat i mod 2 ^ 32) mod 24 =? 0) /\ nth_error (every_24th n) i = Some (N.of_nat i mod 24 =? 0).
Proof. intros n i H. unfold flags, every_24th. rewrite !nth_error_map, (seq_at n i H). split; reflexivity. Qed.
Lemma flags_odd : forall n i, (i < n)%nat -> N.of_nat i = 2 ^ 32 -> flags 0 n <> every_24th n.
Proof.
  intros n i H I E. destruct (flags_at n i H) as [A B]. rewrite E, B, I in A. injection A as A. discriminate A.
Qed.
