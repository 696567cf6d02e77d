(* The resampler never writes more than there is room for. *)
From Verif.Model Require Import Base Util Float Dsp Input Main Subcarrier.
From Verif.Spec Require Import Subcarriers.
From Verif.Proofs Require Import Tac RateP FloatB.

Section Rates.
  Local Open Scope Z_scope.

  Lemma rate_float : forall rate, 128000 <= rate <= 34200002 -> good (f32_of_Z rate) /\ V 128000 0 <= S (f32_of_Z rate) <= V 1 26.
  Proof.
    intros rate R. assert (B : bound_ok 1 26) by (split; lia). assert (B' : bound_ok 128000 0) by (split; lia).
    pose proof (pow_pos 1000 ltac:(lia)) as PP.
    assert (Vr : V rate 0 <= V 1 26). { unfold V. change (26 + 1000) with (26 + 1000). rewrite (Z.pow_add_r 2 26 1000) by lia. change (0 + 1000) with 1000. nia. }
    assert (V0 : V 128000 0 <= V rate 0) by (apply V_le; lia). assert (Vp : 0 < V 128000 0) by (unfold V; change (0 + 1000) with 1000; nia).
    destruct (norm_le rate 0 false 1 26 ltac:(lia) B ltac:(lia)) as (G & A & P & _). fold (f32_of_Z rate) in *.
    pose proof (norm_ge rate 0 false 128000 0 ltac:(lia) B' ltac:(lia) G) as L. fold (f32_of_Z rate) in L. specialize (P ltac:(lia)). split; [exact G|]. lia.
  Qed.

  Lemma rate_ratio : forall rate, 128000 <= rate <= 34200002 -> let ratio := f32_div f32_target_rate (f32_of_Z rate) in
    good ratio /\ V 1 (-9) <= S ratio <= V 171 (-7).
  Proof.
    intros rate R. cbv zeta. destruct (rate_float rate R) as (G & A). remember (f32_of_Z rate) as y eqn:Y. clear Y.
    assert (Gt : good f32_target_rate) by reflexivity. assert (St : S f32_target_rate = V 10944000 (-6)) by reflexivity.
    assert (P0 : 0 < V 128000 0). { unfold V. pose proof (pow_pos (0 + 1000) ltac:(lia)). lia. }
    assert (Pt : 0 < V 10944000 (-6)). { unfold V. pose proof (pow_pos (-6 + 1000) ltac:(lia)). lia. }
    pose proof (pow_pos 993 ltac:(lia)) as P993. pose proof (pow_pos 1000 ltac:(lia)) as P1000. pose proof (pow_pos 991 ltac:(lia)) as P991.
    destruct (div_le f32_target_rate y 171 (-7) Gt G ltac:(lia) ltac:(split; lia)) as (Gr & L & Sg).
    { rewrite St. rewrite !Z.abs_eq by lia. transitivity (V 171 (-7) * V 128000 0).
      - unfold V. change (-6 + 1000) with (993 + 1). change (-7 + 1000) with 993. change (0 + 1000) with 1000. rewrite (Z.pow_add_r 2 993 1) by lia. change (2 ^ 1) with 2. remember (2 ^ 993) as u eqn:U. remember (2 ^ 1000) as v eqn:W. clear. lia.
      - apply Z.mul_le_mono_nonneg_l; [unfold V; change (-7 + 1000) with 993; lia|lia]. }
    split; [exact Gr|]. specialize (Sg ltac:(lia) ltac:(lia)). rewrite Z.abs_eq in L by exact Sg. split; [|exact L].
    rewrite <- (Z.abs_eq (S (f32_div f32_target_rate y))) by exact Sg. apply div_ge; [exact Gt|exact G|lia|lia|split; lia| |exact Gr].
    rewrite St. rewrite !Z.abs_eq by lia. transitivity (V 1 (-9) * V 1 26).
    - apply Z.mul_le_mono_nonneg_l; [unfold V; change (-9 + 1000) with 991; lia|lia].
    - unfold V. change (-9 + 1000) with 991. change (26 + 1000) with (26 + 1000). change (-6 + 1000) with (991 + 3). rewrite (Z.pow_add_r 2 26 1000) by lia. rewrite (Z.pow_add_r 2 991 3) by lia.
      change (2 ^ 26) with 67108864. change (2 ^ 3) with 8. remember (2 ^ 991) as u eqn:U. remember (2 ^ 1000) as v eqn:W. clear U W. assert (0 <= u * v) by nia. lia.
  Qed.

  Lemma lround_ge : forall f k, good f -> V k 0 <= S f -> 0 < k -> exists z, sf_lround f = Ok z /\ k <= z.
  Proof.
    intros [s|s| |s m e] k G L K; try contradiction G.
    - exfalso. change (S (S754_zero s)) with 0 in L. unfold V in L. pose proof (pow_pos (0 + 1000) ltac:(lia)). nia.
    - pose proof (good_e _ _ _ G) as Ge. pose proof (V_pos m e ltac:(lia)). unfold S in L. destruct s; [exfalso; unfold V in *; pose proof (pow_pos (0 + 1000) ltac:(lia)); nia|].
      cbn [sf_lround]. eexists. split; [reflexivity|]. cbv iota. destruct (0 <=? e) eqn:Se.
      + apply Z.leb_le in Se. rewrite (V_up (Z.pos m) 0 e) in L by lia. apply V_le in L; [|lia]. replace (e - 0) with e in L by lia. exact L.
      + apply Z.leb_gt in Se. rewrite (V_up k e 0) in L by lia. apply V_le in L; [|lia]. replace (0 - e) with (- e) in L by lia. pose proof (pow_pos (- e) ltac:(lia)) as PP.
        apply Z.div_le_lower_bound; lia.
  Qed.

  Lemma rate_step : forall rate, 128000 <= rate <= 34200002 -> (12558340 <= step_of (f32_div f32_target_rate (f32_of_Z rate)))%N.
  Proof.
    intros rate R. destruct (rate_ratio rate R) as (G & A). cbv zeta in A. remember (f32_div f32_target_rate (f32_of_Z rate)) as y eqn:Y. clear Y.
    unfold step_of. remember (f32_of_Z (2 ^ 24)) as x eqn:X. assert (Gx : good x) by (subst x; reflexivity). assert (Sx : S x = V 1 24) by (subst x; reflexivity). clear X.
    assert (P9 : 0 < V 1 (-9)). { unfold V. pose proof (pow_pos (-9 + 1000) ltac:(lia)). lia. }
    assert (P24 : 0 < V 1 24). { unfold V. pose proof (pow_pos (24 + 1000) ltac:(lia)). lia. }
    pose proof (pow_pos 991 ltac:(lia)) as P991. pose proof (pow_pos 1000 ltac:(lia)) as P1000. pose proof (pow_pos 993 ltac:(lia)) as P993.
    destruct (div_le x y 1 33 Gx G ltac:(lia) ltac:(split; lia)) as (Gr & L & Sg).
    { rewrite Sx, !Z.abs_eq by lia. transitivity (V 1 33 * V 1 (-9)).
      - unfold V. rewrite !Z.mul_1_l. rewrite <- !Z.pow_add_r by lia. apply Z.pow_le_mono_r; lia.
      - apply Z.mul_le_mono_nonneg_l; [unfold V; rewrite Z.mul_1_l; apply Z.pow_nonneg; lia|lia]. }
    specialize (Sg ltac:(lia) ltac:(lia)).
    assert (Ge : V 12558340 0 <= Z.abs (S (f32_div x y))).
    { apply div_ge; [exact Gx|exact G|lia|lia|split; lia| |exact Gr]. rewrite Sx, !Z.abs_eq by lia. transitivity (V 12558340 0 * V 171 (-7)).
      - apply Z.mul_le_mono_nonneg_l; [unfold V; change (0 + 1000) with 1000; lia|lia].
      - unfold V. change (0 + 1000) with 1000. change (-7 + 1000) with 993. change (24 + 1000) with (993 + 31). rewrite (Z.pow_add_r 2 993 31) by lia. change (2 ^ 31) with 2147483648.
        remember (2 ^ 993) as u eqn:U. remember (2 ^ 1000) as v eqn:W. clear U W. assert (0 <= u * v) by nia. lia. }
    rewrite Z.abs_eq in Ge by exact Sg. destruct (lround_ge _ _ Gr Ge ltac:(lia)) as (z & -> & Z). lia.
  Qed.
End Rates.

Section Buffers.
  Context {P : Parts}.

  Lemma outputs_are : forall room filter phase step phase' l, @res_outputs P room filter phase step = Some (phase', l) ->
    (phase' + 2 ^ 24 = phase + N.of_nat (length l) * step)%N /\ (l = [] \/ phase + N.of_nat (length l) * step < 2 ^ 24 + step)%N /\ (length l <= room)%nat.
  Proof.
    induction room as [|room IH]; intros filter phase step phase' l E; cbn [res_outputs] in E; destruct (phase <? 2 ^ 24) eqn:L; try discriminate E.
    - injection E as <- <-. apply N.ltb_ge in L. cbn [length]. split; [lia|]. split; [left; reflexivity|lia].
    - destruct (res_outputs room filter (phase + step) step) as [[p' l']|] eqn:E'; [|discriminate E]. injection E as <- <-. destruct (IH _ _ _ _ _ E') as (A & B & C). apply N.ltb_lt in L. cbn [length].
      split; [lia|]. split; [right; destruct B as [->|B]; cbn [length]; lia|lia].
    - injection E as <- <-. apply N.ltb_ge in L. cbn [length]. split; [lia|]. split; [left; reflexivity|lia].
  Qed.

  Lemma execute_fits : forall (r : Resampler P) x, (2 ^ 23 <= r_step r)%N -> exists r' l, res_execute r x = Ok (r', l) /\ r_step r' = r_step r /\
    (r_phase r' + 2 ^ 24 = r_phase r + N.of_nat (length l) * r_step r)%N /\ (length l <= 2)%nat /\ (r_phase r < r_step r -> r_phase r' < r_step r)%N.
  Proof.
    intros r x St. unfold res_execute. destruct (res_outputs kOutputArraySize (res_push P (r_filter r) x) (r_phase r) (r_step r)) as [[phase l]|] eqn:E.
    - destruct (outputs_are _ _ _ _ _ _ E) as (A & B & C). eexists _, l. split; [reflexivity|]. cbn [r_step r_phase]. split; [reflexivity|]. split; [exact A|]. split; [exact C|]. destruct B as [->|B]; cbn [length] in *; lia.
    - exfalso. unfold kOutputArraySize in E. cbn [res_outputs] in E. destruct (r_phase r <? 2 ^ 24) eqn:L1; [|discriminate]. destruct (r_phase r + r_step r <? 2 ^ 24) eqn:L2; [|discriminate].
      destruct (r_phase r + r_step r + r_step r <? 2 ^ 24) eqn:L3; [|discriminate]. apply N.ltb_lt in L3. lia.
  Qed.

  Lemma into_fits : forall chunk (r : Resampler P) i n, (12558340 <= r_step r)%N -> (r_phase r < r_step r)%N -> (N.of_nat (length chunk) + n <= 8192)%N ->
    (i * r_step r < r_step r + r_phase r + n * 2 ^ 24)%N -> (i * r_step r <= r_phase r + n * 2 ^ 24)%N ->
    exists r' l, resample_into r i chunk = Ok (r', l) /\ r_step r' = r_step r /\ (r_phase r' < r_step r)%N /\ (length l <= 2 * length chunk)%nat /\ (i + N.of_nat (length l) <= kBufferSize)%N /\
    resample_loop (liquid_of P) (mkObjects r []) chunk = (mkObjects r' [], l).
  Proof.
    induction chunk as [|x chunk IH]; intros r i n St Ph Ln I1 I2; cbn [resample_into resample_loop].
    - exists r, []. split; [reflexivity|]. split; [reflexivity|]. split; [exact Ph|]. split; [cbn; lia|]. split; [|reflexivity]. cbn [length] in *. change kBufferSize with 10945%N. nia.
    - destruct (execute_fits r x ltac:(lia)) as (r1 & l1 & E1 & S1 & A1 & L1 & P1). unfold liquid_of at 1. cbn [lq_resample q_resampler q_demods]. rewrite E1. cbn [bind]. cbn [length] in Ln.
      assert (J2 : ((i + N.of_nat (length l1)) * r_step r1 <= r_phase r1 + (n + 1) * 2 ^ 24)%N) by (rewrite S1; nia).
      assert (J1 : ((i + N.of_nat (length l1)) * r_step r1 < r_step r1 + r_phase r1 + (n + 1) * 2 ^ 24)%N) by (rewrite S1 in *; lia).
      assert (Fit : (i + N.of_nat (length l1) <= kBufferSize)%N).
      { change kBufferSize with 10945%N. specialize (P1 Ph). rewrite S1 in J2. nia. }
      replace (kBufferSize <? i + N.of_nat (length l1))%N with false by (symmetry; apply N.ltb_ge; exact Fit).
      destruct (IH r1 (i + N.of_nat (length l1)) (n + 1) ltac:(lia) ltac:(rewrite S1; exact (P1 Ph)) ltac:(lia) J1 J2)%N as (r2 & l2 & E2 & S2 & P2 & L2 & F2 & R2).
      rewrite E2. cbn [bind]. exists r2, (l1 ++ l2). split; [reflexivity|]. split; [congruence|]. split; [rewrite <- S1; exact P2|]. rewrite app_length. cbn [length]. split; [lia|]. split; [lia|]. rewrite R2. reflexivity.
  Qed.

  Lemma chunks_fit : forall chunks (r : Resampler P), (12558340 <= r_step r)%N -> (r_phase r < r_step r)%N -> Forall (fun c => (length c <= N.to_nat 8192)%nat) chunks ->
    exists r' outs, resample_chunks r chunks = Ok (r', outs) /\ Forall (fun out => (length out <= N.to_nat 10945)%nat) outs.
  Proof.
    induction chunks as [|c chunks IH]; intros r St Ph F; cbn [resample_chunks]; [eexists _, _; split; [reflexivity|apply Forall_nil]|].
    apply Forall_cons_iff in F. destruct F as [Fc F]. destruct (into_fits c r 0 0 St Ph ltac:(lia) ltac:(lia) ltac:(lia)) as (r1 & l1 & E1 & S1 & P1 & _ & Fit & _). rewrite E1. cbn [bind].
    destruct (IH r1 ltac:(lia) ltac:(lia) F) as (r2 & l2 & E2 & F2). rewrite E2. cbn [bind]. eexists _, _. split; [reflexivity|]. apply Forall_cons; [|exact F2]. change kBufferSize with 10945%N in Fit. lia.
  Qed.
  (* How far a chunk takes the phase *)
  Lemma into_pace : forall chunk (r : Resampler P) i r' l, resample_into r i chunk = Ok (r', l) ->
    (r_phase r' + N.of_nat (length chunk) * 2 ^ 24 = r_phase r + N.of_nat (length l) * r_step r)%N.
  Proof.
    induction chunk as [|x chunk IH]; intros r i r' l E; cbn [resample_into] in E.
    - injection E as <- <-. cbn [length]. lia.
    - unfold res_execute in E. destruct (res_outputs kOutputArraySize _ (r_phase r) (r_step r)) as [[p l1]|] eqn:E1; cbn [bind] in E; [|discriminate]. destruct (outputs_are _ _ _ _ _ _ E1) as (A & _ & _).
      cbv zeta in E. destruct (kBufferSize <? i + N.of_nat (length l1))%N; [discriminate|]. destruct (resample_into _ (i + N.of_nat (length l1)) chunk) as [[r2 l2]| |] eqn:E2; cbn [bind] in E; try discriminate. injection E as <- <-.
      specialize (IH _ _ _ _ E2). cbn [r_phase r_step] in IH. rewrite app_length, Nat2N.inj_add, N.mul_add_distr_r. cbn [length]. lia.
  Qed.
  Lemma filled : forall chunk, length chunk = N.to_nat 8192 ->
    exists r out, resample_chunks (q_resampler (Objects_new P (f32_of_Z 128000))) [chunk] = Ok (r, [out]) /\ length out = N.to_nat 10944.
  Proof.
    intros chunk L. cbn [resample_chunks Objects_new q_resampler]. pose proof (rate_step 128000 ltac:(lia)) as St.
    assert (Sv : step_of (f32_div f32_target_rate (f32_of_Z 128000)) = 12558384%N) by (vm_compute; reflexivity). rewrite Sv in *.
    destruct (into_fits chunk (mkResampler (res_new P) 0 12558384) 0 0) as (r1 & l1 & E1 & S1 & P1 & _); [cbn [r_step]; lia|cbn [r_step r_phase]; lia|lia|cbn [r_step r_phase]; lia|cbn [r_step r_phase]; lia|].
    rewrite E1. cbn [bind]. eexists _, _. split; [reflexivity|]. pose proof (into_pace _ _ _ _ _ E1) as Q. cbn [r_step r_phase] in Q, P1. rewrite L in Q. lia.
  Qed.
End Buffers.
