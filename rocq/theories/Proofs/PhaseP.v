(* The phases the signal is mixed with stay within half a turn. *)
From Verif.Model Require Import Base Util Float Dsp Input Main Subcarrier.
From Verif.Spec Require Import Subcarriers.
From Verif.Proofs Require Import Tac RateP FloatB MainP DspP DemodP SubcarriersP.
Local Open Scope list_scope.

Section Angles.
  Local Open Scope Z_scope.
  Definition PI : Z := V 13176795 (-22).
  Lemma pi_pos : 0 < PI.
  Proof. unfold PI, V. pose proof (pow_pos (-22 + 1000) ltac:(lia)). lia. Qed.
  Lemma S_pi : S f32_pi = PI.
  Proof. reflexivity. Qed.
  Lemma S_2pi : S f32_2pi = 2 * PI.
  Proof. change (S f32_2pi) with (V 13176795 (-21)). unfold PI, V. change (-21 + 1000) with (-22 + 1000 + 1). rewrite Z.pow_add_r by lia. lia. Qed.
  Lemma good_pi : good f32_pi /\ good f32_2pi.
  Proof. split; reflexivity. Qed.
  Lemma pi_ok : bound_ok 13176795 (-22).
  Proof. split; lia. Qed.

  (* 9 is less than 3 pi *)
  Lemma nine : V 9 0 < 3 * PI.
  Proof. unfold PI, V. change (0 + 1000) with (978 + 22). change (-22 + 1000) with 978. rewrite (Z.pow_add_r 2 978 22) by lia. change (2 ^ 22) with 4194304. pose proof (pow_pos 978 ltac:(lia)). lia. Qed.
  Lemma eight : PI + V 5 0 < V 9 0 /\ 2 * PI < V 9 0.
  Proof. unfold PI, V. change (0 + 1000) with (978 + 22). change (-22 + 1000) with 978. rewrite (Z.pow_add_r 2 978 22) by lia. change (2 ^ 22) with 4194304. pose proof (pow_pos 978 ltac:(lia)). lia. Qed.

  Lemma unwrap_small : forall x, good x -> Z.abs (S x) <= V 9 0 -> good (unwrap x) /\ Z.abs (S (unwrap x)) <= PI.
  Proof.
    intros x G A. pose proof nine as N9. pose proof pi_pos as Pp. destruct good_pi as [G1 G2]. unfold unwrap, f32_opp.
    rewrite (ltb_is f32_pi x G1 G), S_pi. destruct (PI <? S x) eqn:L1.
    - apply Z.ltb_lt in L1. destruct (sub_le x f32_2pi 13176795 (-22) G G2 pi_ok) as (Gr & Ar & _); [rewrite S_2pi; fold PI; lia|]. split; [exact Gr|exact Ar].
    - apply Z.ltb_ge in L1. rewrite (ltb_is x (SFopp f32_pi) G (proj2 (opp_good f32_pi) G1)), opp_S, S_pi. destruct (S x <? - PI) eqn:L2.
      + apply Z.ltb_lt in L2. destruct (add_le x f32_2pi 13176795 (-22) G G2 pi_ok) as (Gr & Ar & _); [rewrite S_2pi; fold PI; lia|]. split; [exact Gr|exact Ar].
      + apply Z.ltb_ge in L2. split; [exact G|]. lia.
  Qed.

  Definition small_phase (x : spec_float) : Prop := good x /\ Z.abs (S x) <= PI.
  Definition whole_phase (x : spec_float) : Prop := good x /\ 0 <= S x <= 2 * PI.

  Lemma advance : forall p delta f, small_phase p -> small_phase delta -> In f subcarrier_frequencies ->
    small_phase (unwrap (f32_add p (f32_div (f32_mul delta f) (f32_of_Z 57000)))).
  Proof.
    intros p delta f [Gp Ap] [Gd Ad] F. pose proof pi_pos as Pp. pose proof eight as [E1 E2].
    assert (F2 : good f /\ full f /\ S f = Z.abs (S f) /\ S f <= V 76000 0).
    { unfold subcarrier_frequencies in F. cbn [map In] in F. destruct F as [<-|[<-|[<-|[<-|[]]]]]; (split; [reflexivity|]; split; [vm_compute; discriminate|]; split; [vm_compute; reflexivity|]; vm_compute; discriminate). }
    destruct F2 as (Gf & Ff & Sf & Lf). pose proof (pow_pos 978 ltac:(lia)) as P978. pose proof (pow_pos 1000 ltac:(lia)) as P1000.
    destruct (mul_le delta f 1 18 Gd Gf Ff ltac:(split; lia)) as (Gm & Am).
    { rewrite <- Sf. transitivity (PI * V 76000 0).
      - apply Z.mul_le_mono_nonneg; lia.
      - unfold PI, V. change (0 + 1000) with 1000. change (-22 + 1000) with 978. change (18 + 1000) with (978 + 40). rewrite (Z.pow_add_r 2 978 40) by lia. change (2 ^ 40) with 1099511627776.
        remember (2 ^ 978) as u eqn:U. remember (2 ^ 1000) as v eqn:W. clear U W. assert (0 <= u * v) by nia. lia. }
    remember (f32_mul delta f) as m eqn:M. clear M.
    remember (f32_of_Z 57000) as c eqn:C. assert (Gc : good c) by (subst c; reflexivity). assert (Sc : S c = V 57000 0) by (subst c; reflexivity). clear C.
    assert (P57 : 0 < V 57000 0) by (unfold V; change (0 + 1000) with 1000; lia).
    destruct (div_le m c 5 0 Gm Gc ltac:(lia) ltac:(split; lia)) as (Gq & Aq & _).
    { rewrite Sc, (Z.abs_eq (V 57000 0)) by lia. transitivity (V 1 18 * 2 ^ 1000).
      - apply Z.mul_le_mono_nonneg_r; lia.
      - unfold V. change (0 + 1000) with 1000. change (18 + 1000) with (1000 + 18). rewrite (Z.pow_add_r 2 1000 18) by lia. change (2 ^ 18) with 262144.
        remember (2 ^ 1000) as v eqn:W. clear W. assert (0 <= v * v) by nia. lia. }
    remember (f32_div m c) as q eqn:Q. clear Q.
    destruct (add_le p q 9 0 Gp Gq ltac:(split; lia)) as (Ga & Aa & _); [lia|]. exact (unwrap_small _ Ga Aa).
  Qed.

  Lemma delta_small : forall a b, whole_phase a -> whole_phase b -> small_phase (unwrap (f32_sub a b)).
  Proof.
    intros a b [Ga Aa] [Gb Ab]. pose proof eight as [E1 E2]. destruct (sub_le a b 9 0 Ga Gb ltac:(split; lia)) as (Gr & Ar & _); [lia|]. exact (unwrap_small _ Gr Ar).
  Qed.

  (* Statements of the specification *)
  Lemma scaled_S : forall f x, good f -> scaled f = Some x <-> S f = x * 2 ^ 800.
  Proof.
    intros [s|s| |s m e] x G; try contradiction G.
    - change (S (S754_zero s)) with 0. cbn [scaled]. pose proof (pow_pos 800 ltac:(lia)) as P8. split; [intros E; injection E as <-; reflexivity|intros E; f_equal; symmetry in E; apply Z.mul_eq_0 in E; destruct E as [E|E]; [symmetry; exact E|rewrite E in P8; exfalso; exact (Z.lt_irrefl _ P8)]].
    - pose proof (good_e _ _ _ G) as Ge. cbn [scaled]. unfold S, V. replace (e + 1000) with (e + 200 + 800) by lia. rewrite (Z.pow_add_r 2 (e + 200) 800) by lia. pose proof (pow_pos 800 ltac:(lia)) as P8. remember (2 ^ 800) as u eqn:U. remember (2 ^ (e + 200)) as v eqn:W. clear U W G Ge. split.
      + intros X. assert (x = if s then - (Z.pos m * v) else Z.pos m * v) as -> by congruence. destruct s; ring.
      + intros X. f_equal. apply (Z.mul_reg_r _ _ u); [lia|]. rewrite <- X. destruct s; ring.
  Qed.
  Lemma scaled_some : forall f, good f -> exists x, scaled f = Some x.
  Proof. intros [s|s| |s m e] G; try contradiction G; eexists; reflexivity. Qed.
  Lemma between_S : forall a f b, good a -> good f -> good b -> lies_between a f b <-> S a <= S f <= S b.
  Proof.
    intros a f b Ga Gf Gb. destruct (scaled_some a Ga) as (x & X). destruct (scaled_some f Gf) as (y & Y). destruct (scaled_some b Gb) as (z & Z).
    pose proof (proj1 (scaled_S a x Ga) X) as X'. pose proof (proj1 (scaled_S f y Gf) Y) as Y'. pose proof (proj1 (scaled_S b z Gb) Z) as Z'. pose proof (pow_pos 800 ltac:(lia)) as P8.
    unfold lies_between. rewrite X, Y, Z, X', Y', Z'. remember (2 ^ 800) as u eqn:U. clear - P8. split.
    - intros (x0 & y0 & z0 & E1 & E2 & E3 & L). injection E1 as <-. injection E2 as <-. injection E3 as <-. nia.
    - intros L. exists x, y, z. repeat split; nia.
  Qed.
  Lemma between_number : forall a f b, lies_between a f b -> valid_binary 24 128 f = true -> good f.
  Proof. intros a f b (x & y & z & _ & Y & _) W. destruct f as [s|s| |s m e]; try discriminate Y; [exact I|exact W]. Qed.
  Lemma small_between : forall p, small_phase p -> lies_between (f32_opp f32_pi) p f32_pi.
  Proof.
    intros p [G A]. destruct good_pi as [G1 _]. apply between_S; [exact (proj2 (opp_good f32_pi) G1)|exact G|exact G1|]. unfold f32_opp. rewrite opp_S, S_pi. lia.
  Qed.
End Angles.

Section Phases.
  Variable P : Parts.
  Hypothesis TURNING : turning P.
  Let lq := liquid_of P.

  Definition calm (o : Nco P) : Prop := length (o_phases o) = 4%nat /\ Forall small_phase (o_phases o) /\ whole_phase (o_prev_f0_phase o).

  Lemma object_phase : forall o, whole_phase (nco_phase P o).
  Proof.
    intros o. destruct (TURNING o) as [W B]. pose proof (between_number _ _ _ B W) as G. split; [exact G|].
    apply (between_S (S754_zero false) _ f32_2pi I G (proj2 good_pi)) in B. rewrite S_2pi in B. exact B.
  Qed.
  Lemma zero_calm : calm (Nco_new P).
  Proof.
    pose proof pi_pos. split; [reflexivity|]. assert (Z : small_phase (S754_zero false)) by (split; [exact I|change (S (S754_zero false)) with 0%Z; lia]).
    split; [cbn [Nco_new o_phases]; repeat (apply Forall_cons; [exact Z|]); apply Forall_nil|]. split; [exact I|]. cbn [Nco_new o_prev_f0_phase]. change (S (S754_zero false)) with 0%Z. lia.
  Qed.
  Lemma step_calm : forall o, calm o -> calm (Nco_step o).
  Proof.
    intros o (L & F & W). unfold Nco_step. cbv zeta. pose proof (object_phase (nco_step P (o_object o))) as Wn. pose proof (delta_small _ _ Wn W) as Sd. split; [|split; [|exact Wn]]; cbn [o_phases].
    - rewrite map_length, combine_length, L. reflexivity.
    - apply Forall_forall. intros y H. apply in_map_iff in H. destruct H as ([p f] & <- & H). cbn [fst snd]. rewrite Forall_forall in F.
      apply advance; [exact (F p (in_combine_l _ _ _ _ H))|exact Sd|exact (in_combine_r _ _ _ _ H)].
  Qed.
  Lemma pll_calm : forall o x, calm o -> calm (stepPLL o x).
  Proof. intros o x H. exact H. Qed.
  Lemma reset_calm : forall o, calm o -> calm (Nco_reset o).
  Proof. intros o H. exact H. Qed.

  Definition calm_demods (q : Objects P) : Prop := length (q_demods q) = 4%nat /\ Forall (fun d => calm (d_nco d)) (q_demods q).

  Lemma demod_calm : forall d n x turn, calm (d_nco d) -> n < 4 -> exists d' y, demod_sample d n x turn = Ok (d', y) /\ calm (d_nco d').
  Proof.
    intros d n x turn C N. unfold demod_sample, mixDown, arr_get. pose proof C as (L & _). destruct (nth_error (o_phases (d_nco d)) (N.to_nat n)) as [p|] eqn:E; [|apply nth_error_None in E; lia].
    cbn [bind]. cbv zeta. destruct turn.
    - destruct (agc_execute P (d_agc d) _) as [agc lo]. destruct (sync_execute P (d_sync d) lo) as [sync out]. destruct out as [|y [|y' out]]; eexists _, _; (split; [reflexivity|]); cbn [d_nco]; apply step_calm; try apply pll_calm; exact C.
    - eexists _, _. split; [reflexivity|]. cbn [d_nco]. apply step_calm. exact C.
  Qed.

  Lemma sample_calm : forall turn x streams s s' bits, Forall (fun st => st < 4) streams -> calm_demods (ss_liquid s) -> sample_streams lq turn x streams s = Ok (s', bits) -> calm_demods (ss_liquid s').
  Proof.
    intros turn x. induction streams as [|st streams IH]; intros s s' bits F C E; cbn [sample_streams] in E; [injection E as <- _; exact C|].
    apply Forall_cons_iff in F. destruct F as [H4 F]. destruct (lq_sample lq (ss_liquid s) st x turn) as [q y] eqn:Eq.
    assert (Cq : calm_demods q).
    { unfold lq, liquid_of in Eq. cbn [lq_sample] in Eq. unfold arr_get in Eq. destruct C as [L Fd]. destruct (nth_error (q_demods (ss_liquid s)) (N.to_nat st)) as [d|] eqn:Ed; [|apply nth_error_None in Ed; lia].
      cbn [bind] in Eq. rewrite Forall_forall in Fd. destruct (demod_calm d st x turn (Fd d (nth_error_In _ _ Ed)) H4) as (d' & y' & Ed' & Cd). rewrite Ed' in Eq. injection Eq as <- _. split; cbn [q_demods].
      - rewrite list_set_len. exact L.
      - apply Forall_set; [apply Forall_forall; exact Fd|exact Cd]. }
    destruct (match (if turn then y else None) with Some _ => _ | None => _ end) as [[decs b]| |]; cbn [bind] in E; try discriminate.
    destruct (sample_streams lq turn x streams _) as [[s2 out]| |] eqn:Es; cbn [bind] in E; try discriminate. injection E as -> _. refine (IH _ _ _ F _ Es); exact Cq.
  Qed.

  Lemma samples_calm : forall streams, Forall (fun st => st < 4) streams -> forall samples s s' bits, calm_demods (ss_liquid s) -> process_samples lq streams samples s = Ok (s', bits) -> calm_demods (ss_liquid s').
  Proof.
    intros streams F. induction samples as [|x samples IH]; intros s s' bits C E; cbn [process_samples] in E; [injection E as <- _; exact C|].
    destruct (sample_streams lq _ x streams s) as [[s1 b1]| |] eqn:E1; cbn [bind] in E; try discriminate. cbv zeta in E. pose proof (sample_calm _ _ _ _ _ _ F C E1) as C1.
    destruct (process_samples lq streams samples _) as [[s2 b2]| |] eqn:E2; cbn [bind] in E; try discriminate. injection E as -> _. refine (IH _ _ _ _ E2); exact C1.
  Qed.

  Lemma loop_demods : forall c q, q_demods (fst (resample_loop lq q c)) = q_demods q.
  Proof.
    unfold lq, liquid_of. induction c as [|x c IH]; intros q; cbn [resample_loop lq_resample]; [reflexivity|]. destruct (res_execute (q_resampler q) x) as [[r l]| |].
    - specialize (IH (mkObjects r (q_demods q))). destruct (resample_loop _ (mkObjects r (q_demods q)) c). exact IH.
    - specialize (IH q). destruct (resample_loop _ q c). exact IH.
    - specialize (IH q). destruct (resample_loop _ q c). exact IH.
  Qed.

  Lemma events_calm : forall k events s s' bits, (k <= 4)%nat -> calm_demods (ss_liquid s) -> receive lq k s events = Ok (s', bits) -> calm_demods (ss_liquid s').
  Proof.
    intros k. induction events as [|[samples|] events IH]; intros s s' bits K C E; cbn [receive] in E.
    - injection E as <- _. exact C.
    - unfold processChunk in E. assert (C1 : calm_demods (ss_liquid (fst (resampleChunk lq s samples)))).
      { unfold resampleChunk. destruct (SFeqb _ _); [exact C|]. pose proof (loop_demods samples (ss_liquid s)) as X. destruct (resample_loop lq (ss_liquid s) samples) as [q l]. cbn [fst ss_liquid] in *. unfold calm_demods. rewrite X. exact C. }
      destruct (resampleChunk lq s samples) as [t c]. cbn [fst] in C1. destruct (process_samples lq (streams_to k) c t) as [[t1 b1]| |] eqn:P1; cbn [bind] in E; try discriminate.
      pose proof (samples_calm _ (streams_small k K) _ _ _ _ C1 P1) as C2. destruct (receive lq k t1 events) as [[r1 l1]| |] eqn:R1; cbn [bind] in E; try discriminate. injection E as -> _. exact (IH _ _ _ K C2 R1).
    - apply (IH (ss_reset lq s) s' bits K); [|exact E]. destruct C as [L F]. split; cbn [ss_reset ss_liquid]; unfold lq, liquid_of; cbn [lq_reset q_demods].
      + rewrite map_length. exact L.
      + apply Forall_forall. intros d H. apply in_map_iff in H. destruct H as (d0 & <- & H). rewrite Forall_forall in F. exact (reset_calm _ (F d0 H)).
  Qed.

  Lemma new_calm : forall rate, calm_demods (Objects_new P rate).
  Proof. intros rate. split; [reflexivity|]. cbn [Objects_new q_demods]. repeat (apply Forall_cons; [cbn [Demod_new d_nco]; apply zero_calm|]). apply Forall_nil. Qed.
End Phases.

Lemma receive_ok : forall P k, (k <= 4)%nat -> (forall d x, (length (snd (lq_resample (liquid_of P) d x)) <= 2)%nat) -> forall events s, ss_ok s ->
  exists s' bits, receive (liquid_of P) k s events = Ok (s', bits) /\ length bits = k.
Proof.
  intros P k K R. induction events as [|[samples|] events IH]; intros s H; cbn [receive].
  - exists s, (repeat [] k). split; [reflexivity|apply repeat_length].
  - destruct (chunk_ok (liquid_of P) R (streams_to k) samples s (streams_small k K) H) as (s1 & b1 & E1 & H1 & L1 & _). rewrite E1. cbn [bind].
    destruct (IH s1 H1) as (s2 & b2 & E2 & L2). rewrite E2. cbn [bind]. eexists _, _. split; [reflexivity|].
    unfold streams_to in L1. rewrite map_length, seq_length in L1. rewrite map_length, combine_length. lia.
  - exact (IH (ss_reset (liquid_of P) s) H).
Qed.
Lemma at_most_two : forall P d x, (length (snd (lq_resample (liquid_of P) d x)) <= 2)%nat.
Proof.
  intros P d x. unfold liquid_of. cbn [lq_resample]. unfold res_execute, kOutputArraySize. cbn [res_outputs].
  repeat match goal with |- context [if ?c then _ else _] => destruct c end; cbn [snd length]; lia.
Qed.
Lemma new_agrees : forall P rate i, (i < 4)%nat ->
  let s := mkSubcarrierSet 0 (f32_div f32_target_rate rate) (Objects_new P rate) (repeat (BiphaseDecoder_init, 0%N) 4) in agree P (N.of_nat i) s s.
Proof.
  intros P rate i H. cbv zeta. split; [repeat split; reflexivity|]. exists (Demod_new P), (BiphaseDecoder_init, 0%N).
  destruct i as [|[|[|[|i]]]]; [| | | |lia]; repeat split; reflexivity.
Qed.
Lemma recorded_ok : forall P events s, ss_ok s -> exists s' bits, receive (recording (liquid_of P)) 1 s events = Ok (s', bits).
Proof.
  intros P. assert (R : forall d x, (length (snd (lq_resample (recording (liquid_of P)) d x)) <= 2)%nat).
  { intros [d t] x. pose proof (at_most_two P d x) as H. unfold recording. cbn [lq_resample fst snd]. destruct (lq_resample (liquid_of P) d x). exact H. }
  induction events as [|[samples|] events IH]; intros s H; cbn [receive].
  - eexists _, _. reflexivity.
  - destruct (chunk_ok (recording (liquid_of P)) R (streams_to 1) samples s ltac:(repeat constructor) H) as (s1 & b1 & E1 & H1 & _). rewrite E1. cbn [bind].
    destruct (IH s1 H1) as (s2 & b2 & E2). rewrite E2. cbn [bind]. eexists _, _. reflexivity.
  - exact (IH (ss_reset (recording (liquid_of P)) s) H).
Qed.
