(* C101 to C104: the demodulator down to the objects of liquid-dsp.  What those objects compute is
   unknown here: the theorems hold for all of them (Parts). *)
From Verif.Model Require Import Base Util Float Dsp Input Main Subcarrier.
From Verif.Spec Require Import Program Subcarriers.
From Verif.Proofs Require Import Tac RateP MainP SubcarriersP PacedP PhaseP GridP.
Local Open Scope list_scope.

(* Simple parts for the examples.  The oscillator turns by 2 at each step; the filter keeps the
   last sample; every value the synchroniser is given is a symbol; the resampler repeats its last
   input. *)
Definition simple : Parts :=
  mkParts N spec_float unit unit unit spec_float
    0 (fun n => (n + 1) mod 4) (fun n => f32_of_Z (2 * Z.of_N n)) (fun n _ => n) (fun _ => 0)
    (S754_zero false) (fun _ y => fst y) (fun y => (y, S754_zero false))
    tt (fun _ y => (tt, y))
    tt (fun _ y => (tt, [y])) (fun _ => tt)
    tt (fun _ _ => tt) (fun _ => S754_zero false)
    (S754_zero false) (fun _ x => x) (fun x _ => x)
    (fun p => (p, S754_zero false)) (fun a _ => a).
Local Notation rate171 := (f32_of_Z 171000).
(* A value for each turn of the synchroniser *)
Definition wave (l : list Z) : list spec_float := flat_map (fun z => repeat (f32_of_Z z) 24) l.

(* C101.  Whatever is received on one data stream does not depend on how many others are received
   beside it. *)
Theorem C101_streams_separate : forall P rate events i k k',
  SubcarrierSet_create rate = Ok tt -> (i < k <= 4)%nat -> (i < k' <= 4)%nat ->
  exists bits bits', bits_received P k rate events = Ok bits /\ bits_received P k' rate events = Ok bits' /\
  length bits = k /\ length bits' = k' /\ nth i bits [] = nth i bits' [].
Proof.
  intros P rate events i k k' A K K'. unfold bits_received, demodulate.
  assert (Q : exists s, SubcarrierSet_new (liquid_of P) rate = Ok s /\ agree P (N.of_nat i) s s).
  { unfold SubcarrierSet_new. destruct (SubcarrierSet_create rate); try discriminate A. eexists. split; [reflexivity|]. apply new_agrees. lia. }
  destruct Q as (s & Q & G). rewrite Q. cbn [bind]. pose proof (ss_new _ _ _ Q) as H.
  destruct (receive_ok P k (proj2 K) (at_most_two P) events s H) as (s1 & b1 & E1 & L1).
  destruct (receive_ok P k' (proj2 K') (at_most_two P) events s H) as (s2 & b2 & E2 & L2).
  exists b1, b2. rewrite E1, E2. split; [reflexivity|]. split; [reflexivity|]. split; [exact L1|]. split; [exact L2|].
  apply (events_agree P i k k' events (proj1 K) (proj1 K') (proj2 K) (proj2 K') s s s1 s2 b1 b2); [exact G|exact E1|exact E2].
Qed.
Print Assumptions C101_streams_separate.

Definition some_events : list event := [Chunk (wave [1; -1; 1]%Z); Anew; Chunk (wave [1; -1; -1; 1; -1]%Z)].
Example C101_case : exists rest, bits_received simple 2 rate171 some_events = Ok [true :: rest; true :: rest] /\ bits_received simple 1 rate171 some_events = Ok [true :: rest].
Proof. eexists. split; [vm_compute; reflexivity|vm_compute; reflexivity]. Qed.

(* A reset demodulator is not like a new one: the decoders of the symbols keep what they know. *)
Theorem C101_reset_like_new_refuted : exists P rate before after earlier bits bits',
  bits_received P 1 rate [Chunk before; Anew] = Ok [earlier] /\
  bits_received P 1 rate [Chunk before; Anew; Chunk after] = Ok [earlier ++ bits] /\
  bits_received P 1 rate [Chunk after] = Ok [bits'] /\ bits <> bits'.
Proof.
  exists simple, rate171, (wave [1; 1]%Z), (wave [1; -1]%Z).
  exists [true], [false], [true]. split; [vm_compute; reflexivity|]. split; [vm_compute; reflexivity|]. split; [vm_compute; reflexivity|]. discriminate.
Qed.
Print Assumptions C101_reset_like_new_refuted.

(* C102.  The phases of the four oscillators stay between -pi and pi, however long the demodulator
   runs, whatever it receives and however often it is reset. *)
Theorem C102_phases_within_half_a_turn : forall P k rate events s bits,
  turning P -> (k <= 4)%nat -> demodulate P k rate events = Ok (s, bits) ->
  length (q_demods (ss_liquid s)) = 4%nat /\
  Forall (fun d => length (o_phases (d_nco d)) = 4%nat /\ Forall (fun phase => lies_between (f32_opp f32_pi) phase f32_pi) (o_phases (d_nco d))) (q_demods (ss_liquid s)).
Proof.
  intros P k rate events s bits T K E. unfold demodulate in E. destruct (SubcarrierSet_new (liquid_of P) rate) as [s0| |] eqn:E0; cbn [bind] in E; try discriminate.
  assert (C0 : calm_demods P (ss_liquid s0)).
  { unfold SubcarrierSet_new in E0. destruct (SubcarrierSet_create rate); cbn [bind] in E0; try discriminate. injection E0 as <-. apply new_calm. }
  destruct (events_calm P T k events s0 s bits K C0 E) as [L F]. split; [exact L|]. eapply Forall_impl; [|exact F]. cbv beta. intros d (Ln & Fs & _). split; [exact Ln|].
  eapply Forall_impl; [|exact Fs]. cbv beta. intros p Sp. apply small_between. exact Sp.
Qed.
Print Assumptions C102_phases_within_half_a_turn.
(* So the sample is never mixed with a phase that is not there. *)
Theorem C102_mixing_is_safe : forall P k rate events s bits,
  turning P -> (k <= 4)%nat -> demodulate P k rate events = Ok (s, bits) ->
  forall d n x, In d (q_demods (ss_liquid s)) -> (n < 4)%N -> exists y, mixDown (d_nco d) x n = Ok y.
Proof.
  intros P k rate events s bits T K E d n x I L. destruct (C102_phases_within_half_a_turn P k rate events s bits T K E) as [_ F]. rewrite Forall_forall in F. destruct (F d I) as [Ln _].
  unfold mixDown, arr_get. destruct (nth_error (o_phases (d_nco d)) (N.to_nat n)) as [p|] eqn:Q; [eexists; reflexivity|]. apply nth_error_None in Q. lia.
Qed.
Print Assumptions C102_mixing_is_safe.
Example C102_case_turning : turning {| NcoT := N; FirT := FirT simple; AgcT := AgcT simple; SyncT := SyncT simple; ModemT := ModemT simple; ResT := ResT simple;
  nco_new := 0; nco_step := fun n => n + 1; nco_phase := fun n => f32_of_Z (2 * (Z.of_N (n mod 4))); nco_pll := fun n _ => n; nco_reset := fun _ => 0;
  fir_new := fir_new simple; fir_push := fir_push simple; fir_execute := fir_execute simple; agc_new := agc_new simple; agc_execute := agc_execute simple;
  sync_new := sync_new simple; sync_execute := sync_execute simple; sync_reset := sync_reset simple; modem_new := modem_new simple; modem_demodulate := modem_demodulate simple;
  modem_phase_error := modem_phase_error simple; res_new := res_new simple; res_push := res_push simple; res_output := res_output simple; c_polar := c_polar simple; c_mul := c_mul simple |}.
Proof.
  intros n. cbn [nco_phase]. assert (B : n mod 4 = 0 \/ n mod 4 = 1 \/ n mod 4 = 2 \/ n mod 4 = 3) by lia.
  destruct B as [->|[->|[->| ->]]]; (split; [reflexivity|]; do 3 eexists; split; [vm_compute; reflexivity|]; split; [vm_compute; reflexivity|]; split; [vm_compute; reflexivity|]; split; discriminate).
Qed.
(* The oscillators do turn: after a step of 2 the one for the first data stream stands at 2, the last
   at 2 * 76 / 57 = 2.67; after another it is at 5.33 - 2 pi = -0.95. *)
Example C102_case : let o := Nco_step (Nco_new simple) in let o' := Nco_step o in
  nth_error (o_phases o) 0 = Some (f32_of_Z 2) /\
  (forall p, nth_error (o_phases o) 3 = Some p -> lies_between (f32_div (f32_of_Z 266) (f32_of_Z 100)) p (f32_div (f32_of_Z 267) (f32_of_Z 100))) /\
  (forall p, nth_error (o_phases o') 3 = Some p -> lies_between (f32_div (f32_of_Z (-96)) (f32_of_Z 100)) p (f32_div (f32_of_Z (-94)) (f32_of_Z 100))).
Proof.
  cbv zeta. split; [vm_compute; reflexivity|]. split; intros p E; vm_compute in E; injection E as <-; do 3 eexists; (split; [vm_compute; reflexivity|]; split; [vm_compute; reflexivity|]; split; [vm_compute; reflexivity|]; split; discriminate).
Qed.

(* C103.  The resampler never writes behind the end of its arrays: the two elements for the outputs
   of one sample, and the buffer for those of a chunk of up to 8192 samples. *)
Theorem C103_resampled_samples_fit : forall P rate chunks, (128000 <= rate <= 40000000)%Z -> SubcarrierSet_create (f32_of_Z rate) = Ok tt ->
  Forall (fun c => (length c <= N.to_nat 8192)%nat) chunks ->
  exists r outs, resample_chunks (q_resampler (Objects_new P (f32_of_Z rate))) chunks = Ok (r, outs) /\
    Forall (fun out => (length out <= N.to_nat 10945)%nat) outs.
Proof.
  intros P rate chunks R A F. apply supported_rate in A; [|exact R]. pose proof (rate_step rate ltac:(lia)) as St.
  apply chunks_fit; [exact St| |exact F]. cbn [Objects_new q_resampler r_phase r_step]. lia.
Qed.
Print Assumptions C103_resampled_samples_fit.
(* The room is needed: at the lowest sample rate a full chunk leaves one element free. *)
Theorem C103_buffer_nearly_full : forall P chunk, length chunk = N.to_nat 8192 ->
  exists r out, resample_chunks (q_resampler (Objects_new P (f32_of_Z 128000))) [chunk] = Ok (r, [out]) /\ length out = N.to_nat 10944.
Proof. intros P. exact (@filled P). Qed.
Print Assumptions C103_buffer_nearly_full.
(* The demodulator meets what is required of it where the whole program is considered. *)
Theorem C103_program : forall P se, (forall name n rate, snd_file se name = Opened n rate -> 1 <= n <= 1024) -> audio_ok se (liquid_of P).
Proof. intros P se H. split; [exact H|]. apply at_most_two. Qed.
Print Assumptions C103_program.
Example C103_case :
  match resample_chunks (q_resampler (Objects_new simple (f32_of_Z 128000))) [map f32_of_Z [1; 2; 3; 4]%Z; map f32_of_Z [5]%Z] with
  | Ok (_, outs) => outs = [map f32_of_Z [1; 1; 2; 3; 3; 4]%Z; map f32_of_Z [5]%Z]
  | _ => False
  end.
Proof. vm_compute. reflexivity. Qed.

(* C104.  The symbol synchroniser is given a value at every 24th sample, however the samples are cut
   into chunks, for the first 2^32 samples. *)
Theorem C104_even_grid : forall (D : Type) (lq : Liquid D) rate k events s0 s bits,
  (0 < k)%nat -> ~ In Anew events -> SubcarrierSet_new (recording lq) rate = Ok s0 -> receive (recording lq) k s0 events = Ok (s, bits) ->
  (N.of_nat (length (taken s)) <= 2 ^ 32) -> taken s = every_24th (length (taken s)).
Proof.
  intros D lq rate k events s0 s bits K F E0 E L. destruct k as [|k]; [lia|]. unfold SubcarrierSet_new in E0. destruct (SubcarrierSet_create rate); cbn [bind] in E0; try discriminate.
  assert (Q : counted 0 s0 /\ taken s0 = []) by (injection E0 as <-; split; reflexivity). destruct Q as [C0 T0].
  destruct (events_record lq k events 0 s0 s bits C0 F E) as (n & T & _). rewrite T0 in T. cbn [app] in T.
  assert (Ln : length (taken s) = n) by (rewrite T; unfold flags; rewrite map_length, seq_length; reflexivity). rewrite Ln in L |- *. rewrite T. apply flags_even. exact L.
Qed.
Print Assumptions C104_even_grid.
(* After a reset the grid begins anew. *)
Theorem C104_even_after_reset : forall (D : Type) (lq : Liquid D) k events s0 s bits,
  (0 < k)%nat -> ~ In Anew events -> receive (recording lq) k s0 (Anew :: events) = Ok (s, bits) ->
  exists n, length (taken s) = (length (taken s0) + n)%nat /\ (N.of_nat n <= 2 ^ 32 -> taken s = taken s0 ++ every_24th n).
Proof.
  intros D lq k events s0 s bits K F E. destruct k as [|k]; [lia|]. cbn [receive] in E.
  destruct (events_record lq k events 0 (ss_reset (recording lq) s0) s bits eq_refl F E) as (n & T & _). change (taken (ss_reset (recording lq) s0)) with (taken s0) in T. exists n. rewrite T. split.
  - rewrite app_length. unfold flags. rewrite map_length, seq_length. reflexivity.
  - intros L. rewrite (flags_even n L). reflexivity.
Qed.
Print Assumptions C104_even_after_reset.
(* (Writing down when values are taken changes nothing else.) *)
Theorem C104_recording_same : forall (D : Type) (lq : Liquid D) rate k events s0 s bits,
  SubcarrierSet_new (recording lq) rate = Ok s0 -> receive (recording lq) k s0 events = Ok (s, bits) ->
  exists t0 t, SubcarrierSet_new lq rate = Ok t0 /\ receive lq k t0 events = Ok (t, bits).
Proof.
  intros D lq rate k events s0 s bits E0 E. apply receive_plain in E. exists (plainly s0), (plainly s). split; [|exact E].
  unfold SubcarrierSet_new in *. destruct (SubcarrierSet_create rate); cbn [bind] in *; try discriminate. injection E0 as <-. reflexivity.
Qed.
Print Assumptions C104_recording_same.
(* The 2^32nd sample after the first is taken too, only 16 after the one before it (after 7 hours). *)
Lemma seven_hours : forall (l : list spec_float) (i : nat), (i < length l)%nat -> N.of_nat i = 2 ^ 32 -> exists events s bits,
  ~ In Anew events /\ (s0 <- SubcarrierSet_new (recording (liquid_of simple)) rate171 ;; receive (recording (liquid_of simple)) 1 s0 events) = Ok (s, bits) /\
  taken s <> every_24th (length (taken s)).
Proof.
  intros l i Len I. remember (recording (liquid_of simple)) as rq eqn:RQ.
  assert (Q : exists s0, SubcarrierSet_new rq rate171 = Ok s0 /\ SFeqb (ss_ratio s0) (f32_of_Z 1) = true /\ taken s0 = [] /\ ss_sample_num s0 = 0).
  { subst rq. eexists. split; [reflexivity|]. split; [vm_compute; reflexivity|]. split; reflexivity. }
  destruct Q as (s0 & Q & R & T0 & N0). pose proof (ss_new _ _ _ Q) as H.
  assert (Er : exists s bits, receive rq 1 s0 [Chunk l] = Ok (s, bits)) by (subst rq; apply recorded_ok; exact H).
  destruct Er as (s & bits & E). exists [Chunk l], s, bits. split; [intros [X|[]]; discriminate X|]. rewrite Q. cbn [bind]. split; [exact E|].
  subst rq. destruct (events_record (liquid_of simple) 0 [Chunk l] 0 s0 s bits N0 ltac:(intros [X|[]]; discriminate X) E) as (n & T & Ln). specialize (Ln R). cbn [map concat] in Ln. rewrite app_nil_r in Ln.
  rewrite T0 in T. cbn [app] in T. assert (Lt : length (taken s) = n) by (rewrite T; unfold flags; rewrite map_length, seq_length; reflexivity). rewrite Lt, T.
  apply (flags_odd n i); [rewrite Ln; exact Len|exact I].
Qed.
Theorem C104_seven_hours_refuted : exists events s bits,
  ~ In Anew events /\ (s0 <- SubcarrierSet_new (recording (liquid_of simple)) rate171 ;; receive (recording (liquid_of simple)) 1 s0 events) = Ok (s, bits) /\
  taken s <> every_24th (length (taken s)).
Proof.
  assert (Q : forall n i : nat, (i < n)%nat -> (i < length (repeat (S754_zero false) n))%nat) by (intros n i L; rewrite repeat_length; exact L).
  exact (seven_hours _ (N.to_nat (2 ^ 32)) (Q (S (N.to_nat (2 ^ 32))) _ (Nat.lt_succ_diag_r _)) (N2Nat.id _)).
Qed.
Print Assumptions C104_seven_hours_refuted.
Example C104_case :
  match (s0 <- SubcarrierSet_new (recording (liquid_of simple)) rate171 ;; receive (recording (liquid_of simple)) 1 s0 [Chunk (wave [1]%Z); Chunk (map f32_of_Z [1; 2]%Z)]) with
  | Ok (s, _) => taken s = true :: repeat false 23 ++ [true; false]
  | _ => False
  end.
Proof. vm_compute. reflexivity. Qed.
