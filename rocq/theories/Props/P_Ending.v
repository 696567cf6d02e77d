(* C97: the end of the input. *)
From Verif.Model Require Import Base Util Float Group BlockSync Options Json Tmc Tables Station Input Channel Dsp Main.
From Verif.Spec Require Import RdsCode RdsStream Reception Inputs Unicode JsonText Session Identity Texts History Host Quality Program Demo OnAir Ending.
From Verif.Proofs Require Import Tac Syndrome HexP HostP UpdateP BlockSyncE BlockSyncG MainP SessionP HistoryP EndingP EndProgP.
From Verif.Props Require Import P_OnAir P_Main P_Channel.
From Verif.Model Require Import Main.

Local Open Scope string_scope.
Local Open Scope N_scope.
Local Open Scope list_scope.

(* --- C97 --- *)
(* When the input ends, the group that has begun on each of the data streams 1 to 3 is decoded like a group that consists
   of just the blocks received so far; nothing is made up for a stream that ends between two groups. *)
Theorem C97_unfinished_groups_decoded : forall env o c0 calls now, created o c0 -> Forall possible calls ->
  exists og1 og2 og3,
    left_over (o_use_fec o) (on_stream 1 (fed calls)) og1 /\ left_over (o_use_fec o) (on_stream 2 (fed calls)) og2 /\ left_over (o_use_fec o) (on_stream 3 (fed calls)) og3 /\
    session env o c0 (calls ++ [Flush now]) = session env o c0 (calls ++ given now 1 og1 ++ given now 2 og2 ++ given now 3 og3).
Proof.
  intros env o c0 calls now Cr Po. set (u := fun w => let g := bst_current_group (state_after (o_use_fec o) (on_stream w (fed calls))) in if g_isEmpty g then None else Some g).
  exists (u 1), (u 2), (u 3). split; [apply left_stream|]. split; [apply left_stream|]. split; [apply left_stream|].
  rewrite !EndingP.session_app. destruct (session env o c0 calls) as [[c l]| |] eqn:E; cbn [bind]; [|reflexivity|reflexivity].
  assert (St : forall w, w < 4 -> stream_state c w = Some (state_after (o_use_fec o) (on_stream w (fed calls)))) by (intros w Hw; exact (C56_streams_isolated env o c0 calls c l w Cr Po E Hw)).
  assert (F : flat_map (fun w => given now w (left_of c w)) [1; 2; 3] = given now 1 (u 1) ++ given now 2 (u 2) ++ given now 3 (u 3)).
  { cbn [flat_map]. unfold left_of. rewrite !St by lia. rewrite app_nil_r. reflexivity. }
  rewrite <- F, <- (flush_as_groups env o now [1; 2; 3] c) by (repeat (constructor; [rewrite St by lia; discriminate|]); constructor).
  cbn [session do_call]. unfold flush. destruct (flush_loop env o now [1; 2; 3] c) as [[c1 o1]| |]; cbn [bind]; [|reflexivity|reflexivity]. rewrite app_nil_r. reflexivity.
Qed.
Print Assumptions C97_unfinished_groups_decoded.

(* The program tells every channel when the audio is at its end. *)
Theorem C97_program_ends_channels : forall (D : Type) (w : World D) ops extra o fuel n rate code out,
  host_ok (w_env w) -> audio_ok (w_snd w) (w_liquid w) -> (length (w_audio w) < fuel)%nat ->
  getOptions (w_numbers w) ops extra = Ok o -> o_early_exit o = false -> o_input_type o = MPX_stdin \/ o_input_type o = MPX_sndfile ->
  mpx_init (w_snd w) o = Opened n rate -> main fuel w ops extra = Ok (Some (code, out)) ->
  forall ch, ch < n -> ended (w_env w) (with_audio o n (f32_of_Z rate)) (w_clock_at_end w) ch (of_channel ch out).
Proof.
  intros D w ops extra o fuel n rate code out H A L G X I Op E ch Hc. unfold main in E. rewrite G in E. fold (first_items o) in E. cbv zeta in E. rewrite X in E.
  assert (K : (done <- processMPXInput fuel (w_env w) (w_snd w) (w_liquid w) o (w_clock w) (w_clock_at_end w) (w_audio w) ;; Ok (match done with Some (c, x) => Some (c, first_items o ++ x) | None => None end)) = Ok (Some (code, out)))
    by (destruct I as [I|I]; rewrite I in E; exact E). clear E.
  destruct (processMPXInput fuel (w_env w) (w_snd w) (w_liquid w) o (w_clock w) (w_clock_at_end w) (w_audio w)) as [[[c x]|]| |] eqn:P; cbn [bind] in K; try discriminate. injection K as <- <-.
  assert (NC : 1 <= o_num_channels o <= 1024) by (pose proof (proj1 (proj1 (options_sane _ _ _ _ G))); lia).
  pose proof (mpx_ends D (w_liquid w) (w_env w) (w_snd w) o (w_clock w) (w_clock_at_end w) (w_audio w) fuel n rate c x H A NC L Op P ch Hc) as T.
  unfold of_channel in *. rewrite flat_map_app. unfold first_items. destruct (o_print_usage o), (o_print_version o); exact T.
Qed.
Print Assumptions C97_program_ends_channels.

(* Four whole groups and three blocks of a fifth, with a wrong bit *)
Definition c97_last : TxGroup := mkTx 0x1234 0x0409 0xE0CD 0x6469.
Definition c97_bits : list bool := tx_bits t0 ++ flat_map rx_bits air0 ++ flat_map block_bits (firstn 3 (rx_words c97_last (0, 8, 0, 0))) ++ [true; false; true].
Lemma c97_within : ends_within true c97_bits c97_last 3.
Proof.
  exists air_pre, air_bit, [tx_block OffD (tx4 t0)], air0, (0, 8, 0, 0), [true; false; true].
  split; [vm_compute; reflexivity|]. split; [lia|]. split; [cbn; lia|]. split; [split; vm_compute; reflexivity|]. split; [repeat constructor; vm_compute; reflexivity|].
  destruct C76_case as (_ & _ & _ & R & _). apply Forall_app in R. destruct R as [R _]. change (o_use_fec Options_default) with true in R. split; [exact R|]. split.
  { split; [repeat split; vm_compute; reflexivity|]. repeat match goal with
    | |- _ /\ _ => split
    | |- fixable _ 0 => left; reflexivity
    | |- fixable _ _ => right; split; [reflexivity|apply short_burst_In; vm_compute; tauto]
    | |- _ -> _ => vm_compute; try discriminate; reflexivity
    end. }
  cbv zeta. split; [apply kept_dec; vm_compute; reflexivity|vm_compute; reflexivity].
Qed.
(* On stream 1 the three blocks make a line (as hex), which is the last *)
Definition c97_hex : Options := match getOptions (w_numbers (text_world [])) [OptChar "x" []] false with Ok o => o | _ => Options_default end.
Example C97_case : o_use_fec c97_hex = true /\ possible (Bits_in 0 0 c97_bits 1) /\ ends_within true (on_stream 1 (fed [Bits_in 0 0 c97_bits 1])) c97_last 3 /\
  (exists c lines, session plain_host c97_hex (Channel_new c97_hex 0) [Bits_in 0 0 c97_bits 1] = Ok (c, lines) /\ length lines = 4%nat) /\
  (exists c lines, session plain_host c97_hex (Channel_new c97_hex 0) ([Bits_in 0 0 c97_bits 1] ++ [Flush 0]) = Ok (c, lines) /\ nth_error lines 4 = Some (bs "#S1 1234 0409 E0CD ----")).
Proof.
  split; [vm_compute; reflexivity|]. split; [split; [vm_compute; reflexivity|lia]|].
  split; [replace (on_stream 1 (fed [Bits_in 0 0 c97_bits 1])) with c97_bits by (vm_compute; reflexivity); exact c97_within|].
  split; eexists; eexists; (split; [vm_compute; reflexivity|vm_compute; reflexivity]).
Qed.

(* The group that has begun on the main data stream is dropped: the same bits on stream 0 give no such line. *)
Theorem C97_main_stream_refuted : exists calls t lines,
  ends_within true (on_stream 0 (fed calls)) t 3 /\
  (exists c, session plain_host c97_hex (Channel_new c97_hex 0) calls = Ok (c, lines)) /\
  (exists c, session plain_host c97_hex (Channel_new c97_hex 0) (calls ++ [Flush 0]) = Ok (c, lines)).
Proof.
  exists [Bits_in 0 0 c97_bits 0], c97_last. eexists.
  split; [replace (on_stream 0 (fed [Bits_in 0 0 c97_bits 0])) with c97_bits by (vm_compute; reflexivity); exact c97_within|].
  split; eexists; vm_compute; reflexivity.
Qed.
Print Assumptions C97_main_stream_refuted.

(* A run with two channels *)
Example C97_program_case : let w := audio_world 2 5000000000 (repeat (S754_zero false) (N.to_nat 24576)) in exists o, getOptions (w_numbers w) audio_options false = Ok o /\ o_early_exit o = false /\ o_input_type o = MPX_stdin /\
  mpx_init (w_snd w) o = Opened 2 171000 /\ (length (w_audio w) < S (N.to_nat 24576))%nat /\ audio_ok (w_snd w) (w_liquid w) /\
  exists code out, main (S (N.to_nat 24576)) w audio_options false = Ok (Some (code, out)).
Proof.
  cbv zeta. eexists. split; [vm_compute; reflexivity|]. split; [reflexivity|]. split; [reflexivity|]. split; [vm_compute; reflexivity|].
  assert (L : (length (w_audio (audio_world 2 5000000000 (repeat (S754_zero false) (N.to_nat 24576)))) < S (N.to_nat 24576))%nat) by (cbn [w_audio audio_world]; rewrite repeat_length; lia).
  split; [exact L|]. split; [apply worlds_ok|].
  destruct (C63_program_ends _ (audio_world 2 5000000000 (repeat (S754_zero false) (N.to_nat 24576))) audio_options false (S (N.to_nat 24576)) plain_host_ok (worlds_ok _ _ _) L) as [(code & out & E & _)|(m & _ & o & n & rate & G & M & X)].
  - exists code, out. exact E.
  - exfalso. vm_compute in G. injection G as <-. vm_compute in M. injection M as _ <-. vm_compute in X. discriminate X.
Qed.
