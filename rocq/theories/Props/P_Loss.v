(* C87: loss of the carrier. *)
From Verif.Model Require Import Base Util Float Group BlockSync Options Json Tmc Tables Station Input Channel Dsp Main.
From Verif.Spec Require Import RdsCode RdsStream Reception Inputs Unicode JsonText Session Identity Texts History Host Program Demo Recording OnAir Biphase Demod Hearing Cases Loss.
From Verif.Proofs Require Import Tac HostP BlockSyncE MainP DspP RecordP HearP LossP.
From Verif.Props Require Import P_Recording P_OnAir P_Main P_Channel P_Hearing.
From Verif.Model Require Import Main.

Local Open Scope string_scope.
Local Open Scope N_scope.
Local Open Scope list_scope.

(* --- C87 --- *)
(* Audio with one channel, data stream 0, with or without losses of the carrier: what is printed is what a channel prints
   that is given the groups found in the bits, each with some time, and told to confirm the PI code anew at every loss. *)
Theorem C87_audio_with_losses : forall (D : Type) (w : World D) ops extra o fuel rate full rest code out,
  getOptions (w_numbers w) ops extra = Ok o -> o_early_exit o = false -> o_input_type o = MPX_stdin \/ o_input_type o = MPX_sndfile ->
  mpx_init (w_snd w) o = Opened 1 rate -> o_streams o = false ->
  w_audio w = concat full ++ rest -> Forall (fun buffer => N.of_nat (length buffer) = 8192) full -> N.of_nat (length rest) < 8192 ->
  main fuel w ops extra = Ok (Some (code, out)) ->
  let resampled := negb (SFeqb (f32_div f32_target_rate (f32_of_Z rate)) (f32_of_Z 1)) in
  let heard := heard_in (w_liquid w) resampled (o_use_fec o) 0 (lq_init (w_liquid w) (f32_of_Z rate)) (BiphaseDecoder_init, 0) [] (full ++ [rest]) in
  let o' := with_audio o 1 (f32_of_Z rate) in
  code = EXIT_SUCCESS /\ exists calls c, Forall2 called_as heard calls /\ session (w_env w) o' (Channel_new o' 0) calls = Ok (c, all_lines out).
Proof.
  intros D w ops extra o fuel rate full rest code out G X I Op St Sa Fl Lr E. cbv zeta. unfold main in E. rewrite G in E. fold (first_items o) in E. cbv zeta in E. rewrite X in E.
  assert (K : (done <- processMPXInput fuel (w_env w) (w_snd w) (w_liquid w) o (w_clock w) (w_clock_at_end w) (w_audio w) ;; Ok (match done with Some (c, x) => Some (c, first_items o ++ x) | None => None end)) = Ok (Some (code, out)))
    by (destruct I as [I|I]; rewrite I in E; exact E). clear E.
  destruct (processMPXInput fuel (w_env w) (w_snd w) (w_liquid w) o (w_clock w) (w_clock_at_end w) (w_audio w)) as [[[c x]|]| |] eqn:P; cbn [bind] in K; try discriminate. injection K as <- <-.
  destruct (audio_any D (w_env w) (w_snd w) (w_liquid w) o fuel (w_clock w) (w_clock_at_end w) (w_audio w) rate full rest c x Op St Sa Fl Lr P) as (-> & calls & c1 & F & R).
  split; [reflexivity|]. exists calls, c1. split; [exact F|]. unfold all_lines. rewrite flat_map_app. fold (all_lines x).
  replace (flat_map _ (first_items o)) with (@nil bytes) by (unfold first_items; destruct (o_print_usage o), (o_print_version o); reflexivity). exact R.
Qed.
Print Assumptions C87_audio_with_losses.

(* After a loss, from the group on that confirms a PI code, the lines are those of a channel that is given only what came
   after the loss. *)
Theorem C87_new_start_after_loss : forall env o c gs1 now g w gs2 p c1 out1, host_ok env -> o_output_type o = OutJSON -> o_bler o = false ->
  let gs := gs1 ++ (now, g, w) :: gs2 in
  Forall (fun x : Z * Group * N => o_timestamp o = false \/ g_has_time (snd (fst x)) = true) gs -> Forall received_group gs ->
  p <> 0 -> Identity.three p (pis (gs1 ++ [(now, g, w)])) -> carried_pi (now, g, w) <> None ->
  run_groups env o (resetPI c) gs = Ok (c1, out1) ->
  exists c2 out2, run_groups env o (Channel_new o (ch_which_channel c)) gs = Ok (c2, out2) /\ skipn (length gs1) out1 = skipn (length gs1) out2.
Proof. exact new_start. Qed.
Print Assumptions C87_new_start_after_loss.

(* But until then a group is printed as one of the station before the loss, whatever PI code it carries. *)
Theorem C87_old_label_refuted : exists calls g c lines line,
  session plain_host Options_default (Channel_new Options_default 0) (calls ++ [Reset_pi; Group_in 0 g 0]) = Ok (c, lines ++ [line]) /\
  carried_pi (0%Z, g, 0) = Some 0x1111 /\ says line ["pi"] (VStr (bs "0x2204")) /\ says line ["ps"] (VStr (bs "ABCDEFXX")).
Proof.
  exists (map (fun s => Group_in 0 (group4 0x2204 (0x0408 + s) 0xE0E0 (0x4142 + s * 0x0202)) 0) [0; 0; 0; 1; 2]), (group4 0x1111 0x040B 0xE0E0 0x5858).
  assert (Q : exists c lines, session plain_host Options_default (Channel_new Options_default 0)
    (map (fun s => Group_in 0 (group4 0x2204 (0x0408 + s) 0xE0E0 (0x4142 + s * 0x0202)) 0) [0; 0; 0; 1; 2] ++ [Reset_pi; Group_in 0 (group4 0x1111 0x040B 0xE0E0 0x5858) 0]) =
    Ok (c, lines ++ [bs "{""pi"":""0x2204"",""group"":""0A"",""tp"":true,""prog_type"":""No PTY"",""di"":{""stereo"":false},""ta"":false,""is_music"":true,""ps"":""ABCDEFXX""}"])).
  { eexists. eexists (_ :: _ :: _ :: []). vm_compute. reflexivity. }
  destruct Q as (c & lines & Q). exists c, lines. eexists. split; [exact Q|]. split; [reflexivity|].
  split; eexists; (split; [vm_compute; reflexivity|reflexivity]).
Qed.
Print Assumptions C87_old_label_refuted.

(* Four groups after a loss: the fourth completes three equal codes *)
Example C87_case : let gs1 := [(0%Z, group4 0x1111 0x0408 0xE0E0 0x4142, 0); (0%Z, group4 0x3333 0x0409 0xE0E0 0x4344, 0); (0%Z, group4 0x3333 0x040A 0xE0E0 0x4546, 0)] in
  let x := (0%Z, group4 0x3333 0x0408 0xE0E0 0x5858, 0) in
  Identity.three 0x3333 (pis (gs1 ++ [x])) /\ carried_pi x <> None /\ Forall received_group (gs1 ++ [x]) /\
  exists c1 l1 l2 l3 l4 c2, run_groups plain_host Options_default (resetPI (after_groups ps_groups)) (gs1 ++ [x]) = Ok (c1, [Some l1; Some l2; Some l3; Some l4]) /\
    run_groups plain_host Options_default (Channel_new Options_default 0) (gs1 ++ [x]) = Ok (c2, [None; None; None; Some l4]).
Proof.
  cbv zeta. split; [exists [0x1111]; reflexivity|]. split; [discriminate|]. split; [repeat constructor; reflexivity|].
  do 6 eexists. split; [vm_compute; reflexivity|vm_compute; reflexivity].
Qed.

(* Silence is a loss: in zero bits sync is never found *)
Example C87_silence_case : forall fec n, N.of_nat n < 2 ^ 32 -> lost_for fec (repeat false n) = N.of_nat n.
Proof. exact zeros_lost. Qed.
