(* C78: options that add members to the output change nothing else. *)
From Verif.Model Require Import Base Util Float Group BlockSync Options Json Tmc Tables Station Input Channel Dsp Main.
From Verif.Spec Require Import Unicode JsonText Session Host Program Recording OptionSets.
From Verif.Proofs Require Import Tac SessionP ShowP HostP OptionsP.
From Verif.Props Require Import P_Channel.

Local Open Scope string_scope.
Local Open Scope N_scope.
Local Open Scope list_scope.

(* --- C78 --- *)
(* The same calls on two channels with any two sets of options (both for JSON output, and both with or both without error correction) *)
Theorem C78_options_calls : forall env o o' w calls, host_ok env -> host_text env -> o_output_type o = OutJSON -> o_output_type o' = OutJSON ->
  o_use_fec o = o_use_fec o' -> Forall possible calls ->
  exists c c' lines lines', session env o (Channel_new o w) calls = Ok (c, lines) /\ session env o' (Channel_new o' w) calls = Ok (c', lines') /\
    Forall2 (same_line o o') lines lines'.
Proof.
  intros env o o' w calls H T OJ OJ' Fe P. exact (both_session env o o' H (host_text_txt env T) OJ OJ' calls _ _ P (both_new o o' w Fe)).
Qed.
Print Assumptions C78_options_calls.

(* The same input to two runs of the program *)
Theorem C78_options_inputs : forall env o o' clock t input, host_ok env -> host_text env -> o_output_type o = OutJSON -> o_output_type o' = OutJSON ->
  o_use_fec o = o_use_fec o' ->
  (exists lines lines', processASCIIBitsInput env o clock t input = Ok (EXIT_SUCCESS, map (Line 0) lines) /\
     processASCIIBitsInput env o' clock t input = Ok (EXIT_SUCCESS, map (Line 0) lines') /\ Forall2 (same_line o o') lines lines') /\
  (exists lines lines', processHexInput env o clock input = Ok (EXIT_SUCCESS, map (Line 0) lines) /\
     processHexInput env o' clock input = Ok (EXIT_SUCCESS, map (Line 0) lines') /\ Forall2 (same_line o o') lines lines') /\
  (exists lines lines', processTEFInput env o clock input = Ok (EXIT_SUCCESS, map (Line 0) lines) /\
     processTEFInput env o' clock input = Ok (EXIT_SUCCESS, map (Line 0) lines') /\ Forall2 (same_line o o') lines lines').
Proof.
  intros env o o' clock t input H T OJ OJ' Fe. pose proof (host_text_txt env T) as E.
  split; [exact (pair_ascii env o o' H E OJ OJ' clock t input Fe)|]. split; [exact (pair_hex env o o' H E OJ OJ' clock input Fe)|exact (pair_tef env o o' H E OJ OJ' clock input Fe)].
Qed.
Print Assumptions C78_options_inputs.

(* Showing partial texts does cost lines: the partial long station name is cut inside a character *)
Definition with_partial (o : Options) (b : bool) : Options :=
  mkOptions (o_rbds o) (o_feed_thru o) b (o_early_exit o) (o_init_error o) (o_print_usage o) (o_print_version o) (o_timestamp o) (o_bler o) (o_show_raw o)
    (o_is_rate_defined o) (o_is_num_channels_defined o) (o_use_fec o) (o_streams o) (o_samplerate o) (o_num_channels o) (o_input_type o) (o_output_type o)
    (o_loctable_dirs o) (o_sndfilename o) (o_time_format o).
Definition long_name_cut : bytes := text_file (repeat (bs "2204 F000 4865 6CC3") 3).

Theorem C78_partial_long_name_refuted : ~ (forall env o o' clock input lines lines', host_ok env -> host_text env -> o_output_type o = OutJSON -> o_output_type o' = OutJSON ->
  o_use_fec o = o_use_fec o' ->
  processHexInput env o clock input = Ok (EXIT_SUCCESS, map (Line 0) lines) -> processHexInput env o' clock input = Ok (EXIT_SUCCESS, map (Line 0) lines') ->
  Forall2 (fun l l' => (forall k, ~ In k (concerned o o') -> line_at [k] l = line_at [k] l') \/ (reports_error l /\ reports_error l')) lines lines').
Proof.
  intros X.
  assert (P : processHexInput plain_host (with_partial Options_default true) (fun _ => 0%Z) long_name_cut = Ok (EXIT_SUCCESS, map (Line 0) [bs "{""debug"":""[json.exception.type_error.316]""}"])) by (vm_compute; reflexivity).
  assert (Q : processHexInput plain_host (with_partial Options_default false) (fun _ => 0%Z) long_name_cut = Ok (EXIT_SUCCESS, map (Line 0) [bs "{""pi"":""0x2204"",""group"":""15A"",""tp"":false,""prog_type"":""No PTY""}"])) by (vm_compute; reflexivity).
  specialize (X plain_host (with_partial Options_default true) (with_partial Options_default false) (fun _ => 0%Z) long_name_cut _ _ plain_host_ok plain_host_utf8 eq_refl eq_refl eq_refl P Q).
  inversion X as [|? ? ? ? X0 _]; subst. clear X. destruct X0 as [X|[_ (t & X)]].
  - specialize (X "group"). assert (N : ~ In "group" (concerned (with_partial Options_default true) (with_partial Options_default false))) by (cbn; intuition discriminate). specialize (X N). vm_compute in X. discriminate.
  - vm_compute in X. discriminate.
Qed.
Print Assumptions C78_partial_long_name_refuted.

(* A station name with and without partial texts and raw data *)
Definition with_raw (o : Options) : Options :=
  mkOptions (o_rbds o) (o_feed_thru o) (o_show_partial o) (o_early_exit o) (o_init_error o) (o_print_usage o) (o_print_version o) (o_timestamp o) (o_bler o) true
    (o_is_rate_defined o) (o_is_num_channels_defined o) (o_use_fec o) (o_streams o) (o_samplerate o) (o_num_channels o) (o_input_type o) (o_output_type o)
    (o_loctable_dirs o) (o_sndfilename o) (o_time_format o).
Example C78_case :
  processHexInput plain_host Options_default (fun _ => 0%Z) (text_file (repeat (bs "2204 0408 2F54 4849") 3)) =
    Ok (EXIT_SUCCESS, [Line 0 (bs "{""pi"":""0x2204"",""group"":""0A"",""tp"":true,""prog_type"":""No PTY"",""di"":{""dynamic_pty"":false},""ta"":false,""is_music"":true}")]) /\
  processHexInput plain_host (with_raw (with_partial Options_default true)) (fun _ => 0%Z) (text_file (repeat (bs "2204 0408 2F54 4849") 3)) =
    Ok (EXIT_SUCCESS, [Line 0 (bs "{""pi"":""0x2204"",""raw_data"":""2204 0408 2F54 4849"",""group"":""0A"",""tp"":true,""prog_type"":""No PTY"",""di"":{""dynamic_pty"":false},""ta"":false,""is_music"":true,""partial_ps"":""HI      ""}")]).
Proof. split; vm_compute; reflexivity. Qed.
