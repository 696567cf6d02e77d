(* C77: feed-through. *)
From Verif.Model Require Import Base Util Float Group BlockSync Options Json Tmc Tables Station Input Channel Dsp Main Streams.
From Verif.Spec Require Import Inputs Unicode JsonText Session Host Program Cases Streams Recording Demo.
From Verif.Proofs Require Import Tac HexP InputP MainP HostP StreamsP.

Local Open Scope string_scope.
Local Open Scope N_scope.
Local Open Scope list_scope.

(* --- C77 --- *)
(* The lines that go to standard output without feed-through go to standard error with it, and standard output has the
   input.  What is really there is one byte more: 255 after ASCII bits, a line end after lines of text. *)
Theorem C77_feed_through : forall env o clock t input, host_ok env ->
  (exists lines, ascii_written env (with_feed o false) clock t input = Ok (lines, []) /\
                 ascii_written env (with_feed o true) clock t input = Ok (input ++ [255], lines)) /\
  (exists lines, hex_written env (with_feed o false) clock input = Ok (lines, []) /\
                 hex_written env (with_feed o true) clock input = Ok (input ++ [10], lines)) /\
  (exists lines, tef_written env (with_feed o false) clock input = Ok (lines, []) /\
                 tef_written env (with_feed o true) clock input = Ok (input ++ [10], lines)).
Proof.
  intros env o clock t input H. split; [|split].
  - unfold ascii_written. rewrite !feed_ascii. destruct (bits_ok env o clock t input H) as (out & c & E & _). rewrite E. cbn [bind]. eexists. split; [reflexivity|].
    rewrite echo_ascii by lia. reflexivity.
  - unfold hex_written. rewrite !feed_hex. destruct (hex_ok env o clock input H) as (out & c & E & _). rewrite E. cbn [bind]. eexists. split; [reflexivity|].
    rewrite echo_hex_all by lia. rewrite lines_join. reflexivity.
  - unfold tef_written. rewrite !feed_tef. destruct (tef_ok env o clock input H) as (out & c & E & _). rewrite E. cbn [bind]. eexists. split; [reflexivity|].
    rewrite echo_tef_all by lia. rewrite lines_join. reflexivity.
Qed.
Print Assumptions C77_feed_through.

(* So the input is never passed on unchanged *)
Theorem C77_unchanged_refuted : ~ (forall env o clock t input out err, host_ok env ->
  ascii_written env (with_feed o true) clock t input = Ok (out, err) \/ hex_written env (with_feed o true) clock input = Ok (out, err) \/
  tef_written env (with_feed o true) clock input = Ok (out, err) -> out = input).
Proof.
  intros X. destruct (C77_feed_through plain_host Options_default (fun _ => 0%Z) 0%Z [] plain_host_ok) as ((l & _ & E) & _).
  specialize (X plain_host Options_default (fun _ => 0%Z) 0%Z [] _ _ plain_host_ok (or_introl E)). discriminate.
Qed.
Print Assumptions C77_unchanged_refuted.

(* A recording of three groups of one station *)
Definition three_groups : bytes := text_file (repeat (bs "2204 0408 2F54 4849") 3).
Example C77_case : exists line, hex_written plain_host (with_feed Options_default false) (fun _ => 0%Z) three_groups = Ok (line ++ [10], []) /\
  hex_written plain_host (with_feed Options_default true) (fun _ => 0%Z) three_groups = Ok (three_groups ++ [10], line ++ [10]) /\
  says line ["pi"] (VStr (bs "0x2204")).
Proof.
  exists (match hex_written plain_host (with_feed Options_default false) (fun _ => 0%Z) three_groups with Ok (l, _) => removelast l | _ => [] end).
  split; [vm_compute; reflexivity|]. split; [vm_compute; reflexivity|]. vm_compute. reflexivity.
Qed.

(* With audio on standard input, all samples read are passed on, in order, and the lines go to standard error.  If the audio
   cannot be opened nothing is passed on. *)
Theorem C77_audio_feed_through : forall (D : Type) fuel env se (lq : Liquid D) o clock t samples written,
  o_input_type o = MPX_stdin -> 1 <= o_num_channels o <= 32 ->
  mpx_written fuel env se lq (with_feed o false) clock t samples = Ok (Some written) ->
  exists passed lines, written = ([], lines, []) /\
    mpx_written fuel env se lq (with_feed o true) clock t samples = Ok (Some (passed, [], lines)) /\
    (forall code out, processMPXInput fuel env se lq o clock t samples = Ok (Some (code, out)) ->
       passed = match code with EXIT_SUCCESS => samples | EXIT_FAILURE => [] end).
Proof.
  intros D fuel env se lq o clock t samples written I C W. unfold mpx_written in *. rewrite feed_mpx in *. rewrite feed_init in *.
  destruct (processMPXInput fuel env se lq o clock t samples) as [[[code out]|]| |] eqn:P; cbn [bind] in *; [|discriminate..].
  change (o_feed_thru (with_feed o false)) with false in W. change (o_feed_thru (with_feed o true)) with true.
  exists (match mpx_init se o with Opened n _ => echo_audio fuel (MPXReader_init n samples) | Refused _ => [] end), (lines_text out).
  split; [congruence|]. split; [reflexivity|]. intros code' out' X. injection X as <- <-.
  destruct (mpx_init se o) as [e|n rate] eqn:M.
  - unfold processMPXInput in P. rewrite M in P. destruct e; injection P as <- _; reflexivity.
  - assert (n < kBufferSize).
    { unfold mpx_init in M. rewrite I in M. cbv zeta in M. destruct (snd_stdin_opens se); [|discriminate].
      repeat match type of M with (if ?b then _ else _) = _ => destruct b; [discriminate|] end. injection M as <- _. unfold kBufferSize. lia. }
    rewrite (echo_mpx _ _ _ _ _ _ _ _ _ _ _ _ M H P). unfold processMPXInput in P. rewrite M in P. cbv zeta in P.
    destruct (make_receivers _ _ _ _) as [css| |]; cbn [bind] in P; [|discriminate..]. destruct (mpx_loop _ _ _ _ _ _ _ _) as [[[c1 o1]|]| |]; cbn [bind] in P; [|discriminate..].
    destruct (flush_channels _ _ _ _ _); cbn [bind] in P; [|discriminate..]. injection P as <- _. reflexivity.
Qed.
Print Assumptions C77_audio_feed_through.

(* Feed-through of an audio file is refused *)
Theorem C77_not_for_files : forall ne ops extra o, getOptions ne ops extra = Ok o -> o_feed_thru o = true -> o_input_type o <> MPX_sndfile.
Proof.
  intros ne ops extra o G F T. unfold getOptions in G. destruct (apply_opts _ _ _) as [[[o1 fec] x]| |]; cbn [bind] in G; [|discriminate..]. cbv zeta in G.
  destruct (o_feed_thru o1 && _) eqn:A in G; [discriminate|]. destruct (_ && _) in G; [discriminate|]. destruct (_ && _) in G; [discriminate|].
  assert (E1 : o_feed_thru o = o_feed_thru o1) by (injection G as <-; reflexivity). assert (E2 : o_input_type o = o_input_type o1) by (injection G as <-; reflexivity).
  rewrite <- E1, <- E2, F, T in A. discriminate.
Qed.
Print Assumptions C77_not_for_files.

(* Audio with two channels *)
Example C77_audio_case : let w := audio_world 2 0%Z (repeat (f32_of_Z 1) (N.to_nat 40000)) in
  exists o, getOptions (w_numbers w) audio_options false = Ok o /\ o_input_type o = MPX_stdin /\ o_num_channels o = 2 /\
    match mpx_written 10 (w_env w) (w_snd w) (w_liquid w) (with_feed o false) (w_clock w) 0%Z (w_audio w) with
    | Ok (Some ([], lines, [])) => (100 <? length lines)%nat = true
    | _ => False
    end.
Proof.
  cbv zeta. eexists. split; [vm_compute; reflexivity|]. split; [reflexivity|]. split; [reflexivity|]. vm_compute. reflexivity.
Qed.
