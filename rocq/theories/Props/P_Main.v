(* C50, C56, C61, C63, C64: the program as a whole. *)
From Verif.Model Require Import Base Util Float Group Options Json Tmc Station Channel Input Dsp Main.
From Verif.Spec Require Import RdsCode RdsStream JsonText Session Inputs Program Host Demo.
From Verif.Proofs Require Import Tac HostP SessionP HexP MainP AudioP RateP.

Local Open Scope string_scope.
Local Open Scope N_scope.
Local Open Scope list_scope.

(* --- C63 --- *)
(* Whatever the command line and the input, the program ends by itself ([fuel] buffers are enough if
   there are more of them than samples), without undefined behaviour.  It fails only after telling
   the user, and then has printed no line.  The only exception that is not caught is that of the
   resampler, for a sample rate it does not support. *)
Theorem C63_program_ends : forall (D : Type) (w : World D) ops extra fuel,
  host_ok (w_env w) -> audio_ok (w_snd w) (w_liquid w) -> (length (w_audio w) < fuel)%nat ->
  (exists code out, main fuel w ops extra = Ok (Some (code, out)) /\
     (code = EXIT_FAILURE -> existsb complaint out = true /\ all_lines out = [])) \/
  (exists m, main fuel w ops extra = Throw m /\ rate_refused w ops extra m).
Proof.
  intros D w ops extra fuel H A L. destruct (main_runs D w ops extra fuel H A L) as [(code & out & E & F & _)|X]; [left|right; exact X].
  exists code, out. split; [exact E|exact F].
Qed.
Print Assumptions C63_program_ends.

Lemma worlds_ok : forall n clock samples, audio_ok (w_snd (audio_world n clock samples)) (w_liquid (audio_world n clock samples)).
Proof. intros n clock samples. split; [intros name x rate E; discriminate E|]. intros d x. cbn. lia. Qed.
Lemma text_world_ok : forall input, audio_ok (w_snd (text_world input)) (w_liquid (text_world input)).
Proof. intros input. split; [intros name x rate E; discriminate E|]. intros d x. cbn. lia. Qed.

Definition demo_line : bytes :=
  bs "{""pi"":""0x1234"",""rx_time"":""5"",""group"":""0A"",""tp"":true,""prog_type"":""No PTY"",""di"":{""dynamic_pty"":false},""ta"":false,""is_music"":true}".
Example C63_case :
  host_ok plain_host /\ audio_ok (w_snd (audio_world 1 0 [])) (w_liquid (audio_world 1 0 [])) /\
  (exists m, main 1 (text_world []) [OptChar "c" (bs "1"); OptChar "i" (bs "nonsense")] false = Ok (Some (EXIT_FAILURE, [Message])) /\ m = tt) /\
  main 1 (text_world []) [OptChar "i" (bs "mpx")] false = Ok (Some (EXIT_FAILURE, [Usage])) /\
  main 5 (audio_world 1 5000000000 (repeat (S754_zero false) (N.to_nat 24576))) audio_options false =
    Ok (Some (EXIT_SUCCESS, [Line 0 demo_line])).
Proof.
  split; [exact plain_host_ok|]. split; [apply worlds_ok|]. split; [exists tt; split; [vm_compute; reflexivity|reflexivity]|].
  split; vm_compute; reflexivity.
Qed.

(* --- C57 (whole program) --- *)
(* No run ends with an exception unless the sample rate in effect is between 34.200003 and 40 MHz. *)
Theorem C57_no_exception : forall (D : Type) (w : World D) ops extra fuel m,
  host_ok (w_env w) -> audio_ok (w_snd w) (w_liquid w) -> (length (w_audio w) < fuel)%nat ->
  main fuel w ops extra = Throw m ->
  exists o n rate, getOptions (w_numbers w) ops extra = Ok o /\ mpx_init (w_snd w) o = Opened n rate /\
    (34200003 <= rate <= 40000000)%Z.
Proof.
  intros D w ops extra fuel m H A L E. destruct (main_runs D w ops extra fuel H A L) as [(code & out & X & _)|(m' & X & o & n & rate & G & M & T)]; [congruence|].
  exists o, n, rate. split; [exact G|]. split; [exact M|].
  assert (R : (128000 <= rate <= 40000000)%Z).
  { clear - M. unfold mpx_init in M. cbv zeta in M. unfold kMinimumRate, kMaximumRate in M.
    assert (K : forall n' r', (if (r' <? 128000)%Z then Refused false else if o_streams o && (r' <? 171000)%Z then Refused false else if (40000000 <? r')%Z then Refused false else Opened n' r') = Opened n rate -> (128000 <= rate <= 40000000)%Z).
    { intros n' r' X. destruct (Z.ltb_spec r' 128000); [discriminate|]. destruct (o_streams o && (r' <? 171000)%Z)%bool; [discriminate|]. destruct (Z.ltb_spec 40000000 r'); [discriminate|]. injection X as _ <-. lia. }
    destruct (o_input_type o); first [destruct (snd_stdin_opens (w_snd w)); [exact (K _ _ M)|discriminate]|destruct (snd_file (w_snd w) (o_sndfilename o)); [discriminate|exact (K _ _ M)]]. }
  destruct (Z_le_gt_dec rate 34200002) as [U|U]; [|lia]. apply (proj2 (supported_rate rate R)) in U. congruence.
Qed.
Print Assumptions C57_no_exception.

Definition fast_world : World unit :=
  mkWorld plain_host (mkNumEnv (fun _ => (1, false)) (fun _ => (f32_of_Z 35000000, false)))
    (mkSndEnv true (fun _ => Refused true) 0) (mkLiquid (fun _ => tt) (fun d x => (d, [x])) (fun d _ _ _ => (d, None)) (fun d => d))
    (fun _ => 0%Z) 0%Z [] [].
Example C57_case : host_ok (w_env fast_world) /\ audio_ok (w_snd fast_world) (w_liquid fast_world) /\
  exists m, main 1 fast_world [OptChar "r" (bs "35000000")] false = Throw m.
Proof.
  split; [exact plain_host_ok|]. split; [split; [intros name x rate E; discriminate E|intros d x; cbn; lia]|].
  eexists. vm_compute. reflexivity.
Qed.

(* --- C64 --- *)
(* With JSON output every line the program prints is a JSON text of printable UTF-8 characters ... *)
Theorem C64_every_line_well_formed : forall (D : Type) (w : World D) ops extra fuel o code out,
  host_ok (w_env w) -> audio_ok (w_snd w) (w_liquid w) -> (length (w_audio w) < fuel)%nat ->
  getOptions (w_numbers w) ops extra = Ok o -> o_output_type o = OutJSON ->
  main fuel w ops extra = Ok (Some (code, out)) -> Forall well_formed (all_lines out).
Proof.
  intros D w ops extra fuel o code out H A L G J E. destruct (main_runs D w ops extra fuel H A L) as [(code' & out' & E' & _ & S)|(m & X & _)]; [|rewrite E in X; discriminate].
  rewrite E in E'. injection E' as <- <-. destruct S as [->|(o0 & o1 & G' & O & P)]; [constructor|]. rewrite G in G'. injection G' as <-.
  assert (J1 : o_output_type o1 = OutJSON) by (destruct O as [->|(n & rate & ->)]; exact J).
  apply Forall_forall. intros x Hx. assert (C : exists ch, In x (of_channel ch out)).
  { clear -Hx. induction out as [|i out IH]; [contradiction|]. cbn [all_lines flat_map] in Hx. apply in_app_or in Hx. destruct Hx as [Hx|Hx].
    - destruct i as [| | |ch t]; try contradiction. exists ch. cbn [of_channel flat_map]. rewrite N.eqb_refl. apply in_or_app. left. exact Hx.
    - destruct (IH Hx) as [ch Hc]. exists ch. cbn [of_channel flat_map]. apply in_or_app. right. exact Hc. }
  destruct C as [ch Hc]. destruct (P ch) as (calls & c & Pc & S).
  destruct (session_well_formed (w_env w) o1 (Channel_new o1 ch) calls H (or_introl (ex_intro _ ch eq_refl)) Pc J1) as (c' & lines & S' & W).
  rewrite S in S'. injection S' as _ <-. rewrite Forall_forall in W. exact (W x Hc).
Qed.
Print Assumptions C64_every_line_well_formed.

(* ... and the lines of each of its channels are those a [Channel] object prints when it is given
   some groups or bits, in any format: everything proved about channels holds for the program. *)
Theorem C64_lines_come_from_channels : forall (D : Type) (w : World D) ops extra fuel code out,
  host_ok (w_env w) -> audio_ok (w_snd w) (w_liquid w) -> (length (w_audio w) < fuel)%nat ->
  main fuel w ops extra = Ok (Some (code, out)) -> all_lines out <> [] ->
  exists o o', getOptions (w_numbers w) ops extra = Ok o /\ (o' = o \/ exists n rate, o' = with_audio o n rate) /\
    forall ch, printed_by_channel (w_env w) o' ch (of_channel ch out).
Proof.
  intros D w ops extra fuel code out H A L E N. destruct (main_runs D w ops extra fuel H A L) as [(code' & out' & E' & _ & S)|(m & X & _)]; [|rewrite E in X; discriminate].
  rewrite E in E'. injection E' as <- <-. destruct S as [S|S]; [contradiction|exact S].
Qed.
Print Assumptions C64_lines_come_from_channels.

Definition hex_lines : bytes := bs "1234 0408 E0CD 4142
1234 0408 E0CD 4142
1234 0408 E0CD 4142
1234 0409 E0CD 4142
".
Example C64_case : exists o,
  getOptions (w_numbers (text_world hex_lines)) [OptChar "i" (bs "hex")] false = Ok o /\ o_output_type o = OutJSON /\
  match main 1 (text_world hex_lines) [OptChar "i" (bs "hex")] false with
  | Ok (Some (EXIT_SUCCESS, out)) => length (all_lines out) = 2%nat
  | _ => False
  end.
Proof. eexists. split; [vm_compute; reflexivity|]. split; vm_compute; reflexivity. Qed.

(* --- C50 --- *)
(* Each channel receives exactly its own samples, in order, if there is one channel, or if the input
   ends with a whole buffer. *)
Theorem C50_each_channel_its_samples : forall (A : Type) n ch (samples : list A) fuel, 1 <= n <= 1024 -> ch < n ->
  (length samples < fuel)%nat -> n = 1 \/ N.of_nat (length samples) mod ((8192 / n) * n) = 0 ->
  read_audio fuel (MPXReader_init n samples) ch = Ok (every (N.to_nat n) (N.to_nat ch) samples).
Proof. exact audio_read. Qed.
Print Assumptions C50_each_channel_its_samples.

Theorem C50_nothing_lost_of_one_channel : forall (A : Type) (samples : list A) fuel, (length samples < fuel)%nat ->
  read_audio fuel (MPXReader_init 1 samples) 0 = Ok samples.
Proof.
  intros A samples fuel L. rewrite audio_read by (try lia; left; reflexivity). change (N.to_nat 1) with 1%nat. change (N.to_nat 0) with 0%nat. rewrite every_one. reflexivity.
Qed.
Print Assumptions C50_nothing_lost_of_one_channel.

(* A last, short buffer is given to every channel with the samples of all channels *)
Theorem C50_short_buffer_refuted : exists (samples : list N) n, every 2 0 samples <> samples /\ n = 2 /\
  read_audio 5 (MPXReader_init n samples) 0 = Ok samples /\ read_audio 5 (MPXReader_init n samples) 1 = Ok samples.
Proof. exists [10; 20; 11; 21], 2. split; [discriminate|]. split; [reflexivity|]. split; vm_compute; reflexivity. Qed.
Print Assumptions C50_short_buffer_refuted.

Example C50_case : let samples := map N.of_nat (seq 0 (N.to_nat 8190)) in
  N.of_nat (length samples) mod ((8192 / 3) * 3) = 0 /\ firstn 3 (every 3 1 samples) = [1; 4; 7].
Proof. split; vm_compute; reflexivity. Qed.

(* --- C56 (channels) --- *)
(* What is printed for a channel is the same for inputs that agree on its samples. *)
Theorem C56_channels_isolated : forall (D : Type) (w1 w2 : World D) ops extra fuel o n rate k code1 out1 code2 out2,
  w2 = mkWorld (w_env w1) (w_numbers w1) (w_snd w1) (w_liquid w1) (w_clock w1) (w_clock_at_end w1) (w_stdin w1) (w_audio w2) ->
  getOptions (w_numbers w1) ops extra = Ok o -> mpx_init (w_snd w1) o = Opened n rate -> 1 <= n <= 1024 -> k < n ->
  length (w_audio w1) = length (w_audio w2) -> N.of_nat (length (w_audio w1)) mod ((8192 / n) * n) = 0 ->
  every (N.to_nat n) (N.to_nat k) (w_audio w1) = every (N.to_nat n) (N.to_nat k) (w_audio w2) ->
  main fuel w1 ops extra = Ok (Some (code1, out1)) -> main fuel w2 ops extra = Ok (Some (code2, out2)) ->
  of_channel k out1 = of_channel k out2.
Proof.
  intros D w1 w2 ops extra fuel o n rate k code1 out1 code2 out2 W G M Hn Hk L Wh EV E1 E2. rewrite W in E2. unfold main in E1, E2. cbn [w_env w_numbers w_snd w_liquid w_clock w_clock_at_end w_stdin w_audio] in E2.
  rewrite G in E1, E2. fold (first_items o) in E1, E2. cbv zeta in E1, E2.
  destruct (o_early_exit o); [rewrite E1 in E2; injection E2 as _ <-; reflexivity|].
  assert (SAME : forall x, (done <- x ;; Ok (match done with Some (code, out) => Some (code, first_items o ++ out) | None => None end)) = Ok (Some (code1, out1)) ->
    (done <- x ;; Ok (match done with Some (code, out) => Some (code, first_items o ++ out) | None => None end)) = Ok (Some (code2, out2)) -> of_channel k out1 = of_channel k out2).
  { intros x X1 X2. rewrite X1 in X2. injection X2 as _ <-. reflexivity. }
  assert (MPX : (done <- processMPXInput fuel (w_env w1) (w_snd w1) (w_liquid w1) o (w_clock w1) (w_clock_at_end w1) (w_audio w1) ;; Ok (match done with Some (code, out) => Some (code, first_items o ++ out) | None => None end)) = Ok (Some (code1, out1)) ->
    (done <- processMPXInput fuel (w_env w1) (w_snd w1) (w_liquid w1) o (w_clock w1) (w_clock_at_end w1) (w_audio w2) ;; Ok (match done with Some (code, out) => Some (code, first_items o ++ out) | None => None end)) = Ok (Some (code2, out2)) -> of_channel k out1 = of_channel k out2).
  { intros X1 X2.
    match type of X1 with bind ?x _ = _ => destruct x as [[[y1 p1]|]| |] eqn:P1; cbn [bind] in X1; try discriminate end. injection X1 as <- <-.
    match type of X2 with bind ?x _ = _ => destruct x as [[[y2 p2]|]| |] eqn:P2; cbn [bind] in X2; try discriminate end. injection X2 as <- <-.
    rewrite !(proj1 (first_lines o k _)). exact (mpx_same D (w_liquid w1) fuel (w_env w1) (w_snd w1) o (w_clock w1) (w_clock_at_end w1) _ _ _ _ _ _ n rate k M Hn Hk L Wh EV P1 P2). }
  destruct (o_input_type o); [exact (MPX E1 E2)|exact (MPX E1 E2)|exact (SAME _ E1 E2)|exact (SAME _ E1 E2)|exact (SAME _ E1 E2)].
Qed.
Print Assumptions C56_channels_isolated.

Definition quiet : list spec_float := repeat (S754_zero false) (N.to_nat 8192).
Definition other_channel_busy : list spec_float := flat_map (fun _ => [S754_zero false; f32_of_Z 1]) (repeat tt (N.to_nat 4096)).
Example C56_case : exists o rate code1 out1 code2 out2,
  getOptions (w_numbers (audio_world 2 0 quiet)) audio_options false = Ok o /\ mpx_init (w_snd (audio_world 2 0 quiet)) o = Opened 2 rate /\
  length quiet = length other_channel_busy /\ N.of_nat (length quiet) mod ((8192 / 2) * 2) = 0 /\
  every 2 0 quiet = every 2 0 other_channel_busy /\ every 2 1 quiet <> every 2 1 other_channel_busy /\
  main (S (length quiet)) (audio_world 2 0 quiet) audio_options false = Ok (Some (code1, out1)) /\
  main (S (length quiet)) (audio_world 2 0 other_channel_busy) audio_options false = Ok (Some (code2, out2)).
Proof.
  assert (R : forall s, (length s <= length quiet)%nat -> exists code out, main (S (length quiet)) (audio_world 2 0 s) audio_options false = Ok (Some (code, out))).
  { intros s Ls. destruct (C63_program_ends _ (audio_world 2 0 s) audio_options false (S (length quiet)) plain_host_ok (worlds_ok _ _ _)) as [(code & out & E & _)|(m & _ & o & n & rate & G & M & X)].
    - cbn [audio_world w_audio]. lia.
    - exists code, out. exact E.
    - exfalso. change (w_numbers (audio_world 2 0 s)) with (w_numbers (audio_world 2 0 [])) in G. change (w_snd (audio_world 2 0 s)) with (w_snd (audio_world 2 0 [])) in M.
      vm_compute in G. injection G as <-. vm_compute in M. injection M as _ <-. vm_compute in X. discriminate X. }
  destruct (R quiet (le_n _)) as (c1 & o1 & E1). assert (L : length quiet = length other_channel_busy) by (apply Nat2N.inj; vm_compute; reflexivity).
  destruct (R other_channel_busy ltac:(rewrite L; apply le_n)) as (c2 & o2 & E2).
  eexists. exists 171000%Z, c1, o1, c2, o2. split; [vm_compute; reflexivity|]. split; [vm_compute; reflexivity|]. split; [exact L|]. split; [vm_compute; reflexivity|].
  split; [vm_compute; reflexivity|]. split; [|split; [exact E1|exact E2]].
  intros X. apply (f_equal (fun l => hd S754_nan l)) in X. vm_compute in X. discriminate X.
Qed.

(* If the last buffer is short, a channel does depend on the samples of the others *)
Theorem C56_short_buffer_refuted : exists (s1 s2 : list N), length s1 = length s2 /\ every 2 0 s1 = every 2 0 s2 /\
  read_audio 5 (MPXReader_init 2 s1) 0 <> read_audio 5 (MPXReader_init 2 s2) 0.
Proof. exists [10; 20; 11; 21], [10; 0; 11; 0]. split; [reflexivity|]. split; [reflexivity|]. vm_compute. discriminate. Qed.
Print Assumptions C56_short_buffer_refuted.

(* --- C61 --- *)
(* With one channel the time of the samples is the time the buffer was filled ... *)
Theorem C61_time_of_one_channel : forall (A : Type) now (r : MPXReader A) chunk t, mr_num_channels r = 1 ->
  readChunk (fillBuffer now r) 0 = Ok (chunk, t) -> t = now.
Proof.
  intros A now r chunk t N E. unfold readChunk in E. change (mr_num_channels (fillBuffer now r)) with (mr_num_channels r) in E. rewrite N in E. cbn [N.leb N.compare N.eqb Pos.eqb] in E.
  destruct (mr_is_eof (fillBuffer now r)); injection E as _ <-; reflexivity.
Qed.
Print Assumptions C61_time_of_one_channel.

(* ... but with several channels what the program prints does not depend on the clock at all: the
   times it prints cannot be the times of reception. *)
Theorem C61_clock_ignored_refuted : forall (D : Type) (w : World D) clock1 clock2 ops extra fuel o n rate,
  getOptions (w_numbers w) ops extra = Ok o -> o_input_type o = MPX_stdin \/ o_input_type o = MPX_sndfile ->
  mpx_init (w_snd w) o = Opened n rate -> 2 <= n <= 1024 -> N.of_nat (length (w_audio w)) mod ((8192 / n) * n) = 0 ->
  main fuel (mkWorld (w_env w) (w_numbers w) (w_snd w) (w_liquid w) clock1 (w_clock_at_end w) (w_stdin w) (w_audio w)) ops extra =
  main fuel (mkWorld (w_env w) (w_numbers w) (w_snd w) (w_liquid w) clock2 (w_clock_at_end w) (w_stdin w) (w_audio w)) ops extra.
Proof.
  intros D w clock1 clock2 ops extra fuel o n rate G I M H W. unfold main. cbn [w_env w_numbers w_snd w_liquid w_clock w_clock_at_end w_stdin w_audio]. rewrite G. cbv zeta.
  destruct (o_early_exit o); [reflexivity|]. destruct I as [I|I]; rewrite I; rewrite (mpx_clock D (w_liquid w) fuel (w_env w) (w_snd w) o clock1 clock2 (w_clock_at_end w) (w_audio w) n rate M H W); reflexivity.
Qed.
Print Assumptions C61_clock_ignored_refuted.

Example C61_case : exists o, getOptions (w_numbers (audio_world 2 0 quiet)) audio_options false = Ok o /\ o_input_type o = MPX_stdin /\
  o_timestamp o = true /\ mpx_init (w_snd (audio_world 2 0 quiet)) o = Opened 2 171000 /\
  main 5 (audio_world 1 7000000000 (repeat (S754_zero false) (N.to_nat 24576))) audio_options false <>
  main 5 (audio_world 1 5000000000 (repeat (S754_zero false) (N.to_nat 24576))) audio_options false.
Proof.
  eexists. split; [vm_compute; reflexivity|]. split; [reflexivity|]. split; [reflexivity|]. split; [vm_compute; reflexivity|].
  intros X. apply (f_equal (fun x => match x with Ok (Some (_, [Line _ t])) => nth 26 t 0 | _ => 0 end)) in X. vm_compute in X. discriminate X.
Qed.
