(* C82: input that ends earlier. *)
From Verif.Model Require Import Base Util Float Group BlockSync Options Json Tmc Tables Station Input Channel Dsp Main.
From Verif.Spec Require Import RdsCode RdsStream Inputs JsonText Session Host Program Demo Cut.
From Verif.Proofs Require Import Tac HostP MainP RecordP CutP.
From Verif.Props Require Import P_Recording.

Local Open Scope string_scope.
Local Open Scope N_scope.
Local Open Scope list_scope.

(* --- C82 --- *)
(* Hexadecimal groups a, with or without more text b after them: what is printed for a comes first. *)
Theorem C82_hex : forall (D : Type) (w : World D) ops extra o fuel a b, host_ok (w_env w) ->
  getOptions (w_numbers w) ops extra = Ok o -> o_early_exit o = false -> o_input_type o = HexInput -> whole_lines a ->
  exists out more, main fuel (reading w a) ops extra = Ok (Some (EXIT_SUCCESS, out)) /\
    main fuel (reading w (a ++ b)) ops extra = Ok (Some (EXIT_SUCCESS, out ++ more)).
Proof.
  intros D w ops extra o fuel a b H G X I W. destruct (hex_cut (w_env w) o (w_clock w) a b H W) as (ls & more & E1 & E2).
  exists (first_items o ++ map (Line 0) ls), (map (Line 0) more). unfold main. cbn [reading w_env w_numbers w_snd w_liquid w_clock w_clock_at_end w_stdin w_audio]. rewrite G. fold (first_items o). cbv zeta.
  rewrite X, I, E1, E2. cbn [bind]. rewrite map_app, app_assoc. split; reflexivity.
Qed.
Print Assumptions C82_hex.

(* Zeros and ones, and the lines of the tuner: the same but for the last line, as the end of the input itself is taken
   for one more bit or group. *)
Theorem C82_bits_and_tuner : forall (D : Type) (w : World D) ops extra o fuel a b, host_ok (w_env w) ->
  getOptions (w_numbers w) ops extra = Ok o -> o_early_exit o = false -> o_input_type o = ASCIIbits \/ (o_input_type o = TEF6686 /\ whole_lines a) ->
  exists out end_ more, (length end_ <= 1)%nat /\ main fuel (reading w a) ops extra = Ok (Some (EXIT_SUCCESS, out ++ end_)) /\
    main fuel (reading w (a ++ b)) ops extra = Ok (Some (EXIT_SUCCESS, out ++ more)).
Proof.
  intros D w ops extra o fuel a b H G X I.
  assert (S : exists ls end_ more, (length end_ <= 1)%nat /\ forall i r r', (i = ASCIIbits \/ i = TEF6686) -> o_input_type o = i ->
    (if (match i with ASCIIbits => true | _ => false end) then processASCIIBitsInput (w_env w) o (w_clock w) (w_clock_at_end w) a else processTEFInput (w_env w) o (w_clock w) a) = r ->
    (if (match i with ASCIIbits => true | _ => false end) then processASCIIBitsInput (w_env w) o (w_clock w) (w_clock_at_end w) (a ++ b) else processTEFInput (w_env w) o (w_clock w) (a ++ b)) = r' ->
    r = Ok (EXIT_SUCCESS, map (Line 0) (ls ++ end_)) /\ r' = Ok (EXIT_SUCCESS, map (Line 0) (ls ++ more))).
  { destruct I as [I|[I W]].
    - destruct (bits_cut (w_env w) o (w_clock w) (w_clock_at_end w) (w_clock_at_end w) a b H) as (ls & e & more & L & E1 & E2). exists ls, e, more. split; [exact L|].
      intros i r r' [->| ->] Y R R'; [|congruence]. rewrite <- R, <- R'. split; assumption.
    - destruct (tef_cut (w_env w) o (w_clock w) a b H W) as (ls & e & more & L & E1 & E2). exists ls, e, more. split; [exact L|].
      intros i r r' [->| ->] Y R R'; [congruence|]. rewrite <- R, <- R'. split; assumption. }
  destruct S as (ls & e & more & L & S). exists (first_items o ++ map (Line 0) ls), (map (Line 0) e), (map (Line 0) more). split; [rewrite map_length; exact L|].
  unfold main. cbn [reading w_env w_numbers w_snd w_liquid w_clock w_clock_at_end w_stdin w_audio]. rewrite G. fold (first_items o). cbv zeta. rewrite X.
  assert (J : o_input_type o = ASCIIbits \/ o_input_type o = TEF6686) by (destruct I as [I|[I _]]; [left|right]; exact I).
  destruct (S (o_input_type o) _ _ J eq_refl eq_refl eq_refl) as [E1 E2]. rewrite <- !app_assoc, <- !map_app.
  destruct J as [J|J]; rewrite J in *; rewrite E1, E2; split; reflexivity.
Qed.
Print Assumptions C82_bits_and_tuner.

(* Audio of n channels that ends after a whole number of buffers, data stream 0 only *)
Theorem C82_audio : forall (D : Type) (w : World D) ops extra o fuel fuel' n rate a b t t' code out code' out',
  getOptions (w_numbers w) ops extra = Ok o -> o_input_type o = MPX_stdin \/ o_input_type o = MPX_sndfile ->
  mpx_init (w_snd w) o = Opened n rate -> 1 <= n <= 1024 -> o_streams o = false ->
  N.of_nat (length a) mod (8192 / n * n) = 0 ->
  main fuel (hearing w a t) ops extra = Ok (Some (code, out)) ->
  main fuel' (hearing w (a ++ b) t') ops extra = Ok (Some (code', out')) ->
  code' = code /\ exists more, out' = out ++ more.
Proof.
  intros D w ops extra o fuel fuel' n rate a b t t' code out code' out' G I Op [N1 N2] St Md E E'.
  unfold main in E, E'. cbn [hearing w_env w_numbers w_snd w_liquid w_clock w_clock_at_end w_stdin w_audio] in E, E'. rewrite G in E, E'. fold (first_items o) in E, E'. cbv zeta in E, E'.
  destruct (o_early_exit o); [rewrite E in E'; injection E' as -> ->; split; [reflexivity|]; exists []; rewrite app_nil_r; reflexivity|].
  assert (Md' : (length a mod N.to_nat (8192 / n * n) = 0)%nat).
  { apply Nat2N.inj. rewrite Nat2N.inj_mod, N2Nat.id. exact Md. }
  assert (K : (done <- processMPXInput fuel (w_env w) (w_snd w) (w_liquid w) o (w_clock w) t a ;; Ok (match done with Some (c, x) => Some (c, first_items o ++ x) | None => None end)) = Ok (Some (code, out)) ->
    (done <- processMPXInput fuel' (w_env w) (w_snd w) (w_liquid w) o (w_clock w) t' (a ++ b) ;; Ok (match done with Some (c, x) => Some (c, first_items o ++ x) | None => None end)) = Ok (Some (code', out')) ->
    code' = code /\ exists more, out' = out ++ more).
  { intros X X'.
    destruct (processMPXInput fuel _ _ _ o _ t a) as [[[c x]|]| |] eqn:P1; cbn [bind] in X; try discriminate. destruct (processMPXInput fuel' _ _ _ o _ t' (a ++ b)) as [[[c' x']|]| |] eqn:P2; cbn [bind] in X'; try discriminate.
    destruct (audio_cut D _ _ _ o fuel fuel' _ t t' a b n rate c x c' x' Op N1 ltac:(lia) St Md' P1 P2) as (-> & -> & more & ->). injection X as <- <-. injection X' as <- <-.
    split; [reflexivity|]. exists more. rewrite app_assoc. reflexivity. }
  destruct I as [I|I]; rewrite I in E, E'; exact (K E E').
Qed.
Print Assumptions C82_audio.

Definition lines_in (l : list string) : bytes := flat_map (fun s => bs s ++ [10]) l.
Definition hex_sent : bytes := lines_in ["1234 0408 E0CD 4142"; "1234 0409 E0CD 4344"; "1234 040A E0CD 4546"]%string.
Definition tuner_sent : bytes := lines_in ["P1234"; "R0408E0CD414200"; "P1234"; "R0409E0CD434400"; "P1234"; "R040AE0CD454600"]%string.
Definition bits_sent : bytes := bit_text (flat_map tx_bits (map (fun x => mkTx 0x1234 (0x0408 + x) 0xE0CD 0x4143) [0; 1; 2; 3])).
Definition heard : list spec_float := repeat (S754_zero false) (N.to_nat 8192).
Example C82_hex_case : exists o, getOptions (w_numbers (text_world [])) [OptChar "h" []; OptChar "x" []] false = Ok o /\ o_early_exit o = false /\ o_input_type o = HexInput /\ whole_lines hex_sent /\
  host_ok (w_env (text_world [])) /\
  main 0 (reading (text_world []) hex_sent) [OptChar "h" []; OptChar "x" []] false =
    Ok (Some (EXIT_SUCCESS, [Line 0 (bs "1234 0408 E0CD 4142"); Line 0 (bs "1234 0409 E0CD 4344"); Line 0 (bs "1234 040A E0CD 4546")])).
Proof.
  eexists. split; [vm_compute; reflexivity|]. split; [reflexivity|]. split; [reflexivity|]. split; [right; exists (removelast hex_sent); reflexivity|]. split; [exact plain_host_ok|]. vm_compute. reflexivity.
Qed.
Example C82_bits_case : exists o, getOptions (w_numbers (text_world [])) [OptNoFec; OptChar "i" (bs "bits"); OptChar "x" []] false = Ok o /\ o_early_exit o = false /\ o_input_type o = ASCIIbits /\
  main 0 (reading (text_world []) bits_sent) [OptNoFec; OptChar "i" (bs "bits"); OptChar "x" []] false =
    Ok (Some (EXIT_SUCCESS, [Line 0 (bs "---- ---- E0CD 4143"); Line 0 (bs "1234 0409 E0CD 4143"); Line 0 (bs "1234 040A E0CD 4143"); Line 0 (bs "1234 040B E0CD 4143")])).
Proof. eexists. split; [vm_compute; reflexivity|]. split; [reflexivity|]. split; [reflexivity|]. vm_compute. reflexivity. Qed.
Example C82_audio_case : exists o, getOptions (w_numbers (audio_world 1 0 [])) audio_options false = Ok o /\ o_input_type o = MPX_stdin /\ mpx_init (w_snd (audio_world 1 0 [])) o = Opened 1 171000 /\
  o_streams o = false /\ N.of_nat (length heard) mod (8192 / 1 * 1) = 0 /\
  match main 4 (hearing (audio_world 1 0 []) (heard ++ heard ++ heard) 0) audio_options false with Ok (Some (EXIT_SUCCESS, Line 0 _ :: _)) => True | _ => False end /\
  exists out, main 4 (hearing (audio_world 1 0 []) heard 0) audio_options false = Ok (Some (EXIT_SUCCESS, out)).
Proof.
  eexists. split; [vm_compute; reflexivity|]. split; [reflexivity|]. split; [vm_compute; reflexivity|]. split; [reflexivity|]. split; [vm_compute; reflexivity|]. split; [vm_compute; exact I|].
  exists []. vm_compute. reflexivity.
Qed.

(* Bits that end with the last bit of a group missing: a 0 is put there, and the block has an error. *)
Theorem C82_last_line_of_bits_refuted : let ops := [OptNoFec; OptChar "i" (bs "bits"); OptChar "x" []] in
  main 0 (reading (text_world []) (removelast bits_sent)) ops false =
    Ok (Some (EXIT_SUCCESS, [Line 0 (bs "---- ---- E0CD 4143"); Line 0 (bs "1234 0409 E0CD 4143"); Line 0 (bs "1234 040A E0CD 4143"); Line 0 (bs "1234 040B E0CD ----")])) /\
  main 0 (reading (text_world []) (removelast bits_sent ++ bs "1")) ops false =
    Ok (Some (EXIT_SUCCESS, [Line 0 (bs "---- ---- E0CD 4143"); Line 0 (bs "1234 0409 E0CD 4143"); Line 0 (bs "1234 040A E0CD 4143"); Line 0 (bs "1234 040B E0CD 4143")])).
Proof. cbv zeta. split; vm_compute; reflexivity. Qed.
Print Assumptions C82_last_line_of_bits_refuted.

(* Lines of the tuner that end with the PI code of a group: a group with nothing else. *)
Theorem C82_last_line_of_tuner_refuted : let ops := [OptChar "i" (bs "tef"); OptChar "x" []] in let first := [Line 0 (bs "1234 0408 E0CD 4142"); Line 0 (bs "1234 0409 E0CD 4344"); Line 0 (bs "1234 040A E0CD 4546")] in
  main 0 (reading (text_world []) (tuner_sent ++ lines_in ["P1234"%string])) ops false = Ok (Some (EXIT_SUCCESS, first ++ [Line 0 (bs "1234 ---- ---- ----")])) /\
  main 0 (reading (text_world []) (tuner_sent ++ lines_in ["P1234"; "R040BE0CD474800"]%string)) ops false = Ok (Some (EXIT_SUCCESS, first ++ [Line 0 (bs "1234 040B E0CD 4748")])).
Proof. cbv zeta. split; vm_compute; reflexivity. Qed.
Print Assumptions C82_last_line_of_tuner_refuted.

(* Hexadecimal groups that end within a line: the digits that are there are taken for the number. *)
Theorem C82_unfinished_line_refuted : let ops := [OptChar "h" []; OptChar "x" []] in let first := [Line 0 (bs "1234 0408 E0CD 4142"); Line 0 (bs "1234 0409 E0CD 4344"); Line 0 (bs "1234 040A E0CD 4546")] in
  main 0 (reading (text_world []) (hex_sent ++ bs "1234 040B E0CD 47")) ops false = Ok (Some (EXIT_SUCCESS, first ++ [Line 0 (bs "1234 040B E0CD 0047")])) /\
  main 0 (reading (text_world []) (hex_sent ++ bs "1234 040B E0CD 47" ++ bs "48")) ops false = Ok (Some (EXIT_SUCCESS, first ++ [Line 0 (bs "1234 040B E0CD 4748")])).
Proof. cbv zeta. split; vm_compute; reflexivity. Qed.
Print Assumptions C82_unfinished_line_refuted.
