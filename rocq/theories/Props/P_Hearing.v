(* C86: from demodulated symbols to the lines printed. *)
From Verif.Model Require Import Base Util Float Group BlockSync Options Json Tmc Tables Station Input Channel Dsp Main.
From Verif.Spec Require Import RdsCode RdsStream Reception Inputs Unicode JsonText Session Identity Texts History Host Program Demo Recording OnAir Biphase Demod Hearing.
From Verif.Proofs Require Import Tac HostP BlockSyncE MainP DspP RecordP HearP.
From Verif.Props Require Import P_Recording P_OnAir P_Main P_Channel.
From Verif.Model Require Import Main.

Local Open Scope string_scope.
Local Open Scope N_scope.
Local Open Scope list_scope.

(* --- C86 --- *)
(* Audio with one channel, data stream 0: the samples are taken in buffers of 8192 (the last one shorter, possibly
   empty).  The symbols the demodulator finds in these buffers decode to bits, and what is printed is what is printed for
   the groups found in those bits, each stamped with some time.  This holds so long as the receiver is not out of sync
   for 10 seconds on end. *)
Theorem C86_audio_as_groups : forall (D : Type) (w : World D) ops extra o fuel rate full rest code out,
  getOptions (w_numbers w) ops extra = Ok o -> o_early_exit o = false -> o_input_type o = MPX_stdin \/ o_input_type o = MPX_sndfile ->
  mpx_init (w_snd w) o = Opened 1 rate -> o_streams o = false ->
  w_audio w = concat full ++ rest -> Forall (fun buffer => N.of_nat (length buffer) = 8192) full -> N.of_nat (length rest) < 8192 ->
  main fuel w ops extra = Ok (Some (code, out)) ->
  let resampled := negb (SFeqb (f32_div f32_target_rate (f32_of_Z rate)) (f32_of_Z 1)) in
  let symbols := symbols_of (w_liquid w) resampled 0 (lq_init (w_liquid w) (f32_of_Z rate)) (full ++ [rest]) in
  let o' := with_audio o 1 (f32_of_Z rate) in
  code = EXIT_SUCCESS /\ exists dec bits, decode_symbols (BiphaseDecoder_init, 0) symbols = Ok (dec, bits) /\
    (no_long_gap (o_use_fec o) bits -> exists gs c lines, Forall2 stamped_as (groups_after (o_use_fec o) [] bits) gs /\ Forall received_group gs /\
      run_groups (w_env w) o' (Channel_new o' 0) gs = Ok (c, lines) /\ all_lines out = printed lines).
Proof.
  intros D w ops extra o fuel rate full rest code out G X I Op St Sa Fl Lr E. cbv zeta. unfold main in E. rewrite G in E. fold (first_items o) in E. cbv zeta in E. rewrite X in E.
  assert (K : (done <- processMPXInput fuel (w_env w) (w_snd w) (w_liquid w) o (w_clock w) (w_clock_at_end w) (w_audio w) ;; Ok (match done with Some (c, x) => Some (c, first_items o ++ x) | None => None end)) = Ok (Some (code, out)))
    by (destruct I as [I|I]; rewrite I in E; exact E). clear E.
  destruct (processMPXInput fuel (w_env w) (w_snd w) (w_liquid w) o (w_clock w) (w_clock_at_end w) (w_audio w)) as [[[c x]|]| |] eqn:P; cbn [bind] in K; try discriminate. injection K as <- <-.
  destruct (audio_hear D (w_env w) (w_snd w) (w_liquid w) o fuel (w_clock w) (w_clock_at_end w) (w_audio w) rate full rest c x Op St Sa Fl Lr P) as (-> & dec & bits & Dc & T).
  split; [reflexivity|]. exists dec, bits. split; [exact Dc|]. intros Gap. destruct (T Gap) as (gs & c1 & lines & F & R & Rn & ->). exists gs, c1, lines. split; [exact F|]. split; [exact R|]. split; [exact Rn|].
  unfold all_lines. rewrite flat_map_app. fold (all_lines (Main.lines_of 0 lines)). rewrite all_lines_of. unfold first_items. destruct (o_print_usage o), (o_print_version o); reflexivity.
Qed.
Print Assumptions C86_audio_as_groups.

(* So the name of the station gets from the symbols to the last line printed, as in C76. *)
Theorem C86_name_from_audio : forall (D : Type) (w : World D) ops extra o fuel rate full last_buffer code out dec pre b ws0 tes0 tes1 te rest p earlier n0 n1 n2 n3 n4 n5 n6 n7,
  host_ok (w_env w) -> host_text (w_env w) ->
  getOptions (w_numbers w) ops extra = Ok o -> o_early_exit o = false -> o_input_type o = MPX_stdin \/ o_input_type o = MPX_sndfile ->
  mpx_init (w_snd w) o = Opened 1 rate -> o_streams o = false -> o_output_type o = OutJSON ->
  w_audio w = concat full ++ last_buffer -> Forall (fun buffer => N.of_nat (length buffer) = 8192) full -> N.of_nat (length last_buffer) < 8192 ->
  main fuel w ops extra = Ok (Some (code, out)) ->
  let resampled := negb (SFeqb (f32_div f32_target_rate (f32_of_Z rate)) (f32_of_Z 1)) in
  let symbols := symbols_of (w_liquid w) resampled 0 (lq_init (w_liquid w) (f32_of_Z rate)) (full ++ [last_buffer]) in
  let tes := tes0 ++ tes1 ++ [te] in
  let bits := pre ++ [b] ++ flat_map block_bits ws0 ++ flat_map rx_bits tes ++ rest in
  decode_symbols (BiphaseDecoder_init, 0) symbols = Ok (dec, bits) -> (length rest < 26)%nat -> no_long_gap (o_use_fec o) bits ->
  acquires (o_use_fec o) pre b -> Forall (fun w => w < 2 ^ 26) ws0 -> Forall (rx_ok (o_use_fec o)) tes ->
  let first := recognise (window (pre ++ [b])) in
  Reception.kept [false] (err_flags (following first) (ws0 ++ all_words tes)) -> expect_after (following first) ws0 = OffA ->
  p <> 0 -> Forall (fun x => tx1 (fst x) = p) tes -> (3 <= length tes0)%nat ->
  name_part (fst te) <> [] ->
  flat_map (fun x => name_part (fst x)) (tes1 ++ [te]) = earlier ++ [(0, n0, n1); (1, n2, n3); (2, n4, n5); (3, n6, n7)] ->
  ~ In end_of_text [n0; n1; n2; n3; n4; n5; n6; n7] ->
  exists lines line, all_lines out = lines ++ [line] /\ says line ["ps"] (VStr (rds_text [n0; n1; n2; n3; n4; n5; n6; n7])).
Proof.
  intros D w ops extra o fuel rate full last_buffer code out dec pre b ws0 tes0 tes1 te rest p earlier n0 n1 n2 n3 n4 n5 n6 n7 H Ht G X I Op St OJ Sa Fl Lr E resampled symbols tes bits Dc L Gap A F R first K Ex P0 P T0 Nl N4 Ne.
  destruct (C86_audio_as_groups D w ops extra o fuel rate full last_buffer code out G X I Op St Sa Fl Lr E) as (_ & dec' & bits' & Dc' & T). fold resampled in Dc'. fold symbols in Dc'.
  assert (bits' = bits) as -> by congruence. destruct (T Gap) as (gs & c & lines & M & Rg & Er & Ep).
  destruct (name_heard (w_env w) (with_audio o 1 (f32_of_Z rate)) pre b ws0 tes0 tes1 te rest p earlier n0 n1 n2 n3 n4 n5 n6 n7 gs c lines H Ht OJ L A F R K Ex P0 P T0 Nl N4 Ne M Rg Er) as (out' & line & -> & S).
  exists (printed out'), line. split; [|exact S]. rewrite Ep. unfold printed. rewrite flat_map_app. reflexivity.
Qed.
Print Assumptions C86_name_from_audio.

(* The groups of C76, heard in five buffers and a part of one *)
Definition c86_bits : list bool := tx_bits t0 ++ flat_map rx_bits (air0 ++ air1 ++ [air2]).
Definition c86_buffer : list spec_float := repeat (f32_of_Z 1) (N.to_nat 8192).
Definition c86_rest : list spec_float := repeat (f32_of_Z 1) (N.to_nat 4000).
Definition c86_world : World (list (spec_float * spec_float)) :=
  mkWorld plain_host (mkNumEnv (fun _ => (1, false)) (fun _ => (f32_of_Z 171000, false))) (mkSndEnv true (fun _ => Refused false) 0)
    (ideal (tl (biphase (differential false c86_bits)))) (fun n => (Z.of_nat n * 1000000)%Z) 0%Z [] (concat (repeat c86_buffer 5) ++ c86_rest).
Definition c86_options : list Opt := [OptChar "r" (bs "171000")].
Lemma short_no_gap : forall fec bits, N.of_nat (length bits) < 11876 -> no_long_gap fec bits.
Proof. intros fec bits L pre gap post -> Lg. rewrite !app_length in L. lia. Qed.
Lemma c86_symbols : symbols_of (w_liquid c86_world) (negb (SFeqb (f32_div f32_target_rate (f32_of_Z 171000)) (f32_of_Z 1))) 0 (lq_init (w_liquid c86_world) (f32_of_Z 171000)) (repeat c86_buffer 5 ++ [c86_rest]) =
  tl (biphase (differential false c86_bits)).
Proof. vm_compute. reflexivity. Qed.
Lemma c86_decoded : exists dec, decode_symbols (BiphaseDecoder_init, 0) (tl (biphase (differential false c86_bits))) = Ok (dec, c86_bits).
Proof.
  assert (Q : match decode_symbols (BiphaseDecoder_init, 0) (tl (biphase (differential false c86_bits))) with Ok (_, l) => l | _ => [] end = c86_bits) by (vm_compute; reflexivity).
  destruct (decode_total (tl (biphase (differential false c86_bits))) (BiphaseDecoder_init, 0) bp_init) as (dec & bits & E & _). exists dec. rewrite E in Q |- *. rewrite Q. reflexivity.
Qed.
Example C86_case : exists o code out, getOptions (w_numbers c86_world) c86_options false = Ok o /\ o_early_exit o = false /\ o_input_type o = MPX_stdin /\
  mpx_init (w_snd c86_world) o = Opened 1 171000 /\ o_streams o = false /\ main (S (length (w_audio c86_world))) c86_world c86_options false = Ok (Some (code, out)) /\
  exists lines line, all_lines out = lines ++ [line] /\ says line ["ps"] (VStr (bs "Radio X ")).
Proof.
  assert (R : exists code out, main (S (length (w_audio c86_world))) c86_world c86_options false = Ok (Some (code, out))).
  { destruct (C63_program_ends _ c86_world c86_options false (S (length (w_audio c86_world))) plain_host_ok) as [(code & out & E & _)|(m & _ & o & n & rate & G & M & X)].
    - split; [intros name x rate E; discriminate E|]. intros d x. cbn. lia.
    - lia.
    - exists code, out. exact E.
    - exfalso. vm_compute in G. injection G as <-. vm_compute in M. injection M as _ <-. vm_compute in X. discriminate X. }
  destruct R as (code & out & E).
  assert (G : exists o, getOptions (w_numbers c86_world) c86_options false = Ok o /\ o_early_exit o = false /\ o_input_type o = MPX_stdin /\ mpx_init (w_snd c86_world) o = Opened 1 171000 /\ o_streams o = false /\ o_output_type o = OutJSON /\ o_use_fec o = true).
  { eexists. split; [vm_compute; reflexivity|]. split; [reflexivity|]. split; [reflexivity|]. split; [vm_compute; reflexivity|]. split; [reflexivity|]. split; reflexivity. }
  destruct G as (o & G & O1 & O2 & O3 & O4 & O5 & O6). exists o, code, out. split; [exact G|]. split; [exact O1|]. split; [exact O2|]. split; [exact O3|]. split; [exact O4|]. split; [exact E|].
  destruct c86_decoded as [dec Dc].
  destruct C76_case as (_ & A & W & Rx & K & X & P & Nl & N4 & T). rewrite <- T.
  change (o_use_fec Options_default) with true in A, Rx. rewrite <- O6 in A, Rx.
  refine (C86_name_from_audio _ c86_world c86_options false o _ 171000 (repeat c86_buffer 5) c86_rest code out dec air_pre air_bit _ air0 air1 air2 [] 0x1234 _ _ _ _ _ _ _ _ _
    plain_host_ok plain_host_utf8 G O1 (or_introl O2) O3 O4 O5 eq_refl _ _ E _ _ _ A W Rx K X _ P _ Nl N4 _).
  - repeat (constructor; [vm_compute; reflexivity|]). constructor.
  - vm_compute. reflexivity.
  - rewrite c86_symbols, Dc. f_equal.
  - cbn [length]. lia.
  - apply short_no_gap. vm_compute. reflexivity.
  - discriminate.
  - cbn. lia.
  - cbn. intuition discriminate.
Qed.
