(* C96: the time of reception shown with a group. *)
From Verif.Model Require Import Base Util Float Group BlockSync Options Json Tmc Tables Station Input Channel Dsp Main.
From Verif.Spec Require Import RdsCode RdsStream Reception Inputs Unicode JsonText Session Identity Texts History Host Quality Program Demo Recording OnAir Biphase Demod Hearing Times Cases.
From Verif.Proofs Require Import Tac HostP UpdateP BlockSyncE MainP DspP RecordP HearP TimesP.
From Verif.Props Require Import P_Recording P_OnAir P_Main P_Channel P_Hearing.
From Verif.Model Require Import Main.

Local Open Scope string_scope.
Local Open Scope N_scope.
Local Open Scope list_scope.

(* --- C96 --- *)
(* Groups that come as text without a time of their own, read while the clock does not go back: each line shows what
   the clock read when its group was read. *)
Theorem C96_clock_time_shown : forall env o gs c out, host_ok env -> o_output_type o = OutJSON -> o_timestamp o = true ->
  Forall received_group gs -> Forall (fun x => g_has_time (snd (fst x)) = false /\ (0 <= fst (fst x))%Z) gs ->
  Sorted.StronglySorted Z.le (map (fun x => fst (fst x)) gs) ->
  run_groups env o (Channel_new o 0) gs = Ok (c, out) ->
  Forall2 (fun x line => shows_time env o (fst (fst x)) line) gs out.
Proof.
  intros env o gs c out H OJ OT R F S E. apply (groups_shown env o gs (Channel_new o 0) c out H OJ OT (channel_new_ok o 0) R); try assumption;
    rewrite Forall_forall in *; intros x X; apply (F x X).
Qed.
Print Assumptions C96_clock_time_shown.

(* Demodulated bits come in buffers, each with the time of its last bit.  A group that ends n bits before the end of its
   buffer was received n bits (at 1187.5 a second) before that time: the line shows that time to the millisecond, except
   that the times shown never go back. *)
Theorem C96_demodulated_times : forall env o (buffers : list (Z * Z * list bool)) c lines, host_ok env -> o_output_type o = OutJSON -> o_timestamp o = true ->
  Forall (fun x => N.of_nat (length (snd x)) < 2 ^ 40) buffers ->
  session env o (Channel_new o 0) (map (fun x => Bits_in (fst (fst x)) (snd (fst x)) (snd x) 0) buffers) = Ok (c, lines) ->
  exists times out, lines = printed out /\
    Forall2 Times.near (ends (o_use_fec o) [] (map (fun x => (fst (fst x), snd x)) buffers)) times /\
    Forall2 (shows_time env o) (latest 0 times) out.
Proof.
  intros env o buffers c lines H OJ OT F E.
  exact (buffers_shown env o H OJ OT buffers [] (Channel_new o 0) c lines F (channel_new_ok o 0) eq_refl E).
Qed.
Print Assumptions C96_demodulated_times.

(* The whole program, audio with one channel: the time of a buffer is what the clock read when it had been filled. *)
Theorem C96_audio_times : forall (D : Type) (w : World D) ops extra o fuel rate full rest code out bs,
  host_ok (w_env w) -> getOptions (w_numbers w) ops extra = Ok o -> o_early_exit o = false -> o_input_type o = MPX_stdin \/ o_input_type o = MPX_sndfile ->
  mpx_init (w_snd w) o = Opened 1 rate -> o_streams o = false -> o_output_type o = OutJSON -> o_timestamp o = true ->
  w_audio w = concat full ++ rest -> Forall (fun buffer => N.of_nat (length buffer) = 8192) full -> N.of_nat (length rest) < 8192 ->
  main fuel w ops extra = Ok (Some (code, out)) ->
  let resampled := negb (SFeqb (f32_div f32_target_rate (f32_of_Z rate)) (f32_of_Z 1)) in
  bits_by_buffer (w_liquid w) resampled 0 (lq_init (w_liquid w) (f32_of_Z rate)) (BiphaseDecoder_init, 0) (full ++ [rest]) = Ok bs ->
  no_long_gap (o_use_fec o) (concat bs) -> Forall (fun b => N.of_nat (length b) < 2 ^ 40) bs ->
  exists times lines, all_lines out = printed lines /\
    Forall2 Times.near (ends (o_use_fec o) [] (clocked (w_clock w) bs)) times /\
    Forall2 (shows_time (w_env w) o) (latest 0 times) lines.
Proof.
  intros D w ops extra o fuel rate full rest code out bs H G X I Op St OJ OT Sa Fl Lr E. cbv zeta. intros By Gap Sh. unfold main in E. rewrite G in E. fold (first_items o) in E. cbv zeta in E. rewrite X in E.
  assert (K : (done <- processMPXInput fuel (w_env w) (w_snd w) (w_liquid w) o (w_clock w) (w_clock_at_end w) (w_audio w) ;; Ok (match done with Some (c, x) => Some (c, first_items o ++ x) | None => None end)) = Ok (Some (code, out)))
    by (destruct I as [I|I]; rewrite I in E; exact E). clear E.
  destruct (processMPXInput fuel (w_env w) (w_snd w) (w_liquid w) o (w_clock w) (w_clock_at_end w) (w_audio w)) as [[[c x]|]| |] eqn:P; cbn [bind] in K; try discriminate. injection K as <- <-.
  destruct (audio_times D (w_env w) (w_snd w) (w_liquid w) o fuel (w_clock w) (w_clock_at_end w) (w_audio w) rate full rest c x bs H OJ OT Op St Sa Fl Lr P By Gap Sh) as (times & lines & -> & Nt & S).
  exists times, lines. split; [|split; [exact Nt|exact S]].
  unfold all_lines. rewrite flat_map_app. fold (all_lines (Main.lines_of 0 lines)). rewrite all_lines_of. unfold first_items. destruct (o_print_usage o), (o_print_version o); reflexivity.
Qed.
Print Assumptions C96_audio_times.
(* The bits found in the buffers, one after the other, are the bits found in the audio (C86) *)
Theorem C96_same_bits : forall (D : Type) (lq : Liquid D) resampled d buffers bs,
  bits_by_buffer lq resampled 0 d (BiphaseDecoder_init, 0) buffers = Ok bs ->
  exists dec, decode_symbols (BiphaseDecoder_init, 0) (symbols_of lq resampled 0 d buffers) = Ok (dec, concat bs).
Proof. intros D lq resampled d buffers bs E. exact (by_buffer_bits D lq buffers resampled 0 d _ bs E). Qed.
Print Assumptions C96_same_bits.

(* The audio of C86, with the times shown; a buffer of it takes 144 ms *)
Definition c96_world : World (list (spec_float * spec_float)) :=
  mkWorld plain_host (mkNumEnv (fun _ => (1, false)) (fun _ => (f32_of_Z 171000, false))) (mkSndEnv true (fun _ => Refused false) 0)
    (ideal (tl (biphase (differential false c86_bits)))) (fun n => (Z.of_nat (S n) * 144000000)%Z) 0%Z [] (concat (repeat c86_buffer 5) ++ c86_rest).
Definition c96_options : list Opt := [OptChar "r" (bs "171000"); OptChar "t" (bs "%s")].
Local Notation c96_bits := (bits_by_buffer (w_liquid c96_world) (negb (SFeqb (f32_div f32_target_rate (f32_of_Z 171000)) (f32_of_Z 1))) 0
  (lq_init (w_liquid c96_world) (f32_of_Z 171000)) (BiphaseDecoder_init, 0) (repeat c86_buffer 5 ++ [c86_rest])).
Definition all_of {A : Type} (r : res (list A)) : list A := match r with Ok l => l | _ => [] end.
Definition is_ok {A : Type} (r : res A) : bool := match r with Ok _ => true | _ => false end.
Lemma c96_found : exists b, c96_bits = Ok b /\ ends true [] (clocked (w_clock c96_world) b) =
  [(144000000%Z, 67); (288000000%Z, 134); (288000000%Z, 30); (432000000%Z, 96); (576000000%Z, 163); (576000000%Z, 59); (720000000%Z, 126); (720000000%Z, 22); (864000000%Z, 0)] /\
  no_long_gap true (concat b) /\ Forall (fun x => N.of_nat (length x) < 2 ^ 40) b.
Proof.
  assert (K : is_ok c96_bits = true) by (vm_compute; reflexivity).
  assert (L : map (fun x => N.of_nat (length x)) (all_of c96_bits) = [171; 171; 170; 171; 171; 82]) by (vm_compute; reflexivity).
  assert (E : ends_all (state_after true []) (clocked (w_clock c96_world) (all_of c96_bits)) =
    [(144000000%Z, 67); (288000000%Z, 134); (288000000%Z, 30); (432000000%Z, 96); (576000000%Z, 163); (576000000%Z, 59); (720000000%Z, 126); (720000000%Z, 22); (864000000%Z, 0)]) by (vm_compute; reflexivity).
  remember c96_bits as r eqn:Er. clear Er. destruct r as [b| |]; try discriminate K. exists b. cbn [all_of] in *. split; [reflexivity|]. split; [rewrite ends_run_all; exact E|].
  assert (F : Forall (fun x => N.of_nat (length x) < 2 ^ 40) b).
  { rewrite Forall_forall. intros x X. apply (in_map (fun x => N.of_nat (length x))) in X. rewrite L in X. cbn [In] in X. lia. }
  split; [|exact F]. apply short_no_gap.
  assert (C : forall l : list (list bool), N.of_nat (length (concat l)) = fold_right N.add 0 (map (fun x => N.of_nat (length x)) l)).
  { induction l as [|x l IH]; [reflexivity|]. cbn [concat map fold_right]. rewrite app_length, <- IH. lia. }
  rewrite C, L. reflexivity.
Qed.
Example C96_case : exists o code out bs, getOptions (w_numbers c96_world) c96_options false = Ok o /\ o_early_exit o = false /\ o_input_type o = MPX_stdin /\ o_timestamp o = true /\
  mpx_init (w_snd c96_world) o = Opened 1 171000 /\ o_streams o = false /\ main (S (length (w_audio c96_world))) c96_world c96_options false = Ok (Some (code, out)) /\
  c96_bits = Ok bs /\ ends true [] (clocked (w_clock c96_world) bs) =
    [(144000000%Z, 67); (288000000%Z, 134); (288000000%Z, 30); (432000000%Z, 96); (576000000%Z, 163); (576000000%Z, 59); (720000000%Z, 126); (720000000%Z, 22); (864000000%Z, 0)] /\
  exists times lines, all_lines out = printed lines /\ Forall2 Times.near (ends true [] (clocked (w_clock c96_world) bs)) times /\ Forall2 (shows_time (w_env c96_world) o) (latest 0 times) lines.
Proof.
  assert (R : exists code out, main (S (length (w_audio c96_world))) c96_world c96_options false = Ok (Some (code, out))).
  { destruct (C63_program_ends _ c96_world c96_options false (S (length (w_audio c96_world))) plain_host_ok) as [(code & out & E & _)|(m & _ & o & n & rate & G & M & X)].
    - split; [intros name x rate E; discriminate E|]. intros d x. cbn. lia.
    - lia.
    - exists code, out. exact E.
    - exfalso. vm_compute in G. injection G as <-. vm_compute in M. injection M as _ <-. vm_compute in X. discriminate X. }
  destruct R as (code & out & E).
  assert (G : exists o, getOptions (w_numbers c96_world) c96_options false = Ok o /\ o_early_exit o = false /\ o_input_type o = MPX_stdin /\ mpx_init (w_snd c96_world) o = Opened 1 171000 /\ o_streams o = false /\ o_output_type o = OutJSON /\ o_use_fec o = true /\ o_timestamp o = true).
  { eexists. split; [vm_compute; reflexivity|]. split; [reflexivity|]. split; [reflexivity|]. split; [vm_compute; reflexivity|]. split; [reflexivity|]. split; [reflexivity|]. split; reflexivity. }
  destruct G as (o & G & O1 & O2 & O3 & O4 & O5 & O6 & O7). destruct c96_found as (b & B & En & Gap & Sh).
  exists o, code, out, b. split; [exact G|]. split; [exact O1|]. split; [exact O2|]. split; [exact O7|]. split; [exact O3|]. split; [exact O4|]. split; [exact E|]. split; [exact B|]. split; [exact En|]. clear En.
  rewrite <- O6 in Gap |- *.
  pose proof (C96_audio_times _ c96_world c96_options false o (S (length (w_audio c96_world))) 171000 (repeat c86_buffer 5) c86_rest code out b plain_host_ok G O1 (or_introl O2) O3 O4 O5 O7 eq_refl) as T.
  cbv zeta in T. apply T; [| |exact E|exact B|exact Gap|exact Sh].
  - repeat (constructor; [vm_compute; reflexivity|]). constructor.
  - vm_compute. reflexivity.
Qed.

(* Three groups as text, read a second apart *)
Definition c96_groups : list (Z * Group * N) := map (fun t => (t, group4 0x1234 0x0408 0xE0CD 0x4142, 0)) [1000000000%Z; 2000000000%Z; 3000000000%Z].
Definition c96_shown : Options := match getOptions (w_numbers c96_world) c96_options false with Ok o => o | _ => Options_default end.
Example C96_groups_case : Forall received_group c96_groups /\ Forall (fun x => g_has_time (snd (fst x)) = false /\ (0 <= fst (fst x))%Z) c96_groups /\
  Sorted.StronglySorted Z.le (map (fun x => fst (fst x)) c96_groups) /\ o_output_type c96_shown = OutJSON /\ o_timestamp c96_shown = true /\
  exists c out line, run_groups plain_host c96_shown (Channel_new c96_shown 0) c96_groups = Ok (c, out) /\ In (Some line) out.
Proof.
  split; [repeat (constructor; [cbn; lia|]); constructor|]. split; [repeat (constructor; [cbn; lia|]); constructor|].
  split; [cbn; repeat (constructor; [|repeat (constructor; [lia|]); constructor]); constructor|]. split; [vm_compute; reflexivity|]. split; [vm_compute; reflexivity|].
  assert (K : match run_groups plain_host c96_shown (Channel_new c96_shown 0) c96_groups with Ok (_, out) => existsb (fun l => match l with Some _ => true | None => false end) out | _ => false end = true) by (vm_compute; reflexivity).
  destruct (run_groups plain_host c96_shown (Channel_new c96_shown 0) c96_groups) as [[c out]| |]; try discriminate K.
  apply existsb_exists in K. destruct K as ([line|] & X & Q); [|discriminate Q]. exists c, out, line. split; [reflexivity|exact X].
Qed.
