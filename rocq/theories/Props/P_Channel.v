(* C11, C15-C22, C30, C34, C56: what a receiving channel prints. *)
From Coq Require Import Sorted.
From Verif.Model Require Import Base Util Float Group BlockSync Options Json Tmc Station Channel.
From Verif.Spec Require Import Numerals Unicode JsonText Calendar Session Identity Quality Clock Host Cases.
From Verif.Proofs Require Import Tac Schema StationP UpdateP SessionP LineP FrameP ChannelP LinesP HistoryP HostP ShowP.

Local Open Scope string_scope.
Local Open Scope N_scope.
Local Open Scope list_scope.

Definition sec : Z := 1000000000.
(* A transmission: PI 2204, 0A groups *)
Definition ps_groups : list (Z * Group * N) :=
  [(1 * sec, group4 0x2204 0x0408 0xE0E0 0x4142, 0%N); (2 * sec, group4 0x2204 0x0409 0xE0E0 0x4344, 0%N);
   (10 * sec, group4 0x2204 0x040A 0xE0E0 0x4546, 0%N)]%Z.

(* --- C11 --- *)
(* However the bits are cut into buffers or single bits, the same lines are printed. *)
Theorem C11_buffering : forall env o calls1 calls2 c c1 lines, o_timestamp o = false ->
  Forall feeds_bits calls1 -> Forall possible calls1 -> Forall feeds_bits calls2 -> Forall possible calls2 ->
  fed calls1 = fed calls2 -> session env o c calls1 = Ok (c1, lines) ->
  exists c2, session env o c calls2 = Ok (c2, lines) /\ ch_set_time c1 0 = ch_set_time c2 0.
Proof. exact buffering. Qed.
Print Assumptions C11_buffering.

Example C11_buffering_case :
  fed [Bits_in 5 9 [true; false; true] 0; Bit_in 6 true 1] = fed [Bit_in 1 true 0; Bits_in 2 3 [false; true] 0; Bit_in 9 true 1].
Proof. reflexivity. Qed.

(* --- C15 --- *)
Theorem C15_three_equal_codes_select_the_station : forall env o w0 gs c out p, o_output_type o = OutJSON ->
  run_groups env o (Channel_new o w0) gs = Ok (c, out) -> p <> 0 -> three p (pis gs) -> station_of c = Some p.
Proof. exact three_adopted. Qed.
Print Assumptions C15_three_equal_codes_select_the_station.

Theorem C15_only_three_equal_codes_change_the_station : forall env o w0 gs now g w c out c' line, o_output_type o = OutJSON ->
  run_groups env o (Channel_new o w0) gs = Ok (c, out) -> processGroup env o now c g w = Ok (c', line) ->
  station_of c' <> station_of c -> exists p, station_of c' = Some p /\ three p (pis (gs ++ [(now, g, w)])).
Proof. exact change_needs_three. Qed.
Print Assumptions C15_only_three_equal_codes_change_the_station.

Example C15_case : three 0x2204 (pis ps_groups) /\
  exists c out, run_groups plain_host Options_default (Channel_new Options_default 0) ps_groups = Ok (c, out) /\ station_of c = Some 0x2204.
Proof. split; [exists []; reflexivity|]. eexists. eexists. split; [vm_compute; reflexivity|]. vm_compute. reflexivity. Qed.

(* PI code 0000 is never adopted by a new channel, however often it is received. *)
Theorem C15_pi_zero_refuted : exists gs c out, three 0 (pis gs) /\
  run_groups plain_host Options_default (Channel_new Options_default 0) gs = Ok (c, out) /\ station_of c = None.
Proof.
  exists (repeat (0%Z, group4 0 0x0408 0xE0E0 0x4142, 0) 5). eexists. eexists.
  split; [exists [0; 0]; reflexivity|]. split; vm_compute; reflexivity.
Qed.
Print Assumptions C15_pi_zero_refuted.

(* --- C16 --- *)
Theorem C16_lines_only_after_confirmation : forall env o w0 gs now g w c out line, host_ok env -> o_output_type o = OutJSON ->
  Forall received_group (gs ++ [(now, g, w)]) ->
  run_groups env o (Channel_new o w0) (gs ++ [(now, g, w)]) = Ok (c, out ++ [Some line])%list ->
  exists p, latest p (gs ++ [(now, g, w)]) /\ (main (now, g, w) = true -> only_error line \/ says_hex4 line "pi" p).
Proof. exact printed_line_pi. Qed.
Print Assumptions C16_lines_only_after_confirmation.

Example C16_case : Forall received_group ps_groups /\
  exists c line, run_groups plain_host Options_default (Channel_new Options_default 0) ps_groups = Ok (c, [None; None; Some line]) /\
    line = bs "{""pi"":""0x2204"",""group"":""0A"",""tp"":true,""prog_type"":""No PTY"",""di"":{""artificial_head"":false},""ta"":false,""is_music"":true}".
Proof.
  split; [repeat constructor; reflexivity|]. eexists. eexists. split; [vm_compute; reflexivity|]. vm_compute. reflexivity.
Qed.

(* --- C17 --- *)
(* Two channels that change to station p with the same group print the same from then on, whatever
   each received before.  (Error rates and the clock readings of groups that come without a time
   are about the reception, not the station.) *)
Theorem C17_no_leftovers : forall env o c1 c2 now1 now2 g w d1 d2 l1 l2 p gs e1 out,
  o_output_type o = OutJSON -> o_bler o = false ->
  Forall (fun x : Z * Group * N => o_timestamp o = false \/ g_has_time (snd (fst x)) = true) ((now1, g, w) :: gs) ->
  ch_which_channel c1 = ch_which_channel c2 ->
  processGroup env o now1 c1 g w = Ok (d1, l1) -> station_of c1 <> Some p -> station_of d1 = Some p ->
  processGroup env o now2 c2 g w = Ok (d2, l2) -> station_of c2 <> Some p -> station_of d2 = Some p ->
  run_groups env o d1 gs = Ok (e1, out) ->
  l1 = l2 /\ exists e2, run_groups env o d2 gs = Ok (e2, out).
Proof. exact no_leftovers. Qed.
Print Assumptions C17_no_leftovers.

Definition other_groups : list (Z * Group * N) :=
  repeat (0%Z, group4 0x1111 0x0408 0xE0E0 0x5858, 0) 4 ++ firstn 2 ps_groups.

Definition after_groups (gs : list (Z * Group * N)) : Channel :=
  match run_groups plain_host Options_default (Channel_new Options_default 0) gs with
  | Ok (c, _) => c | _ => Channel_new Options_default 0 end.

Example C17_case : let c1 := after_groups other_groups in let c2 := after_groups (firstn 2 ps_groups) in
  let g := group4 0x2204 0x040A 0xE0E0 0x4546 in
  station_of c1 = Some 0x1111 /\ station_of c2 = None /\
  match processGroup plain_host Options_default 0 c1 g 0, processGroup plain_host Options_default 0 c2 g 0 with
  | Ok (d1, Some l1), Ok (d2, Some l2) => station_of d1 = Some 0x2204 /\ station_of d2 = Some 0x2204
  | _, _ => False
  end.
Proof. vm_compute. repeat split. Qed.

(* --- C18 --- *)
Theorem C18_second_group_without_pi_not_printed : forall env o c gs x1 cs x2 c' out, o_output_type o = OutJSON ->
  run_groups env o c (gs ++ [x1] ++ cs ++ [x2]) = Ok (c', out) ->
  main x1 = true -> carried_pi x1 = None -> Forall (fun x => main x = false) cs -> main x2 = true -> carried_pi x2 = None ->
  exists out', out = (out' ++ [None])%list.
Proof. exact second_piless_silent. Qed.
Print Assumptions C18_second_group_without_pi_not_printed.

(* A printed group without PI follows a group with PI (groups of other data streams may lie between) *)
Theorem C18_group_without_pi_follows_one_with_pi : forall env o w0 gs x c out line, o_output_type o = OutJSON ->
  run_groups env o (Channel_new o w0) (gs ++ [x]) = Ok (c, out ++ [Some line])%list ->
  main x = true -> carried_pi x = None ->
  exists a y cs, gs = (a ++ [y] ++ cs)%list /\ main y = true /\ carried_pi y <> None /\ Forall (fun z => main z = false) cs.
Proof. exact piless_printed. Qed.
Print Assumptions C18_group_without_pi_follows_one_with_pi.

Theorem C18_empty_groups_not_printed : forall env o now c g w c' line, o_output_type o = OutJSON -> main (now, g, w) = true ->
  nothing_received g -> processGroup env o now c g w = Ok (c', line) -> line = None.
Proof. exact empty_silent. Qed.
Print Assumptions C18_empty_groups_not_printed.

Theorem C18_empty_groups_not_printed_as_hex : forall env o now c g w c' line, nothing_received g -> o_output_type o = OutHex ->
  processGroup env o now c g w = Ok (c', line) -> line = None.
Proof. exact empty_silent_hex. Qed.
Print Assumptions C18_empty_groups_not_printed_as_hex.

Example C18_case :
  let x := (0%Z, group24 0x0408 0x4142, 0) in
  main x = true /\ carried_pi x = None /\ nothing_received Group_default /\
  exists c line, run_groups plain_host Options_default (Channel_new Options_default 0) (ps_groups ++ [x; x]) = Ok (c, [None; None; Some line; Some (bs "{""pi"":""0x2204"",""group"":""0A"",""tp"":true,""prog_type"":""No PTY"",""di"":{""dynamic_pty"":false},""ta"":false,""is_music"":true}"); None]).
Proof. split; [reflexivity|]. split; [reflexivity|]. split; [repeat split|]. eexists. eexists. vm_compute. reflexivity. Qed.

(* --- C19 --- *)
Theorem C19_error_rate : forall env o w0 gs x c out line, host_ok env -> o_output_type o = OutJSON -> o_bler o = true ->
  Forall received_group (gs ++ [x]) ->
  run_groups env o (Channel_new o w0) (gs ++ [x]) = Ok (c, out ++ [Some line])%list ->
  only_error line \/ exists n, says_number line "bler" n /\ percentage (recently_bad (gs ++ [x])) n /\ n <= 100.
Proof. exact printed_bler. Qed.
Print Assumptions C19_error_rate.

Example C19_case : exists c line,
  run_groups plain_host (options_with false true) (Channel_new (options_with false true) 0) (ps_groups ++ [(0%Z, group24 0x0408 0x4142, 0)]) =
    Ok (c, [None; None; Some line; Some (bs "{""pi"":""0x2204"",""bler"":4,""group"":""0A"",""tp"":true,""prog_type"":""No PTY"",""di"":{""dynamic_pty"":false},""ta"":false,""is_music"":true}")]) /\
  percentage (recently_bad (ps_groups ++ [(0%Z, group24 0x0408 0x4142, 0)])) 4.
Proof. eexists. eexists. split; [vm_compute; reflexivity|]. vm_compute. split; congruence. Qed.

(* --- C20 --- *)
(* Demodulated input: whatever times the buffers carry, the times shown never decrease. *)
Theorem C20_demodulated_times_never_decrease : forall env o c calls c' lines, host_ok env -> o_output_type o = OutJSON -> o_timestamp o = true ->
  created o c -> Forall possible calls -> Forall (fun x => match x with Bits_in _ _ _ _ => True | _ => False end) calls ->
  session env o c calls = Ok (c', lines) ->
  exists ts, StronglySorted Z.le ts /\ Forall2 (fun t line => only_error line \/ says_time env o line t) ts lines.
Proof.
  intros env o c calls c' lines H OJ OT Cr Po B S.
  destruct (session_bits_times env o calls c c' lines H OJ OT (created_ok o c Cr) Po B S) as (ts & W & F).
  exists ts. split; [eapply within_sorted; exact W|exact F].
Qed.
Print Assumptions C20_demodulated_times_never_decrease.

(* Hex, TEF6686 and bit input: the times shown follow the system clock as long as it never goes back. *)
Theorem C20_group_times : forall env o w0 gs c out, host_ok env -> o_output_type o = OutJSON -> o_timestamp o = true ->
  Forall received_group gs -> Forall (fun x : Z * Group * N => g_has_time (snd (fst x)) = false) gs ->
  StronglySorted Z.le (0 :: map (fun x => fst (fst x)) gs)%Z ->
  run_groups env o (Channel_new o w0) gs = Ok (c, out) ->
  exists ts, StronglySorted Z.le ts /\ Forall2 (fun t line => only_error line \/ says_time env o line t) ts (printed out).
Proof.
  intros env o w0 gs c out H OJ OT R U S E.
  assert (W : exists b, within 0 (map (fun x : Z * Group * N => fst (fst x)) gs) b).
  { revert S. generalize 0%Z. generalize (map (fun x : Z * Group * N => fst (fst x)) gs). clear.
    induction l as [|x l IH]; intros a S; [exists a; cbn; lia|]. inversion S as [|? ? S1 F1]; subst. inversion F1; subst.
    destruct (IH x S1) as (b & W). exists b. split; assumption. }
  destruct W as (b & W). destruct (run_groups_times env o gs (Channel_new o w0) c out H OJ OT (channel_new_ok o w0) R U b W E) as (ts & W2 & F).
  exists ts. split; [eapply within_sorted; exact W2|exact F].
Qed.
Print Assumptions C20_group_times.

Example C20_group_case : StronglySorted Z.le (0 :: map (fun x => fst (fst x)) ps_groups)%Z /\
  Forall (fun x : Z * Group * N => g_has_time (snd (fst x)) = false) ps_groups.
Proof. split; repeat constructor; vm_compute; discriminate. Qed.

(* If the clock goes back twice the times shown decrease: clock 10, 5, 7 shows 10, 10, 7. *)
Theorem C20_clock_going_back_refuted : exists gs c l1 l2 l3, 
  Forall received_group gs /\
  run_groups plain_host (options_with true false) (Channel_new (options_with true false) 0) gs = Ok (c, [None; None; Some l1; Some l2; Some l3]) /\
  says l1 ["rx_time"] (VStr (bs "10")) /\ says l2 ["rx_time"] (VStr (bs "10")) /\ says l3 ["rx_time"] (VStr (bs "7")).
Proof.
  exists (ps_groups ++ [(5 * sec, group4 0x2204 0x0408 0xE0E0 0x4142, 0%N); (7 * sec, group4 0x2204 0x0408 0xE0E0 0x4142, 0%N)])%Z%list.
  do 4 eexists. split; [repeat constructor; vm_compute; reflexivity|]. split; [vm_compute; reflexivity|].
  repeat split; vm_compute; reflexivity.
Qed.
Print Assumptions C20_clock_going_back_refuted.

(* --- C21, C22 --- *)
Theorem C21_well_formed_lines : forall env o c calls, host_ok env -> created o c -> Forall possible calls -> o_output_type o = OutJSON ->
  exists c' lines, session env o c calls = Ok (c', lines) /\ Forall well_formed lines.
Proof. exact session_well_formed. Qed.
Print Assumptions C21_well_formed_lines.

Theorem C21_at_most_one_line_per_group : forall env o c gs, host_ok env -> created o c -> Forall received_group gs ->
  exists c' out, run_groups env o c gs = Ok (c', out) /\ length out = length gs.
Proof.
  intros env o c gs H Cr F. destruct (run_groups_good env o gs c (proj1 (host_env env H)) (created_ok o c Cr) (received_bler gs F)) as ([c' out] & E & _ & L).
  exists c', out. split; assumption.
Qed.
Print Assumptions C21_at_most_one_line_per_group.

Theorem C22_no_call_fails : forall env o c calls, host_ok env -> created o c -> Forall possible calls ->
  exists c' lines, session env o c calls = Ok (c', lines).
Proof.
  intros env o c calls H Cr Po. destruct (session_lines env o c calls H Cr Po) as (c' & lines & E & _). exists c', lines. exact E.
Qed.
Print Assumptions C22_no_call_fails.

Example C22_case : host_ok plain_host /\ created Options_default (Channel_new Options_default 0) /\
  Forall possible [Group_in 0 (group4 0x2204 0xE408 0xE0E0 0x4142) 0; Bits_in 0 0 [true; false] 3; Bit_in 7 true 2; Reset_pi; Flush 0].
Proof. split; [apply plain_host_ok|]. split; [left; exists 0; reflexivity|]. repeat constructor. Qed.

(* --- C30 --- *)
Lemma keys_absent : forall env o c calls c' lines (bad : string -> bool), host_ok env -> created o c -> Forall possible calls ->
  o_output_type o = OutJSON -> session env o c calls = Ok (c', lines) -> bad "debug" = false ->
  (forall g, g_has_bler g = o_bler o -> forallb (fun k => negb (bad k)) (line_keys o g) = true) ->
  forall line k, In line lines -> bad k = true -> lacks line k.
Proof.
  intros env o c calls c' lines bad H Cr Po OJ E Bd B line k I Bk. eapply session_lacks; try eassumption.
  - intros g Hg. unfold not_in. destruct (existsb (String.eqb k) (line_keys o g)) eqn:X; [|reflexivity]. exfalso.
    apply existsb_exists in X. destruct X as (k' & Ik & Ek). apply String.eqb_eq in Ek. subst k'.
    specialize (B g Hg). rewrite forallb_forall in B. specialize (B k Ik). rewrite Bk in B. discriminate.
  - intros ->. congruence.
Qed.

Ltac split_keys := rewrite ?andb_true_iff; repeat match goal with |- _ /\ _ => split end;
  repeat match goal with |- context [if ?b then _ else _] => destruct b end; reflexivity.

Ltac absent_by H := eapply keys_absent; try eassumption; try reflexivity;
  intros g Hg; unfold line_keys, header_keys, decoder_keys; rewrite ?Hg; rewrite ?H; rewrite !forallb_app; split_keys.

Theorem C30_partial_only_on_request : forall env o c calls c' lines, host_ok env -> created o c -> Forall possible calls ->
  o_output_type o = OutJSON -> session env o c calls = Ok (c', lines) -> o_show_partial o = false ->
  forall line k, In line lines -> String.prefix "partial_" k = true -> lacks line k.
Proof. intros env o c calls c' lines H Cr Po OJ E Hp line k. absent_by Hp. Qed.
Print Assumptions C30_partial_only_on_request.

Theorem C30_fields_only_on_request : forall env o c calls c' lines line, host_ok env -> created o c -> Forall possible calls ->
  o_output_type o = OutJSON -> session env o c calls = Ok (c', lines) -> In line lines ->
  (o_bler o = false -> lacks line "bler") /\ (o_show_raw o = false -> lacks line "raw_data") /\
  (o_timestamp o = false -> lacks line "rx_time") /\ (o_streams o = false -> lacks line "stream") /\
  (o_rbds o = false -> lacks line "callsign" /\ lacks line "callsign_uncertain") /\
  (o_num_channels o <= 1 -> lacks line "channel").
Proof.
  intros env o c calls c' lines line H Cr Po OJ E I.
  split; [intros Hp; apply (keys_absent env o c calls c' lines (String.eqb "bler") H Cr Po OJ E eq_refl); [|exact I|reflexivity]|].
  { intros g Hg. unfold line_keys, header_keys, decoder_keys. rewrite Hg, Hp. rewrite !forallb_app. split_keys. }
  split; [intros Hp; apply (keys_absent env o c calls c' lines (String.eqb "raw_data") H Cr Po OJ E eq_refl); [|exact I|reflexivity]|].
  { intros g Hg. unfold line_keys, header_keys, decoder_keys. rewrite Hp. rewrite !forallb_app. split_keys. }
  split; [intros Hp; apply (keys_absent env o c calls c' lines (String.eqb "rx_time") H Cr Po OJ E eq_refl); [|exact I|reflexivity]|].
  { intros g Hg. unfold line_keys, header_keys, decoder_keys. rewrite Hp. rewrite !forallb_app. split_keys. }
  split; [intros Hp; apply (keys_absent env o c calls c' lines (String.eqb "stream") H Cr Po OJ E eq_refl); [|exact I|reflexivity]|].
  { intros g Hg. unfold line_keys, header_keys, decoder_keys. rewrite Hp. rewrite !forallb_app. split_keys. }
  assert (X : forall g, o_rbds o = false -> forallb (fun k => negb (String.prefix "callsign" k)) (line_keys o g) = true).
  { intros g Hp. unfold line_keys, header_keys, decoder_keys. rewrite Hp. rewrite !forallb_app. split_keys. }
  split.
  - intros Hp. split; apply (keys_absent env o c calls c' lines (String.prefix "callsign") H Cr Po OJ E eq_refl); try exact I; try reflexivity;
      intros g _; apply X; exact Hp.
  - intros Hp. apply (keys_absent env o c calls c' lines (String.eqb "channel") H Cr Po OJ E eq_refl); [|exact I|reflexivity].
    intros g Hg. unfold line_keys, header_keys, decoder_keys. replace (1 <? o_num_channels o) with false by (symmetry; apply N.ltb_ge; exact Hp).
    rewrite !forallb_app. split_keys.
Qed.
Print Assumptions C30_fields_only_on_request.

(* --- C34 --- *)
Theorem C34_clock_time : forall env o now c g day hour minute west units c' line, host_ok env -> host_text env -> plain_clock env ->
  o_output_type o = OutJSON -> reachable env o c -> g_has_bler g = false -> is_type g 4 VA -> carries_clock g day hour minute west units ->
  processGroup env o now c g 0 = Ok (c', Some line) ->
  15079 <= day <= 88127 -> hour <= 23 -> minute <= 59 -> units <= 29 ->
  says line ["clock_time"] (VStr (iso_local
    (Z.of_N day * 1440 + Z.of_N hour * 60 + Z.of_N minute + half_hours west units * 30) (half_hours west units))).
Proof. exact clock_line. Qed.
Print Assumptions C34_clock_time.

Theorem C34_invalid_times_reported : forall env o now c g day hour minute west units c' line, host_ok env -> host_text env ->
  o_output_type o = OutJSON -> reachable env o c -> g_has_bler g = false -> is_type g 4 VA -> carries_clock g day hour minute west units ->
  processGroup env o now c g 0 = Ok (c', Some line) ->
  day < 15079 \/ 24 <= hour \/ 60 <= minute \/ 30 <= units ->
  lacks line "clock_time" /\ says line ["debug"] (VArr [VStr (bs "invalid date/time")]).
Proof. exact clock_invalid_line. Qed.
Print Assumptions C34_invalid_times_reported.

Lemma plain_host_utf8 : host_text plain_host.
Proof.
  destruct plain_host_txt as (A & B & C). split; [apply Utf8P.valid_is_utf8; exact A|]. split.
  - intros f t s H. apply Utf8P.valid_is_utf8. apply (B f t s H).
  - repeat split; intros; discriminate.
Qed.

(* 2024-01-28 12:34 UTC, one hour east *)
Example C34_case : exists c c' lines,
  session plain_host Options_default (Channel_new Options_default 0) (map (fun x => Group_in (fst (fst x)) (snd (fst x)) (snd x)) ps_groups) = Ok (c, lines) /\
  carries_clock (group4 0x2204 0x4401 0xD762 0xC882) 60337 12 34 false 2 /\ is_type (group4 0x2204 0x4401 0xD762 0xC882) 4 VA /\
  processGroup plain_host Options_default 0 c (group4 0x2204 0x4401 0xD762 0xC882) 0 = Ok (c', Some
    (bs "{""pi"":""0x2204"",""group"":""4A"",""tp"":true,""prog_type"":""No PTY"",""clock_time"":""2024-01-28T13:34:00+01:00""}")).
Proof.
  do 3 eexists. split; [vm_compute; reflexivity|]. split; [unfold carries_clock; repeat split; vm_compute; reflexivity|].
  split; [split; reflexivity|]. vm_compute. reflexivity.
Qed.

(* From March 2100 on the date formula is one day behind: day 88129 is 2 March 2100. *)
Theorem C34_after_2100_refuted : exists g c c' line,
  reachable plain_host Options_default c /\ is_type g 4 VA /\ carries_clock g 88129 12 34 false 2 /\
  date_of_mjd 88129 = (2100, 3, 2)%Z /\
  processGroup plain_host Options_default 0 c g 0 = Ok (c', Some line) /\
  says line ["clock_time"] (VStr (bs "2100-03-01T13:34:00+01:00")).
Proof.
  exists (group4 0x2204 0x4402 0xB082 0xC882), (after_groups ps_groups). eexists. eexists.
  split. { exists (Channel_new Options_default 0), (map (fun x => Group_in (fst (fst x)) (snd (fst x)) (snd x)) ps_groups). eexists.
    split; [left; exists 0; reflexivity|]. split; [repeat constructor|]. vm_compute. reflexivity. }
  split; [split; reflexivity|]. split; [unfold carries_clock; repeat split; vm_compute; reflexivity|].
  split; [vm_compute; reflexivity|]. split.
  - vm_compute. reflexivity.
  - vm_compute. reflexivity.
Qed.
Print Assumptions C34_after_2100_refuted.

(* --- C56 --- *)
(* The synchronisation state of a data stream is that of its own bits alone. *)
Theorem C56_streams_isolated : forall env o c calls c' lines w, created o c -> Forall possible calls ->
  session env o c calls = Ok (c', lines) -> w < 4 ->
  nth_error (ch_block_stream c') (N.to_nat w) = Some (fst (bst_run (BlockStream_init (o_use_fec o)) (on_stream w (fed calls)))).
Proof.
  intros env o c calls c' lines w Cr Po E Hw.
  assert (L : length (ch_block_stream c) = 4%nat /\ stream_state c w = Some (BlockStream_init (o_use_fec o))).
  { destruct Cr as [(w0 & ->)|(pi & ->)]; (split; [reflexivity|]); unfold stream_state; cbn [ch_block_stream Channel_new Channel_new_pi];
      assert (X : (N.to_nat w < 4)%nat) by lia; destruct (N.to_nat w) as [|[|[|[|n]]]]; try reflexivity; lia. }
  destruct L as [L S]. pose proof (session_streams env o calls c c' lines Po L E w) as T. rewrite S in T. exact T.
Qed.
Print Assumptions C56_streams_isolated.
