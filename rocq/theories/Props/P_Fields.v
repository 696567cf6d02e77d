(* C31, C35, C36, C62: carrier frequencies, programme items, call signs, and what every line says. *)
From Verif.Model Require Import Base Util Float Group Options Json Freq Tmc Tables Station Channel.
From Verif.Spec Require Import Numerals Frequencies JsonText Session Identity Quality Fields Host Cases.
From Verif.Proofs Require Import Tac Numerals FreqP HostP ChannelP FieldsP.
From Verif.Props Require Import P_Channel P_Text.

Local Open Scope string_scope.
Local Open Scope N_scope.
Local Open Scope list_scope.

(* --- C31 --- *)
Theorem C31_frequencies : forall f, tx_freq_ok f ->
  let c := match f with TxFM c => mkFreq c FM | TxLFMF c => mkFreq c LF_MF end in
  cf_isValid c = true /\ cf_kHz c = freq_kHz f /\
  cf_str c = match f with
             | TxFM _ => dec_string (freq_kHz f / 1000) ++ bs "." ++ dec_string ((freq_kHz f / 100) mod 10) ++ bs " MHz"
             | TxLFMF _ => dec_string (freq_kHz f) ++ bs " kHz"
             end.
Proof.
  intros f K. pose proof (proj1 (freq_of_ok f) K) as V. pose proof (kHz_of f K) as H. destruct f as [c|c]; cbv zeta; (split; [exact V|]; split; [exact H|]).
  - destruct K as [K1 K2]. rewrite fm_text by assumption. cbn [freq_kHz]. f_equal; [f_equal|].
    + replace (87600 + 100 * (c - 1)) with ((875 + c) * 100) by lia. replace 1000 with (10 * 100) by reflexivity. rewrite N.div_mul_cancel_r by lia. reflexivity.
    + assert (E : (87600 + 100 * (c - 1)) / 100 = 875 + c) by (replace (87600 + 100 * (c - 1)) with ((875 + c) * 100) by lia; apply N.div_mul; lia). rewrite E.
      assert (D : forall d, d < 10 -> dec_string d = [48 + d]).
      { intros d Hd. assert (X : In d (nseq 0 10)) by (apply nseq_In; cbn; lia). assert (S : forallb (fun d => bytes_eqb (dec_string d) [48 + d]) (nseq 0 10) = true) by (vm_compute; reflexivity).
        rewrite forallb_forall in S. apply bytes_eqb_eq. exact (S d X). }
      rewrite D by (apply N.mod_lt; lia). reflexivity.
  - destruct K as [K1 K2]. apply lf_text; assumption.
Qed.
Print Assumptions C31_frequencies.

Theorem C31_other_codes_are_invalid : forall c,
  (cf_isValid (mkFreq c FM) = true <-> 1 <= c <= 204) /\ (cf_isValid (mkFreq c LF_MF) = true <-> 1 <= c <= 135) /\
  (forall f, cf_isValid f = false -> cf_kHz f = 0 /\ cf_str f = bs "N/A").
Proof. intros c. split; [apply fm_valid|]. split; [apply lf_valid|]. exact invalid_text. Qed.
Print Assumptions C31_other_codes_are_invalid.

Theorem C31_different_codes : forall f g, tx_freq_ok f -> tx_freq_ok g -> freq_kHz f = freq_kHz g -> f = g.
Proof. exact kHz_distinct. Qed.
Print Assumptions C31_different_codes.

Example C31_case : cf_str (mkFreq 1 FM) = bs "87.6 MHz" /\ cf_str (mkFreq 204 FM) = bs "107.9 MHz" /\ cf_str (mkFreq 205 FM) = bs "N/A" /\
  cf_str (mkFreq 15 LF_MF) = bs "279 kHz" /\ cf_str (mkFreq 16 LF_MF) = bs "531 kHz" /\ cf_str (mkFreq 135 LF_MF) = bs "1602 kHz".
Proof. repeat split; vm_compute; reflexivity. Qed.

(* --- C35 --- *)
Theorem C35_programme_item : forall env o now c g v c' line day hour minute, host_ok env -> host_text env ->
  o_output_type o = OutJSON -> reachable env o c -> g_has_bler g = false ->
  is_type g 1 v -> v <> VC -> processGroup env o now c g 0 = Ok (c', Some line) ->
  blk_is_received (g_b3 g) = true -> blk_is_received (g_b4 g) = true -> blk_data (g_b4 g) = pin_of day hour minute ->
  1 <= day <= 31 -> hour <= 23 -> minute <= 59 ->
  says_number line "prog_item_number" (pin_of day hour minute) /\
  (exists t, says line ["prog_item_started"; "day"] (VNum t) /\ numeral 10 t = Some day) /\
  says line ["prog_item_started"; "time"] (VStr (time_of_day hour minute)).
Proof. exact pin_line. Qed.
Print Assumptions C35_programme_item.

(* Nothing is shown if the day is 0, the hour is more than 24 or the minute more than 59. *)
Theorem C35_invalid_programme_item : forall env o now c g v c' line day hour minute, host_ok env -> host_text env ->
  o_output_type o = OutJSON -> reachable env o c -> g_has_bler g = false ->
  is_type g 1 v -> v <> VC -> processGroup env o now c g 0 = Ok (c', Some line) ->
  blk_is_received (g_b3 g) = true -> blk_is_received (g_b4 g) = true -> blk_data (g_b4 g) = pin_of day hour minute ->
  day <= 31 -> hour <= 31 -> minute <= 63 -> day = 0 \/ 24 < hour \/ 59 < minute ->
  lacks line "prog_item_number" /\ lacks line "prog_item_started".
Proof. exact pin_invalid. Qed.
Print Assumptions C35_invalid_programme_item.

(* The line printed for one more 1A group after the transmission [ps_groups] *)
Definition line_after (b2 b3 b4 : N) : option bytes :=
  match run_groups plain_host Options_default (Channel_new Options_default 0) (ps_groups ++ [(11 * sec, group4 0x2204 b2 b3 b4, 0%N)%Z]) with
  | Ok (_, out) => last out None
  | _ => None
  end.
Example C35_case : is_type (group4 0x2204 0x1400 0 (pin_of 5 20 15)) 1 VA /\
  line_after 0x1400 0 (pin_of 5 20 15) =
  Some (bs "{""pi"":""0x2204"",""group"":""1A"",""tp"":true,""prog_type"":""No PTY"",""prog_item_number"":11535,""prog_item_started"":{""day"":5,""time"":""20:15""},""has_linkage"":false}").
Proof. split; vm_compute; try reflexivity; auto. Qed.

(* An hour of 24 is shown, although there is no such time of day. *)
Theorem C35_hour_24_refuted : exists line, line_after 0x1400 0 (pin_of 5 24 15) = Some line /\
  says line ["prog_item_started"; "time"] (VStr (bs "24:15")).
Proof. eexists. split; [vm_compute; reflexivity|]. vm_compute. reflexivity. Qed.
Print Assumptions C35_hour_24_refuted.

(* --- C36 --- *)
(* On every line for a station whose PI code is that of a call sign the call sign is shown; as
   uncertain if the code starts with 1, where codes of local stations may overlap. *)
Theorem C36_callsign : forall env o w0 gs now g w c out line p lw la lb lc, host_ok env -> o_output_type o = OutJSON -> o_rbds o = true ->
  Forall received_group (gs ++ [(now, g, w)]) -> main (now, g, w) = true ->
  run_groups env o (Channel_new o w0) (gs ++ [(now, g, w)]) = Ok (c, out ++ [Some line]) ->
  station_of c = Some p -> p = callsign_pi lw la lb lc -> la < 26 -> lb < 26 -> lc < 26 ->
  only_error line \/ says line [if p / 4096 =? 1 then "callsign_uncertain" else "callsign"] (VStr (callsign_text lw la lb lc)).
Proof. exact callsign_line. Qed.
Print Assumptions C36_callsign.

Definition rbds_options : Options :=
  mkOptions true false false false false false false false false true false false true true
    (S754_zero false) 2 MPX_stdin OutJSON [] [] [].
Definition line_of (p : N) : option bytes :=
  match run_groups plain_host rbds_options (Channel_new rbds_options 1) (repeat (0%Z, group4 p 0x25A8 0xE0E0 0x4142, 0%N) 3) with
  | Ok (_, out) => last out None
  | _ => None
  end.
(* WKLB: 21672 + 10 * 676 + 11 * 26 + 1 = 28719 = 702F hexadecimal, transmitted as A72F *)
Example C36_case : callsign_text true 10 11 1 = bs "WKLB" /\ callsign_pi true 10 11 1 = 0xA72F /\
  line_of 0xA72F =
  Some (bs "{""stream"":0,""pi"":""0xA72F"",""callsign"":""WKLB"",""channel"":1,""raw_data"":""A72F 25A8 E0E0 4142"",""group"":""2A"",""tp"":true,""prog_type"":""Nostalgia""}").
Proof. repeat split; vm_compute; reflexivity. Qed.

(* --- C62 --- *)
Theorem C62_what_every_line_says : forall env o w0 gs now g w c out line, host_ok env -> o_output_type o = OutJSON ->
  Forall received_group (gs ++ [(now, g, w)]) ->
  run_groups env o (Channel_new o w0) (gs ++ [(now, g, w)]) = Ok (c, out ++ [Some line]) ->
  only_error line \/
  ((o_streams o = true -> says_number line "stream" w) /\
   (1 < o_num_channels o -> says_number line "channel" w0) /\
   (o_show_raw o = true -> exists t, says line ["raw_data"] (VStr t) /\ raw_text g t) /\
   (main (now, g, w) = false -> says line ["group"] (VStr (bs "C"))) /\
   (main (now, g, w) = true -> blk_is_received (g_b2 g) = true ->
      let b2 := blk_data (g_b2 g) in
      says line ["tp"] (VBool (N.testbit b2 10)) /\ says line ["prog_type"] (VStr (programme_type (o_rbds o) ((b2 / 2 ^ 5) mod 2 ^ 5))) /\
      forall n v, is_type g n v -> says line ["group"] (VStr (dec_string n ++ bs (match v with VA => "A" | _ => "B" end))))).
Proof. exact header_line. Qed.
Print Assumptions C62_what_every_line_says.

(* See also C36_case. *)
Example C62_case : match line_of 0xA72F with
  | Some line => says_number line "channel" 1 /\ says line ["prog_type"] (VStr (programme_type true 13)) /\ says line ["tp"] (VBool true)
  | None => False
  end.
Proof. vm_compute. repeat split. eexists. split; reflexivity. Qed.
