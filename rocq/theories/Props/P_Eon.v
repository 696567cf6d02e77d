(* C80: names and frequency lists of other networks (groups 14A). *)
From Verif.Model Require Import Base Util Group Options Tables Json Freq RdsString Tmc Station Channel.
From Verif.Spec Require Import Numerals Frequencies Unicode JsonText Session Identity History Quality Texts Networks Host Cases.
From Verif.Proofs Require Import Tac Numerals TextP UpdateP SessionP ChannelP HostP StringP PsP AfP EonP.
From Verif.Props Require Import P_Channel P_Radiotext.

Local Open Scope string_scope.
Local Open Scope N_scope.
Local Open Scope list_scope.

(* --- C80 --- *)
(* A name of another network that is shown consists of the characters most recently received at its
   positions for this one network, without gaps. *)
Theorem C80_complete_name : forall env o w0 gs now g w c out line v,
  host_ok env -> o_output_type o = OutJSON -> Forall received_group (gs ++ [(now, g, w)]) ->
  run_groups env o (Channel_new o w0) (gs ++ [(now, g, w)]) = Ok (c, out ++ [Some line]) -> says line ["other_network"; "ps"] v ->
  exists net l, name_of net (g, w) <> [] /\
    complete_text 8 (flat_map (name_of net) (decoded_in (gs ++ [(now, g, w)]) (out ++ [Some line]))) l /\ v = VStr (rds_text l).
Proof. exact eon_name_complete. Qed.
Print Assumptions C80_complete_name.

(* The frequencies shown for another network are all those received for it since its last count
   code, and as many as announced. *)
Theorem C80_complete_frequencies : forall env o w0 gs now g w c out line v,
  host_ok env -> o_output_type o = OutJSON -> Forall received_group (gs ++ [(now, g, w)]) ->
  run_groups env o (Channel_new o w0) (gs ++ [(now, g, w)]) = Ok (c, out ++ [Some line]) -> says line ["other_network"; "alt_frequencies"] v ->
  exists net freqs, frequencies_of net (g, w) <> [] /\ numbers v freqs /\
    since_count (codes_of (flat_map (frequencies_of net) (decoded_in (gs ++ [(now, g, w)]) (out ++ [Some line])))) (N.of_nat (length freqs)) freqs.
Proof. exact eon_freqs_sound. Qed.
Print Assumptions C80_complete_frequencies.

(* gs0 is any history after which station p is confirmed; gs1 ++ [g] is anything of the same station
   in which the last characters received of the name of network net are the eight of l, in order,
   whatever is received of other networks in between. *)
Theorem C80_name_received_is_shown : forall env o w0 gs0 gs1 now g w c out p net l earlier,
  host_ok env -> host_text env -> o_output_type o = OutJSON ->
  let gs := gs1 ++ [(now, g, w)] in
  Forall received_group (gs0 ++ gs) -> p <> 0 -> three p (pis gs0) -> Forall (stays p) gs ->
  Forall (fun x => name_of net (snd (fst x), snd x) <> [] -> carried_pi x = Some p) gs ->
  name_of net (g, w) <> [] ->
  flat_map (name_of net) (groups_of gs) = earlier ++ place 0 l -> length l = 8%nat -> ~ In end_of_text l ->
  run_groups env o (Channel_new o w0) (gs0 ++ gs) = Ok (c, out) ->
  exists out' line, out = out' ++ [Some line] /\ says line ["other_network"; "ps"] (VStr (rds_text l)).
Proof. exact eon_name_shown. Qed.
Print Assumptions C80_name_received_is_shown.

(* The same for a list of frequencies *)
Theorem C80_frequencies_received_are_shown : forall env o w0 gs0 gs1 now g w c out p net earlier evs c1 c2 fs,
  host_ok env -> host_text env -> o_output_type o = OutJSON ->
  let gs := gs1 ++ [(now, g, w)] in
  Forall received_group (gs0 ++ gs) -> p <> 0 -> three p (pis gs0) -> Forall (stays p) gs ->
  Forall (fun x => frequencies_of net (snd (fst x), snd x) <> [] -> carried_pi x = Some p) gs ->
  frequencies_of net (g, w) <> [] ->
  flat_map (frequencies_of net) (groups_of gs) = earlier ++ evs ++ [AfCodes c1 c2] ->
  af_transmission fs (codes_of (evs ++ [AfCodes c1 c2])) -> c1 <> filler \/ c2 <> filler ->
  run_groups env o (Channel_new o w0) (gs0 ++ gs) = Ok (c, out) ->
  exists out' line, out = out' ++ [Some line] /\ shows_numbers line ["other_network"; "alt_frequencies"] (map freq_kHz fs).
Proof. exact eon_freqs_shown. Qed.
Print Assumptions C80_frequencies_received_are_shown.

(* Two networks, 2205 and 2206, are described in turn; the name of 2205 is "RADIO 2 " *)
Definition names_of_two : list (Z * Group * N) :=
  at_times 11 [rt2 0xE400 0x5241 0x2205; rt2 0xE400 0x4E45 0x2206; rt2 0xE401 0x4449 0x2205; rt2 0xE401 0x5753 0x2206;
    rt2 0x2400 0x4142 0x4344; rt2 0xE402 0x4F20 0x2205; rt2 0xE403 0x2020 0x2206; rt2 0xE403 0x3220 0x2205].
Example C80_name_case : Forall received_group (ps_groups ++ names_of_two) /\ three 0x2204 (pis ps_groups) /\ Forall (stays 0x2204) names_of_two /\
  Forall (fun x => name_of 0x2205 (snd (fst x), snd x) <> [] -> carried_pi x = Some 0x2204) names_of_two /\
  flat_map (name_of 0x2205) (groups_of names_of_two) = [] ++ place 0 (bs "RADIO 2 ") /\
  exists line, last_line Options_default (ps_groups ++ names_of_two) = Some line /\ says line ["other_network"; "ps"] (VStr (bs "RADIO 2 ")).
Proof.
  split; [repeat constructor; reflexivity|]. split; [exists []; reflexivity|]. split; [repeat constructor; left; reflexivity|].
  split; [repeat constructor; intros _; reflexivity|]. split; [reflexivity|].
  eexists. split; [vm_compute; reflexivity|]. vm_compute. reflexivity.
Qed.
(* Its frequencies are 88.1 MHz, 198 kHz (LF) and 99.0 MHz, sent between those of network 2206 *)
Definition lists_of_two : list (Z * Group * N) :=
  at_times 11 [rt2 0xE404 (228 * 256 + 50) 0x2205; rt2 0xE404 (227 * 256 + 6) 0x2205; rt2 0xE404 (226 * 256 + 9) 0x2206;
    rt2 0xE404 (250 * 256 + 6) 0x2205; rt2 0xE404 (10 * 256 + 205) 0x2206; rt2 0xE404 (205 * 256 + 115) 0x2205].
Definition fs_two : list tx_freq := [TxFM 6; TxLFMF 6; TxFM 115].
Example C80_frequencies_case : Forall received_group (ps_groups ++ lists_of_two) /\ Forall (stays 0x2204) lists_of_two /\
  Forall (fun x => frequencies_of 0x2205 (snd (fst x), snd x) <> [] -> carried_pi x = Some 0x2204) lists_of_two /\
  flat_map (frequencies_of 0x2205) (groups_of lists_of_two) = [AfCodes 228 50] ++ [AfCodes 227 6; AfCodes 250 6] ++ [AfCodes 205 115] /\
  af_transmission fs_two (codes_of ([AfCodes 227 6; AfCodes 250 6] ++ [AfCodes 205 115])) /\
  exists line, last_line Options_default (ps_groups ++ lists_of_two) = Some line /\
    says line ["other_network"; "alt_frequencies"] (VArr [VNum (bs "88100"); VNum (bs "198"); VNum (bs "99000")]).
Proof.
  split; [repeat constructor; reflexivity|]. split; [repeat constructor; left; reflexivity|].
  split; [repeat constructor; intros _; reflexivity|]. split; [reflexivity|].
  split; [split; [cbn; lia|split; [cbn; lia|]]; eexists; split; [reflexivity|]|].
  - apply (listed_freq (TxFM 6)); [cbn; lia|]. apply (listed_freq (TxLFMF 6)); [cbn; lia|]. apply listed_filler. apply (listed_freq (TxFM 115)); [cbn; lia|]. constructor.
  - eexists. split; [vm_compute; reflexivity|]. vm_compute. reflexivity.
Qed.
