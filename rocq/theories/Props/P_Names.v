(* C24, C65: the programme type name and the long programme service name; enhanced RadioText. *)
From Verif.Model Require Import Base Util Group Options Tables Json RdsString Tmc Station Channel.
From Verif.Spec Require Import Unicode JsonText Session Identity History Quality Texts Host Cases.
From Verif.Proofs Require Import Tac Numerals TextP UpdateP SessionP ChannelP HostP StringP PsP RtP PnP LpsP.
From Verif.Props Require Import P_Channel P_Radiotext.

Local Open Scope string_scope.
Local Open Scope N_scope.
Local Open Scope list_scope.

(* --- C24 --- *)
(* A programme type name that is shown consists of the bytes most recently received at its positions
   since the A/B flag last changed, without gaps. *)
Theorem C24_complete_pty_name : forall env o w0 gs now g w c out line v,
  host_ok env -> o_output_type o = OutJSON -> Forall received_group (gs ++ [(now, g, w)]) ->
  run_groups env o (Channel_new o w0) (gs ++ [(now, g, w)]) = Ok (c, out ++ [Some line]) -> says line ["pty_name"] v ->
  exists earlier msg l f, flat_map pn_segment (decoded_in (gs ++ [(now, g, w)]) (out ++ [Some line])) = earlier ++ msg /\
    uniform f VA msg /\ complete_text 8 (part_writes msg) l /\ v = VStr (rds_text l).
Proof. exact pn_complete. Qed.
Print Assumptions C24_complete_pty_name.

(* The same for the long programme service name, a UTF-8 text of up to 32 bytes *)
Theorem C24_complete_long_name : forall env o w0 gs now g w c out line v,
  host_ok env -> o_output_type o = OutJSON -> Forall received_group (gs ++ [(now, g, w)]) ->
  run_groups env o (Channel_new o w0) (gs ++ [(now, g, w)]) = Ok (c, out ++ [Some line]) -> says line ["long_ps"] v ->
  exists l s, complete_text 32 (flat_map long_segment (decoded_in (gs ++ [(now, g, w)]) (out ++ [Some line]))) l /\
    v = VStr s /\ trimmed (map visible l) s.
Proof. exact lps_complete. Qed.
Print Assumptions C24_complete_long_name.

(* --- C65 --- *)
(* gs0 is any history after which station p is confirmed; gs1 ++ [g] is anything of the same station
   whose last two type name parts, the last of them in group g, are the two halves of a name. *)
Theorem C65_type_name_received_is_shown : forall env o w0 gs0 gs1 now g w c out p f earlier n0 n1 n2 n3 n4 n5 n6 n7,
  host_ok env -> host_text env -> o_output_type o = OutJSON ->
  let gs := gs1 ++ [(now, g, w)] in
  Forall received_group (gs0 ++ gs) -> p <> 0 -> three p (pis gs0) -> Forall (stays p) gs ->
  Forall (fun x => pn_segment (snd (fst x), snd x) <> [] -> carried_pi x = Some p) gs ->
  pn_segment (g, w) <> [] ->
  flat_map pn_segment (groups_of gs) = earlier ++ [mkPart f VA 0 [n0; n1; n2; n3]; mkPart f VA 4 [n4; n5; n6; n7]] ->
  ~ In end_of_text [n0; n1; n2; n3; n4; n5; n6; n7] ->
  run_groups env o (Channel_new o w0) (gs0 ++ gs) = Ok (c, out) ->
  exists out' line, out = out' ++ [Some line] /\ says line ["pty_name"] (VStr (rds_text [n0; n1; n2; n3; n4; n5; n6; n7])).
Proof. exact pn_round_trip. Qed.
Print Assumptions C65_type_name_received_is_shown.

(* The bytes l received last, in order, are a UTF-8 text followed by an end mark, or fill all 32
   places *)
Theorem C65_long_name_received_is_shown : forall env o w0 gs0 gs1 now g w c out p cs l earlier,
  host_ok env -> host_text env -> o_output_type o = OutJSON ->
  let gs := gs1 ++ [(now, g, w)] in
  Forall received_group (gs0 ++ gs) -> p <> 0 -> three p (pis gs0) -> Forall (stays p) gs ->
  Forall (fun x => long_segment (snd (fst x), snd x) <> [] -> carried_pi x = Some p) gs ->
  long_segment (g, w) <> [] -> not_announced (mkGroupType 15 VA) (groups_of (gs0 ++ gs)) ->
  flat_map long_segment (groups_of gs) = earlier ++ place 0 l ->
  Forall scalar cs -> ~ In 0 cs -> ~ In end_of_text cs ->
  (exists r, l = utf8_text cs ++ end_of_text :: r) \/ (l = utf8_text cs /\ length l = 32%nat) ->
  run_groups env o (Channel_new o w0) (gs0 ++ gs) = Ok (c, out) ->
  exists out' line s, out = out' ++ [Some line] /\ says line ["long_ps"] (VStr s) /\ trimmed (utf8_text cs) s.
Proof. exact lps_round_trip. Qed.
Print Assumptions C65_long_name_received_is_shown.

(* "JAZZ LIV" with the flag changing before; "Hör" with an end mark *)
Definition type_name : list (Z * Group * N) :=
  at_times 11 [rt2 0xA401 0x5858 0x5858; rt2 0xA410 0x4A41 0x5A5A; rt2 0x0408 0xE0E0 0x4142; rt2 0xA411 0x204C 0x4956].
Example C65_type_name_case : Forall received_group (ps_groups ++ type_name) /\ three 0x2204 (pis ps_groups) /\ Forall (stays 0x2204) type_name /\
  Forall (fun x => pn_segment (snd (fst x), snd x) <> [] -> carried_pi x = Some 0x2204) type_name /\
  flat_map pn_segment (groups_of type_name) = [mkPart false VA 4 (bs "XXXX")] ++ [mkPart true VA 0 (bs "JAZZ"); mkPart true VA 4 (bs " LIV")] /\
  exists line, last_line Options_default (ps_groups ++ type_name) = Some line /\ says line ["pty_name"] (VStr (bs "JAZZ LIV")).
Proof.
  split; [repeat constructor; reflexivity|]. split; [exists []; reflexivity|]. split; [repeat constructor; left; reflexivity|].
  split; [repeat constructor; intros _; reflexivity|]. split; [reflexivity|].
  eexists. split; [vm_compute; reflexivity|]. vm_compute. reflexivity.
Qed.
Definition long_name : list (Z * Group * N) :=
  at_times 11 [rt2 0xF403 0x5858 0x5858; rt2 0xF400 0x48C3 0xB672; rt2 0x0408 0xE0E0 0x4142; rt2 0xF401 0x200D 0x2020].
Example C65_long_name_case : Forall received_group (ps_groups ++ long_name) /\ three 0x2204 (pis ps_groups) /\ Forall (stays 0x2204) long_name /\
  Forall (fun x => long_segment (snd (fst x), snd x) <> [] -> carried_pi x = Some 0x2204) long_name /\
  not_announced (mkGroupType 15 VA) (groups_of (ps_groups ++ long_name)) /\
  flat_map long_segment (groups_of long_name) = place 12 (bs "XXXX") ++ place 0 (utf8_text [72; 0xF6; 114; 32] ++ end_of_text :: [32; 32]) /\
  exists line, last_line Options_default (ps_groups ++ long_name) = Some line /\ says line ["long_ps"] (VStr (utf8_text [72; 0xF6; 114])).
Proof.
  split; [repeat constructor; reflexivity|]. split; [exists []; reflexivity|]. split; [repeat constructor; left; reflexivity|].
  split; [repeat constructor; intros _; reflexivity|]. split; [intros a []|]. split; [reflexivity|].
  eexists. split; [vm_compute; reflexivity|]. vm_compute. reflexivity.
Qed.
Example C24_complete_case : (exists c out line, let gs := ps_groups ++ type_name in
    run_groups plain_host Options_default (Channel_new Options_default 0) gs = Ok (c, out ++ [Some line]) /\ says line ["pty_name"] (VStr (bs "JAZZ LIV"))) /\
  (exists c out line, let gs := ps_groups ++ long_name in
    run_groups plain_host Options_default (Channel_new Options_default 0) gs = Ok (c, out ++ [Some line]) /\ says line ["long_ps"] (VStr (utf8_text [72; 0xF6; 114]))).
Proof.
  split.
  - exists (fst (final Options_default (ps_groups ++ type_name))), (snd (final Options_default (ps_groups ++ type_name))), (the_line Options_default (ps_groups ++ type_name)).
    split; vm_compute; reflexivity.
  - exists (fst (final Options_default (ps_groups ++ long_name))), (snd (final Options_default (ps_groups ++ long_name))), (the_line Options_default (ps_groups ++ long_name)).
    split; vm_compute; reflexivity.
Qed.

(* Enhanced RadioText is shown as complete although its first characters were never received: an
   11A group announced for it arrives without its third block. *)
Definition without_block3 (b1 b2 b4 : N) : Group :=
  g_setBlock (g_setBlock (g_setBlock Group_default BLOCK1 (rx OffA b1)) BLOCK2 (rx OffB b2)) BLOCK4 (rx OffD b4).
Definition enhanced : list (Z * Group * N) :=
  at_times 11 [rt2 0x3416 0x0001 0x6552; without_block3 0x2204 0xB400 0x410D].
Theorem C24_enhanced_radiotext_refuted : exists gs c out line,
  run_groups plain_host Options_default (Channel_new Options_default 0) gs = Ok (c, out ++ [Some line]) /\
  (forall g w, In (g, w) (decoded_in gs (out ++ [Some line])) -> g_type g = mkGroupType 11 VA -> blk_is_received (g_b3 g) = false) /\
  says line ["enhanced_radiotext"] (VStr (bs "  A")).
Proof.
  exists (ps_groups ++ enhanced), (fst (final Options_default (ps_groups ++ enhanced))), (snd (final Options_default (ps_groups ++ enhanced))), (the_line Options_default (ps_groups ++ enhanced)).
  split; [vm_compute; reflexivity|]. split; [|vm_compute; reflexivity].
  intros g w H T. set (d := decoded_in _ _) in H. vm_compute in d.
  repeat (destruct H as [H|H]; [injection H as <- <-; first [reflexivity|discriminate T]|]). destruct H.
Qed.
Print Assumptions C24_enhanced_radiotext_refuted.
