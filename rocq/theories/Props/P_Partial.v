(* C99: texts that are not yet complete, shown on request. *)
From Verif.Model Require Import Base Util Group Options Tables Json RdsString Tmc Station Channel.
From Verif.Spec Require Import Unicode JsonText Session Identity History Quality Texts Host Cases.
From Verif.Proofs Require Import Tac Numerals TextP UpdateP SessionP ChannelP HostP StringP PsP RtP LpsP PartialP.
From Verif.Props Require Import P_Channel P_Radiotext.

Local Open Scope string_scope.
Local Open Scope N_scope.
Local Open Scope list_scope.

(* --- C99 --- *)
(* A partial station name consists of the characters most recently received at the first positions,
   without a gap, and of blanks. *)
Theorem C99_partial_name : forall env o w0 gs now g w c out line v,
  host_ok env -> o_output_type o = OutJSON -> Forall received_group (gs ++ [(now, g, w)]) ->
  run_groups env o (Channel_new o w0) (gs ++ [(now, g, w)]) = Ok (c, out ++ [Some line]) -> says line ["partial_ps"] v ->
  let ws := ps_writes (decoded_in (gs ++ [(now, g, w)]) (out ++ [Some line])) in
  exists l k, (l = [] \/ gapless ws l) /\ ~ In end_of_text l /\ N.of_nat (length l + k) <= 8 /\ v = VStr (rds_text l ++ repeat 0x20 k).
Proof. exact ps_partial. Qed.
Print Assumptions C99_partial_name.

(* The same for the long station name *)
Theorem C99_partial_long_name : forall env o w0 gs now g w c out line v,
  host_ok env -> o_output_type o = OutJSON -> Forall received_group (gs ++ [(now, g, w)]) ->
  run_groups env o (Channel_new o w0) (gs ++ [(now, g, w)]) = Ok (c, out ++ [Some line]) -> says line ["partial_long_ps"] v ->
  exists l k, (l = [] \/ gapless (flat_map long_segment (decoded_in (gs ++ [(now, g, w)]) (out ++ [Some line]))) l) /\
    v = VStr (map visible l ++ repeat 0x20 k).
Proof. exact lps_partial. Qed.
Print Assumptions C99_partial_long_name.

(* Nothing received is withheld: gs0 is any history after which station p is confirmed.  If the last
   segments of the name received afterwards are the first characters l of a name, in order, then the
   line for the last of them shows exactly these characters, and blanks for the rest. *)
Theorem C99_name_so_far : forall env o w0 gs0 gs1 now g c out p earlier segs l,
  host_ok env -> host_text env -> o_output_type o = OutJSON -> o_show_partial o = true ->
  let gs := gs1 ++ [(now, g, 0)] in
  Forall received_group (gs0 ++ gs) -> p <> 0 -> three p (pis gs0) -> Forall (stays p) gs ->
  Forall (fun x => ps_segment (snd (fst x), snd x) <> [] -> carried_pi x = Some p) gs ->
  ps_segment (g, 0) <> [] ->
  flat_map ps_segment (groups_of gs) = earlier ++ segs ->
  flat_map (fun s => let '(n, a, b) := s in [(2 * n, a); (2 * n + 1, b)]) segs = place 0 l ->
  l <> [] -> (length l < 8)%nat -> ~ In end_of_text l ->
  run_groups env o (Channel_new o w0) (gs0 ++ gs) = Ok (c, out) ->
  exists out' line k, out = out' ++ [Some line] /\ (length l + k <= 8)%nat /\ says line ["partial_ps"] (VStr (rds_text l ++ repeat 0x20 k)).
Proof. exact ps_so_far. Qed.
Print Assumptions C99_name_so_far.

Theorem C99_long_name_so_far : forall env o w0 gs0 gs1 now g w c out p cs l earlier,
  host_ok env -> host_text env -> o_output_type o = OutJSON -> o_show_partial o = true ->
  let gs := gs1 ++ [(now, g, w)] in
  Forall received_group (gs0 ++ gs) -> p <> 0 -> three p (pis gs0) -> Forall (stays p) gs ->
  Forall (fun x => long_segment (snd (fst x), snd x) <> [] -> carried_pi x = Some p) gs ->
  long_segment (g, w) <> [] -> not_announced (mkGroupType 15 VA) (groups_of (gs0 ++ gs)) ->
  flat_map long_segment (groups_of gs) = earlier ++ place 0 l ->
  Forall scalar cs -> ~ In 0 cs -> ~ In end_of_text cs -> l = utf8_text cs -> l <> [] -> (length l < 32)%nat ->
  run_groups env o (Channel_new o w0) (gs0 ++ gs) = Ok (c, out) ->
  exists out' line k, out = out' ++ [Some line] /\ (length l + k <= 32)%nat /\ says line ["partial_long_ps"] (VStr (utf8_text cs ++ repeat 0x20 k)).
Proof. exact lps_so_far. Qed.
Print Assumptions C99_long_name_so_far.

(* For RadioText: all parts since the station was confirmed are the first characters of one message,
   of which at least one is not a blank, and the last part is not the first of the message. *)
Theorem C99_radiotext_so_far : forall env o w0 gs0 gs1 now g c out p f v l,
  host_ok env -> host_text env -> o_output_type o = OutJSON -> o_show_partial o = true ->
  let gs := gs1 ++ [(now, g, 0)] in
  Forall received_group (gs0 ++ gs) -> p <> 0 -> three p (pis gs0) -> Forall (stays p) gs ->
  Forall (fun x => rt_segment (snd (fst x), snd x) <> [] -> carried_pi x = Some p) gs ->
  (exists q, rt_segment (g, 0) = [q] /\ p_pos q <> 0) ->
  uniform f v (flat_map rt_segment (groups_of gs)) -> part_writes (flat_map rt_segment (groups_of gs)) = place 0 l ->
  no_plus (groups_of (gs0 ++ gs)) (groups_of gs) ->
  N.of_nat (length l) < rt_size v -> ~ In end_of_text l -> (exists b, In b l /\ rds_char (visible b) <> 0x20) ->
  run_groups env o (Channel_new o w0) (gs0 ++ gs) = Ok (c, out) ->
  exists out' line k, out = out' ++ [Some line] /\ N.of_nat (length l + k) <= rt_size v /\
    says line ["partial_radiotext"] (VStr (rds_text l ++ repeat 0x20 k)).
Proof. exact rt_so_far. Qed.
Print Assumptions C99_radiotext_so_far.

(* The A/B flag shown beside RadioText is the one in the group *)
Theorem C99_radiotext_flag : forall env o w0 gs now g w c out line q,
  host_ok env -> host_text env -> o_output_type o = OutJSON -> o_show_partial o = true ->
  Forall received_group (gs ++ [(now, g, w)]) -> run_groups env o (Channel_new o w0) (gs ++ [(now, g, w)]) = Ok (c, out ++ [Some line]) ->
  rt_segment (g, w) = [q] -> says line ["rt_ab"] (VStr (bs (if p_flag q then "B" else "A"))).
Proof. exact rt_flag. Qed.
Print Assumptions C99_radiotext_flag.

(* "HIJK", after another name was half received *)
Definition new_name : list (Z * Group * N) := at_times 11 [rt2 0x040B 0xE0E0 0x5858; rt2 0x0408 0xE0E0 0x4849; rt2 0x2410 0x4865 0x6C6C; rt2 0x0409 0xE0E0 0x4A4B].
Example C99_name_case : Forall received_group (ps_groups ++ new_name) /\ three 0x2204 (pis ps_groups) /\ Forall (stays 0x2204) new_name /\
  Forall (fun x => ps_segment (snd (fst x), snd x) <> [] -> carried_pi x = Some 0x2204) new_name /\
  flat_map ps_segment (groups_of new_name) = [(3, 0x58, 0x58)] ++ [(0, 0x48, 0x49); (1, 0x4A, 0x4B)] /\
  flat_map (fun s => let '(n, a, b) := s in [(2 * n, a); (2 * n + 1, b)]) [(0, 0x48, 0x49); (1, 0x4A, 0x4B)] = place 0 (bs "HIJK") /\
  exists line, last_line partial_options (ps_groups ++ new_name) = Some line /\ says line ["partial_ps"] (VStr (bs "HIJK    ")).
Proof.
  split; [repeat constructor; reflexivity|]. split; [exists []; reflexivity|]. split; [repeat constructor; left; reflexivity|].
  split; [repeat constructor; intros _; reflexivity|]. split; [reflexivity|]. split; [reflexivity|].
  eexists. split; [vm_compute; reflexivity|]. vm_compute. reflexivity.
Qed.

(* "Hör" of the long name *)
Definition long_begin : list (Z * Group * N) := at_times 11 [rt2 0xF403 0x5858 0x5858; rt2 0x0408 0xE0E0 0x4142; rt2 0xF400 0x48C3 0xB672].
Example C99_long_name_case : Forall received_group (ps_groups ++ long_begin) /\ three 0x2204 (pis ps_groups) /\ Forall (stays 0x2204) long_begin /\
  Forall (fun x => long_segment (snd (fst x), snd x) <> [] -> carried_pi x = Some 0x2204) long_begin /\
  not_announced (mkGroupType 15 VA) (groups_of (ps_groups ++ long_begin)) /\
  flat_map long_segment (groups_of long_begin) = place 12 (bs "XXXX") ++ place 0 (utf8_text [72; 0xF6; 114]) /\
  exists line, last_line partial_options (ps_groups ++ long_begin) = Some line /\ says line ["partial_long_ps"] (VStr (utf8_text [72; 0xF6; 114] ++ repeat 0x20 28)).
Proof.
  split; [repeat constructor; reflexivity|]. split; [exists []; reflexivity|]. split; [repeat constructor; left; reflexivity|].
  split; [repeat constructor; intros _; reflexivity|]. split; [intros a []|]. split; [reflexivity|].
  eexists. split; [vm_compute; reflexivity|]. vm_compute. reflexivity.
Qed.

(* "Hello wo" of a RadioText *)
Definition text_begin : list (Z * Group * N) := at_times 11 [rt2 0x2410 0x4865 0x6C6C; rt2 0x0408 0xE0E0 0x4142; rt2 0x2411 0x6F20 0x776F].
Example C99_radiotext_case : Forall received_group (ps_groups ++ text_begin) /\ three 0x2204 (pis ps_groups) /\ Forall (stays 0x2204) text_begin /\
  Forall (fun x => rt_segment (snd (fst x), snd x) <> [] -> carried_pi x = Some 0x2204) text_begin /\
  uniform true VA (flat_map rt_segment (groups_of text_begin)) /\
  part_writes (flat_map rt_segment (groups_of text_begin)) = place 0 (bs "Hello wo") /\
  no_plus (groups_of (ps_groups ++ text_begin)) (groups_of text_begin) /\
  (exists b, In b (bs "Hello wo") /\ rds_char (visible b) <> 0x20) /\
  exists line, last_line partial_options (ps_groups ++ text_begin) = Some line /\ says line ["partial_radiotext"] (VStr (bs "Hello wo" ++ repeat 0x20 56)) /\
    says line ["rt_ab"] (VStr (bs "B")).
Proof.
  split; [repeat constructor; reflexivity|]. split; [exists []; reflexivity|]. split; [repeat constructor; left; reflexivity|].
  split; [repeat constructor; intros _; reflexivity|]. split; [repeat constructor; reflexivity|]. split; [reflexivity|]. split; [intros g _ _ []|].
  split; [exists 0x48; split; [left; reflexivity|vm_compute; discriminate]|].
  eexists. split; [vm_compute; reflexivity|]. split; vm_compute; reflexivity.
Qed.

(* "Partial" does not always mean incomplete: a complete long name is shown as a partial one when a
   15A group arrives with neither of the blocks that carry the name. *)
Definition empty_15A : Group := g_setBlock (g_setBlock Group_default BLOCK1 (rx OffA 0x2204)) BLOCK2 (rx OffB 0xF400).
Definition whole_long_name : list (Z * Group * N) :=
  at_times 11 [rt2 0xF400 0x4142 0x430D; empty_15A].
Theorem C99_complete_shown_as_partial_refuted : exists gs c out line,
  run_groups plain_host partial_options (Channel_new partial_options 0) gs = Ok (c, out ++ [Some line]) /\
  complete_text 32 (flat_map long_segment (decoded_in gs (out ++ [Some line]))) (bs "ABC" ++ [end_of_text]) /\
  says line ["partial_long_ps"] (VStr (bs "ABC ")) /\ line_at ["long_ps"] line = None.
Proof.
  exists (ps_groups ++ whole_long_name), (fst (final partial_options (ps_groups ++ whole_long_name))), (snd (final partial_options (ps_groups ++ whole_long_name))).
  exists (the_line partial_options (ps_groups ++ whole_long_name)). split; [vm_compute; reflexivity|]. split; [|split; vm_compute; reflexivity].
  split.
  - set (ws := flat_map _ _). vm_compute in ws. split.
    + exact (in_next [(0, 65); (1, 66)] 2 67 end_of_text (in_next [(0, 65)] 1 66 67 (in_next [] 0 65 66 (in_start [] 65)))).
    + intros i b Hb.
      do 4 (destruct i as [|i]; [vm_compute in Hb; injection Hb as <-; vm_compute; reflexivity|]). destruct i; discriminate Hb.
  - right. exists (bs "ABC"). split; [reflexivity|]. vm_compute. intuition discriminate.
Qed.
Print Assumptions C99_complete_shown_as_partial_refuted.
