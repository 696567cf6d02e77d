(* C81: the transparent data channel as a whole (groups 5A). *)
From Verif.Model Require Import Base Util Group Options Tables Json RdsString Tmc Station Channel.
From Verif.Spec Require Import Unicode JsonText Session Identity History Quality Texts Labels Transparent Host Cases.
From Verif.Proofs Require Import Tac Numerals TextP UpdateP SessionP ChannelP HostP StringP TdcP.
From Verif.Props Require Import P_Channel P_Radiotext.

Local Open Scope string_scope.
Local Open Scope N_scope.
Local Open Scope list_scope.

(* --- C81 --- *)
(* If a line shows the data of the whole channel, as a text or as bytes, then it was printed for a group of
   the channel, and the data are the bytes most recently received at positions 0, 1, ... up to the end mark
   or up to all 128, without gaps. *)
Theorem C81_complete_text : forall env o w0 gs now g w c out line v,
  host_ok env -> o_output_type o = OutJSON -> Forall received_group (gs ++ [(now, g, w)]) ->
  run_groups env o (Channel_new o w0) (gs ++ [(now, g, w)]) = Ok (c, out ++ [Some line]) ->
  says line ["transparent_data"; "full_text"] v ->
  exists l, complete_text 128 (flat_map data_segment (decoded_in (gs ++ [(now, g, w)]) (out ++ [Some line]))) l /\
    data_segment (g, w) <> [] /\ v = VStr (rds_text l).
Proof.
  intros env o w0 gs now g w c out line v H OJ F E S.
  destruct (tdc_complete env o w0 gs now g w c out line H OJ F E) as [[X _]|(l & t & A & B & _ & C & _)].
  - unfold says in S. rewrite X in S. discriminate.
  - exists l. split; [exact A|]. split; [exact B|]. exact (C v S).
Qed.
Print Assumptions C81_complete_text.

Theorem C81_complete_bytes : forall env o w0 gs now g w c out line v,
  host_ok env -> o_output_type o = OutJSON -> Forall received_group (gs ++ [(now, g, w)]) ->
  run_groups env o (Channel_new o w0) (gs ++ [(now, g, w)]) = Ok (c, out ++ [Some line]) ->
  says line ["transparent_data"; "full_raw"] v ->
  exists l t, complete_text 128 (flat_map data_segment (decoded_in (gs ++ [(now, g, w)]) (out ++ [Some line]))) l /\
    data_segment (g, w) <> [] /\ v = VStr t /\ hex_bytes (map visible l) t.
Proof.
  intros env o w0 gs now g w c out line v H OJ F E S.
  destruct (tdc_complete env o w0 gs now g w c out line H OJ F E) as [[_ X]|(l & t & A & B & D & _ & C)].
  - unfold says in S. rewrite X in S. discriminate.
  - exists l, t. split; [exact A|]. split; [exact B|]. split; [exact (C v S)|exact D].
Qed.
Print Assumptions C81_complete_bytes.

(* gs0 is any history after which station p is confirmed; gs1 ++ [g] is anything of the same station in which
   the bytes l come last, in order: all 128, or any number of them with an end mark among them.  Then the line
   of the last group shows them, up to the end mark. *)
Theorem C81_data_received_are_shown : forall env o w0 gs0 gs1 now g w c out p l t earlier,
  host_ok env -> host_text env -> o_output_type o = OutJSON ->
  let gs := gs1 ++ [(now, g, w)] in
  Forall received_group (gs0 ++ gs) -> p <> 0 -> three p (pis gs0) -> Forall (stays p) gs ->
  Forall (fun x => data_segment (snd (fst x), snd x) <> [] -> carried_pi x = Some p) gs ->
  data_segment (g, w) <> [] -> not_announced (mkGroupType 5 VA) (groups_of (gs0 ++ gs)) ->
  flat_map data_segment (groups_of gs) = earlier ++ place 0 l ->
  (length l = 128%nat /\ ~ In end_of_text l /\ t = l) \/
  (exists t0 r, l = t0 ++ end_of_text :: r /\ ~ In end_of_text t0 /\ t = t0 ++ [end_of_text]) ->
  run_groups env o (Channel_new o w0) (gs0 ++ gs) = Ok (c, out) ->
  exists out' line x, out = out' ++ [Some line] /\ says line ["transparent_data"; "full_text"] (VStr (rds_text t)) /\
    says line ["transparent_data"; "full_raw"] (VStr x) /\ hex_bytes (map visible t) x.
Proof. exact tdc_round_trip. Qed.
Print Assumptions C81_data_received_are_shown.

(* "CALL 42 0K" and an end mark, among other groups, after an old segment further on *)
Definition data_groups : list (Z * Group * N) :=
  at_times 11 [rt2 0x5405 0x5858 0x5858; rt2 0x5400 0x4341 0x4C4C; rt2 0x2400 0x4142 0x4344; rt2 0x5401 0x2034 0x3220; rt2 0x5C02 0x4142 0x4344; rt2 0x5402 0x304B 0x0D00].
Example C81_case : Forall received_group (ps_groups ++ data_groups) /\ three 0x2204 (pis ps_groups) /\ Forall (stays 0x2204) data_groups /\
  Forall (fun x => data_segment (snd (fst x), snd x) <> [] -> carried_pi x = Some 0x2204) data_groups /\
  not_announced (mkGroupType 5 VA) (groups_of (ps_groups ++ data_groups)) /\
  flat_map data_segment (groups_of data_groups) = place 20 (bs "XXXX") ++ place 0 (bs "CALL 42 0K" ++ end_of_text :: [0]) /\
  exists c out line, run_groups plain_host Options_default (Channel_new Options_default 0) (ps_groups ++ data_groups) = Ok (c, out ++ [Some line]) /\
    says line ["transparent_data"; "full_text"] (VStr (bs "CALL 42 0K ")) /\
    says line ["transparent_data"; "full_raw"] (VStr (bs "43 41 4C 4C 20 34 32 20 30 4B 20")).
Proof.
  split; [repeat constructor; reflexivity|]. split; [exists []; reflexivity|]. split; [repeat constructor; left; reflexivity|].
  split; [repeat constructor; intros _; reflexivity|]. split; [intros a []|]. split; [reflexivity|].
  exists (fst (final Options_default (ps_groups ++ data_groups))), (snd (final Options_default (ps_groups ++ data_groups))), (the_line Options_default (ps_groups ++ data_groups)).
  split; [vm_compute; reflexivity|]. split; vm_compute; reflexivity.
Qed.

(* "full_raw" is not what was received: the bytes 00 and 0D are shown as 20, and nothing after the first 0D
   is shown although it was received, and although the channel is transparent. *)
Definition binary_data : list (Z * Group * N) := at_times 11 [rt2 0x5400 0x0041 0x000D; rt2 0x5401 0x4243 0x4445].
Theorem C81_raw_bytes_refuted : exists gs line, last_line Options_default gs = Some line /\
  flat_map data_segment (groups_of gs) = place 0 [0; 0x41; 0; 0x0D; 0x42; 0x43; 0x44; 0x45] /\
  says line ["transparent_data"; "raw"] (VStr (bs "42 43 44 45")) /\
  says line ["transparent_data"; "full_raw"] (VStr (bs "20 41 20 20")).
Proof.
  exists (ps_groups ++ binary_data), (the_line Options_default (ps_groups ++ binary_data)).
  split; [vm_compute; reflexivity|]. split; [reflexivity|]. split; vm_compute; reflexivity.
Qed.
Print Assumptions C81_raw_bytes_refuted.
