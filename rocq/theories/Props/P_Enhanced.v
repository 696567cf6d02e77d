(* C84: Enhanced RadioText. *)
From Verif.Model Require Import Base Util Group Options Tables Json RdsString Tmc Station Channel.
From Verif.Spec Require Import Unicode JsonText Session Identity History Quality Texts Apps Traffic Enhanced Host Cases.
From Verif.Proofs Require Import Tac Numerals TextP UpdateP SessionP ChannelP HostP StringP PsP RtP LpsP ErtP ErtPlusP.
From Verif.Props Require Import P_Channel P_Radiotext P_Plus.

Local Open Scope string_scope.
Local Open Scope N_scope.
Local Open Scope list_scope.

(* gs0 is any history after which station p is confirmed; ga ++ gb ++ [g] is anything of the same
   station.  Within ga, Enhanced RadioText is announced in groups of type t.  The bytes l received last
   in such groups, in order, are a UTF-8 text followed by an end mark, or fill all 64 places. *)
Theorem C84_text_received_is_shown : forall env o w0 gs0 ga gb now g w c out p t m cs l earlier,
  host_ok env -> host_text env -> o_output_type o = OutJSON ->
  let gs := ga ++ gb ++ [(now, g, w)] in
  Forall received_group (gs0 ++ gs) -> p <> 0 -> three p (pis gs0) -> Forall (stays p) gs ->
  Forall (fun x => app_items (snd (fst x), snd x) <> [] \/ ert_segment t (snd (fst x), snd x) <> [] -> carried_pi x = Some p) gs ->
  In t for_applications -> in_utf8 m -> let all := groups_of (gs0 ++ gs) in ert_only t m all -> ert_whole t all -> ert_short t all ->
  In (t, 0x6552) (flat_map announcement (groups_of ga)) ->
  ert_segment t (g, w) <> [] ->
  flat_map (ert_segment t) (groups_of (gb ++ [(now, g, w)])) = earlier ++ place 0 l ->
  Forall scalar cs -> ~ In 0 cs -> ~ In end_of_text cs ->
  (exists r, l = utf8_text cs ++ end_of_text :: r) \/ (l = utf8_text cs /\ length l = 64%nat) ->
  run_groups env o (Channel_new o w0) (gs0 ++ gs) = Ok (c, out) ->
  exists out' line s, out = out' ++ [Some line] /\ says line ["enhanced_radiotext"] (VStr s) /\ trimmed (utf8_text cs) s.
Proof. exact ert_round_trip. Qed.
Print Assumptions C84_text_received_is_shown.

(* A text that is shown consists of the bytes most recently received at its positions, without gaps.  Here
   RadioText Plus for this text may be sent, too. *)
Theorem C84_text_shown_is_complete : forall env o w0 gs now g w c out line v t m,
  host_ok env -> o_output_type o = OutJSON -> Forall received_group (gs ++ [(now, g, w)]) ->
  In t for_applications -> in_utf8 m ->
  let all := groups_of (gs ++ [(now, g, w)]) in ert_assigned t m all -> ert_whole t all -> ert_short t all ->
  run_groups env o (Channel_new o w0) (gs ++ [(now, g, w)]) = Ok (c, out ++ [Some line]) -> says line ["enhanced_radiotext"] v ->
  exists l s, complete_text 64 (flat_map (ert_segment t) (decoded_in (gs ++ [(now, g, w)]) (out ++ [Some line]))) l /\
    v = VStr s /\ trimmed (map visible l) s.
Proof. exact etr_complete. Qed.
Print Assumptions C84_text_shown_is_complete.

(* "Köln!" in groups 11A, announced before and between the two groups *)
Definition ert_announced : list (Z * Group * N) := at_times 11 [rt2 0x3416 0x0001 0x6552].
Definition ert_sent : list (Z * Group * N) := at_times 12 [rt2 0xB405 0x5858 0x5858; rt2 0xB400 0x4BC3 0xB66C; rt2 0x3416 0x0001 0x6552].
Definition ert_last : Group := rt2 0xB401 0x6E21 0x0D20.
Definition ert_case : list (Z * Group * N) := ert_announced ++ ert_sent ++ [((15 * sec)%Z, ert_last, 0)].
Ltac only_here := intros t' a m X;
  match type of X with In _ ?l => let v := eval vm_compute in l in change l with v in X end;
  repeat (destruct X as [X|X]; [first [discriminate X|injection X as <- <- <-; split; [intros _; split; [reflexivity|split; reflexivity]|discriminate]]|]); destruct X.
Ltac whole_here := intros g X;
  match type of X with In _ ?l => let v := eval vm_compute in l in change l with v in X end;
  repeat (destruct X as [X|X]; [injection X as <-; intros _ T; first [discriminate T|reflexivity]|]); destruct X.
Example C84_case : let t := mkGroupType 11 VA in let all := groups_of (ps_groups ++ ert_case) in
  Forall received_group (ps_groups ++ ert_case) /\ three 0x2204 (pis ps_groups) /\ Forall (stays 0x2204) ert_case /\
  Forall (fun x => app_items (snd (fst x), snd x) <> [] \/ ert_segment t (snd (fst x), snd x) <> [] -> carried_pi x = Some 0x2204) ert_case /\
  In t for_applications /\ in_utf8 1 /\ ert_only t 1 all /\ ert_whole t all /\ ert_short t all /\
  In (t, 0x6552) (flat_map announcement (groups_of ert_announced)) /\ ert_segment t (ert_last, 0) <> [] /\
  flat_map (ert_segment t) (groups_of (ert_sent ++ [((15 * sec)%Z, ert_last, 0)])) = place 20 (bs "XXXX") ++ place 0 (utf8_text [75; 0xF6; 108; 110; 33] ++ end_of_text :: [32]) /\
  last_line Options_default (ps_groups ++ ert_case) = Some (the_line Options_default (ps_groups ++ ert_case)) /\
  says (the_line Options_default (ps_groups ++ ert_case)) ["enhanced_radiotext"] (VStr (utf8_text [75; 0xF6; 108; 110; 33])).
Proof.
  intros t all. split; [apply (Forall_by _ receivedb _ receivedb_ok); vm_compute; reflexivity|]. split; [exists []; reflexivity|].
  split; [apply (Forall_by _ (pi_is 0x2204)); [intros ? ?; right; apply pi_is_ok; assumption|vm_compute; reflexivity]|].
  split; [apply (Forall_by _ (pi_is 0x2204)); [intros ? ? _; apply pi_is_ok; assumption|vm_compute; reflexivity]|].
  split; [vm_compute; tauto|]. split; [reflexivity|]. split; [only_here|]. split; [whole_here|].
  split; [apply (Forall_by _ (fun pb => fst pb <? 64)); [intros x X; apply N.ltb_lt; exact X|vm_compute; reflexivity]|].
  split; [left; reflexivity|]. split; [discriminate|]. split; [vm_compute; reflexivity|]. split; vm_compute; reflexivity.
Qed.
(* The same case for the second theorem *)
Example C84_complete_case : ert_assigned (mkGroupType 11 VA) 1 (groups_of (ps_groups ++ ert_case)) /\ exists c out line, run_groups plain_host Options_default (Channel_new Options_default 0) (ps_groups ++ ert_case) = Ok (c, out ++ [Some line]) /\
  says line ["enhanced_radiotext"] (VStr (utf8_text [75; 0xF6; 108; 110; 33])).
Proof.
  split; [intros t a m X; apply (proj1 (proj1 (proj2 (proj2 (proj2 (proj2 (proj2 (proj2 C84_case)))))) t a m X))|].
  exists (fst (final Options_default (ps_groups ++ ert_case))), (snd (final Options_default (ps_groups ++ ert_case))), (the_line Options_default (ps_groups ++ ert_case)).
  split; [vm_compute; reflexivity|vm_compute; reflexivity].
Qed.

(* Without the restriction to 64 bytes: a text of 67 bytes with its end mark is shown cut off *)
Definition ert_long_text : list N := repeat 65 64 ++ [66; 67; 68].
Definition ert_long : list (Z * Group * N) :=
  ert_announced ++ at_times 12 (map (fun n => rt2 (0xB400 + n) 0x4141 0x4141) [0; 1; 2; 3; 4; 5; 6; 7; 8; 9; 10; 11; 12; 13; 14; 15] ++ [rt2 0xB410 0x4243 0x440D]).
Theorem C84_long_text_refuted : exists gs t m c out line, let all := groups_of gs in
  Forall received_group gs /\ In t for_applications /\ in_utf8 m /\ ert_only t m all /\ ert_whole t all /\
  run_groups plain_host Options_default (Channel_new Options_default 0) gs = Ok (c, out ++ [Some line]) /\
  flat_map (ert_segment t) (decoded_in gs (out ++ [Some line])) = place 0 (utf8_text ert_long_text ++ [end_of_text]) /\
  says line ["enhanced_radiotext"] (VStr (firstn 64 (utf8_text ert_long_text))).
Proof.
  exists (ps_groups ++ ert_long), (mkGroupType 11 VA), 1, (fst (final Options_default (ps_groups ++ ert_long))), (snd (final Options_default (ps_groups ++ ert_long))), (the_line Options_default (ps_groups ++ ert_long)).
  intros all. split; [apply (Forall_by _ receivedb _ receivedb_ok); vm_compute; reflexivity|]. split; [vm_compute; tauto|]. split; [reflexivity|]. split; [only_here|]. split; [whole_here|].
  split; [vm_compute; reflexivity|]. split; [vm_compute; reflexivity|vm_compute; reflexivity].
Qed.
Print Assumptions C84_long_text_refuted.
