(* C23, C24, C27, C28: texts sent character by character. *)
From Verif.Model Require Import Base Util Group Options Tables Json RdsString Tmc Station Channel.
From Verif.Spec Require Import Unicode JsonText Session Identity History Quality Texts Host Cases.
From Verif.Proofs Require Import Tac Numerals TextP UpdateP SessionP ChannelP HostP StringP PsP.
From Verif.Props Require Import P_Channel.

Local Open Scope string_scope.
Local Open Scope N_scope.
Local Open Scope list_scope.

(* --- C28 --- *)
Lemma rds_char_facts : forall b, b < 256 -> scalar (rds_char b) /\
  (65 <= b <= 90 \/ 97 <= b <= 122 \/ 48 <= b <= 57 -> rds_char b = b).
Proof.
  intros b H. assert (E : forallb (fun b => (rds_char b <? 0xD800) &&
    implb (((65 <=? b) && (b <=? 90)) || ((97 <=? b) && (b <=? 122)) || ((48 <=? b) && (b <=? 57))) (rds_char b =? b)) (nseq 0 256) = true) by (vm_compute; reflexivity).
  rewrite forallb_forall in E. assert (I : In b (nseq 0 256)) by (apply nseq_In; lia). specialize (E b I). apply andb_prop in E. destruct E as [E1 E2].
  apply N.ltb_lt in E1. split; [left; exact E1|].
  intros R. destruct (N.eqb_spec (rds_char b) b) as [->|N0]; [reflexivity|].
  exfalso. destruct (((65 <=? b) && (b <=? 90)) || ((97 <=? b) && (b <=? 122)) || ((48 <=? b) && (b <=? 57))) eqn:C; [discriminate|]. lia.
Qed.
(* Received bytes are shown as as many characters *)
Theorem C28_every_byte_is_one_character : forall l, Forall (fun b => b < 256) l ->
  exists cs, length cs = length l /\ Forall scalar cs /\ flat_map getRDSCharString l = utf8_text cs /\
    forall i b, nth_error l i = Some b -> 65 <= b <= 90 \/ 97 <= b <= 122 \/ 48 <= b <= 57 -> nth_error cs i = Some b.
Proof.
  intros l F. exists (map rds_char l). split; [apply map_length|]. split; [|split].
  - apply Forall_map. eapply Forall_impl; [|exact F]. intros b H. apply rds_char_facts. exact H.
  - induction F as [|b l H F IH]; [reflexivity|]. cbn [flat_map map]. unfold utf8_text in *. cbn [flat_map]. rewrite IH, char_text by exact H. reflexivity.
  - intros i b N0 R. rewrite (map_nth_error rds_char i l N0). f_equal. apply rds_char_facts; [|exact R]. rewrite Forall_forall in F. apply F. eapply nth_error_In. exact N0.
Qed.
Print Assumptions C28_every_byte_is_one_character.

Example C28_case : flat_map getRDSCharString [0x41; 0x82; 0x24; 0xFF] = bs "A" ++ [0xC3; 0xA9] ++ [0xC2; 0xA4] ++ [0x20].
Proof. vm_compute. reflexivity. Qed.

(* --- C23 --- *)
(* gs0 is any history after which station p is confirmed; gs1 ++ [g] is anything of the same station
   whose last four name segments, the last of them in group g, are segments 0 to 3 of a name. *)
Theorem C23_name_received_in_order_is_shown : forall env o w0 gs0 gs1 now g c out p earlier n0 n1 n2 n3 n4 n5 n6 n7,
  host_ok env -> host_text env -> o_output_type o = OutJSON ->
  let gs := gs1 ++ [(now, g, 0)] in
  Forall received_group (gs0 ++ gs) -> p <> 0 -> three p (pis gs0) -> Forall (stays p) gs ->
  Forall (fun x => ps_segment (snd (fst x), snd x) <> [] -> carried_pi x = Some p) gs ->
  ps_segment (g, 0) <> [] ->
  flat_map ps_segment (groups_of gs) = earlier ++ [(0, n0, n1); (1, n2, n3); (2, n4, n5); (3, n6, n7)] ->
  ~ In end_of_text [n0; n1; n2; n3; n4; n5; n6; n7] ->
  run_groups env o (Channel_new o w0) (gs0 ++ gs) = Ok (c, out) ->
  exists out' line, out = out' ++ [Some line] /\ says line ["ps"] (VStr (rds_text [n0; n1; n2; n3; n4; n5; n6; n7])).
Proof. exact ps_round_trip. Qed.
Print Assumptions C23_name_received_in_order_is_shown.

(* 0A groups of a name, other groups between them *)
Definition name_groups (a b c d : N) : list (Z * Group * N) :=
  [(11 * sec, group4 0x2204 0x0408 0xE0E0 a, 0%N); (12 * sec, group4 0x2204 0x2400 0x4141 0x4141, 0%N);
   (13 * sec, group4 0x2204 0x0409 0xE0E0 b, 0%N); (14 * sec, group4 0x2204 0x040A 0xE0E0 c, 0%N);
   (15 * sec, group24 0x0000 0x4141, 0%N); (16 * sec, group4 0x2204 0x040B 0xE0E0 d, 0%N)]%Z.

Example C23_case : let gs := name_groups 0x5241 0x4449 0x4F20 0x3182 in
  Forall received_group (ps_groups ++ gs) /\ three 0x2204 (pis ps_groups) /\ Forall (stays 0x2204) gs /\
  Forall (fun x => ps_segment (snd (fst x), snd x) <> [] -> carried_pi x = Some 0x2204) gs /\
  flat_map ps_segment (groups_of gs) = [] ++ [(0, 0x52, 0x41); (1, 0x44, 0x49); (2, 0x4F, 0x20); (3, 0x31, 0x82)] /\
  match run_groups plain_host Options_default (Channel_new Options_default 0) (ps_groups ++ gs) with
  | Ok (_, out) => match rev out with
                   | Some line :: _ => line_at ["ps"] line = Some (VStr (bs "RADIO 1" ++ [0xC3; 0xA9]))
                   | _ => False
                   end
  | _ => False
  end.
Proof.
  cbv zeta. split; [repeat constructor; reflexivity|]. split; [exists []; reflexivity|].
  split; [repeat constructor; (left; reflexivity) || (right; reflexivity)|].
  split; [repeat constructor; try (intros _; reflexivity); intros X; exfalso; apply X; reflexivity|].
  split; [reflexivity|]. vm_compute. reflexivity.
Qed.

(* --- C24 --- *)
Theorem C24_complete_name : forall env o w0 gs now g w c out line v,
  host_ok env -> o_output_type o = OutJSON -> Forall received_group (gs ++ [(now, g, w)]) ->
  run_groups env o (Channel_new o w0) (gs ++ [(now, g, w)]) = Ok (c, out ++ [Some line]) -> says line ["ps"] v ->
  exists l, complete_text 8 (ps_writes (decoded_in (gs ++ [(now, g, w)]) (out ++ [Some line]))) l /\ v = VStr (rds_text l).
Proof. exact ps_complete. Qed.
Print Assumptions C24_complete_name.

(* --- C27 --- *)
(* Once the first segment of a name was received, and segments of no other name since, a complete
   name on a line is that name, whatever was received before and whichever segments were missed. *)
Theorem C27_not_mixed : forall env o w0 gs now g w c out line v before after name,
  host_ok env -> o_output_type o = OutJSON -> Forall received_group (gs ++ [(now, g, w)]) ->
  run_groups env o (Channel_new o w0) (gs ++ [(now, g, w)]) = Ok (c, out ++ [Some line]) -> says line ["ps"] v ->
  flat_map ps_segment (decoded_in (gs ++ [(now, g, w)]) (out ++ [Some line])) = before ++ after ->
  length name = 8%nat -> ~ In end_of_text name ->
  Forall (fun s => let '(n, a, b) := s in nth_error name (N.to_nat (2 * n)) = Some a /\ nth_error name (N.to_nat (2 * n + 1)) = Some b) after ->
  (exists a b, In (0, a, b) after) ->
  v = VStr (rds_text name).
Proof. exact ps_not_mixed. Qed.
Print Assumptions C27_not_mixed.

(* After "AAAAAAAA", the name "BBCCDDEE": its segment 2 comes before segment 1 the first time *)
Definition two_names : list (Z * Group * N) := ps_groups ++ name_groups 0x4141 0x4141 0x4141 0x4141 ++
  map (fun x => ((20 * sec)%Z, group4 0x2204 (0x0408 + fst x) 0xE0E0 (snd x), 0))
    [(0, 0x4242); (2, 0x4444); (1, 0x4343); (3, 0x4545); (0, 0x4242); (1, 0x4343); (2, 0x4444)].
Definition two_names_run := run_groups plain_host Options_default (Channel_new Options_default 0)
  (two_names ++ [((30 * sec)%Z, group4 0x2204 0x040B 0xE0E0 0x4545, 0)]).
Example C27_case : exists c out line,
  two_names_run = Ok (c, out ++ [Some line]) /\ says line ["ps"] (VStr (bs "BBCCDDEE")) /\
  skipn 5 (flat_map ps_segment (decoded_in (two_names ++ [((30 * sec)%Z, group4 0x2204 0x040B 0xE0E0 0x4545, 0)]) (out ++ [Some line]))) =
    [(0, 0x42, 0x42); (2, 0x44, 0x44); (1, 0x43, 0x43); (3, 0x45, 0x45); (0, 0x42, 0x42); (1, 0x43, 0x43); (2, 0x44, 0x44); (3, 0x45, 0x45)].
Proof.
  exists (match two_names_run with Ok (c, _) => c | _ => Channel_new Options_default 0 end).
  exists (match two_names_run with Ok (_, out) => removelast out | _ => [] end).
  exists (match two_names_run with Ok (_, out) => match last out None with Some l => l | None => [] end | _ => [] end).
  split; [vm_compute; reflexivity|]. split; vm_compute; reflexivity.
Qed.

(* The first segment is needed.  A name received completely, then segment 1 of another name, whose segment 0 is missed: the line
   shows a mixture of both as complete. *)
Theorem C27_mixed_name_refuted : exists gs c out line,
  flat_map ps_segment (groups_of gs) =
    [(0, 0x41, 0x42); (1, 0x43, 0x44); (2, 0x45, 0x46);                                       (* last part of "ABCDEF.." *)
     (0, 0x41, 0x41); (1, 0x41, 0x41); (2, 0x41, 0x41); (3, 0x41, 0x41);                      (* "AAAAAAAA" *)
     (1, 0x42, 0x42)] /\                                                                      (* "..BB...." *)
  run_groups plain_host Options_default (Channel_new Options_default 0) gs = Ok (c, out ++ [Some line]) /\
  says line ["ps"] (VStr (bs "AABBAAAA")).
Proof.
  exists (ps_groups ++ name_groups 0x4141 0x4141 0x4141 0x4141 ++ [((17 * sec)%Z, group4 0x2204 0x0409 0xE0E0 0x4242, 0)]).
  set (r := run_groups plain_host Options_default (Channel_new Options_default 0)
    (ps_groups ++ name_groups 0x4141 0x4141 0x4141 0x4141 ++ [((17 * sec)%Z, group4 0x2204 0x0409 0xE0E0 0x4242, 0)])).
  exists (match r with Ok (c, _) => c | _ => Channel_new Options_default 0 end).
  exists (match r with Ok (_, out) => removelast out | _ => [] end).
  exists (match r with Ok (_, out) => match last out None with Some l => l | None => [] end | _ => [] end).
  split; [reflexivity|]. split; vm_compute; reflexivity.
Qed.
Print Assumptions C27_mixed_name_refuted.
