(* C83: what is shown of a traffic message service and of other networks. *)
From Verif.Model Require Import Base Util Group Options Tables Json RdsString Tmc Station Channel.
From Verif.Spec Require Import Numerals Unicode JsonText Session Identity History Quality Texts Labels Traffic Service Host Cases.
From Verif.Proofs Require Import Tac SessionP TmcRunP TmcSysP.
From Verif.Props Require Import P_Channel P_Radiotext P_Tmc.

Local Open Scope string_scope.
Local Open Scope N_scope.
Local Open Scope list_scope.

(* An administration group shows the service, the key and the location table *)
Theorem C83_administration : forall env o w0 gs0 gs1 now g w c out p y z,
  host_ok env -> host_text env -> o_output_type o = OutJSON ->
  traffic_from p gs0 (gs1 ++ [(now, g, w)]) -> tmc_started (items_of gs1) ->
  user_groups (app_items (g, w)) = [(0, y, z)] ->
  run_groups env o (Channel_new o w0) (gs0 ++ gs1 ++ [(now, g, w)]) = Ok (c, out) ->
  exists out' line, out = out' ++ [Some line] /\ administration_shown line y z.
Proof. intros. eapply administration_line; eassumption. Qed.
Print Assumptions C83_administration.

(* Tuning information: what is shown of other networks is what the group carries *)
Theorem C83_other_networks : forall env o w0 gs0 gs1 now g w c out p x y z,
  host_ok env -> host_text env -> o_output_type o = OutJSON ->
  traffic_from p gs0 (gs1 ++ [(now, g, w)]) -> tmc_started (items_of gs1) ->
  user_groups (app_items (g, w)) = [(x, y, z)] -> 16 <= x ->
  run_groups env o (Channel_new o w0) (gs0 ++ gs1 ++ [(now, g, w)]) = Ok (c, out) ->
  exists out' line, out = out' ++ [Some line] /\ network_shown line x y z.
Proof. intros. eapply network_line; eassumption. Qed.
Print Assumptions C83_other_networks.

(* The name of the provider is shown once its eight characters have been received in order since the
   service was announced *)
Theorem C83_provider : forall env o w0 gs0 gs1 now g w c out p x y z l1 l2 earlier l,
  host_ok env -> host_text env -> o_output_type o = OutJSON ->
  traffic_from p gs0 (gs1 ++ [(now, g, w)]) ->
  items_of (gs1 ++ [(now, g, w)]) = l1 ++ l2 -> tmc_started l1 ->
  user_groups (app_items (g, w)) = [(x, y, z)] -> x = 20 \/ x = 21 ->
  provider_writes l2 = earlier ++ place 0 l -> length l = 8%nat -> ~ In end_of_text l ->
  run_groups env o (Channel_new o w0) (gs0 ++ gs1 ++ [(now, g, w)]) = Ok (c, out) ->
  exists out' line, out = out' ++ [Some line] /\ says line ["tmc"; "service_provider"] (VStr (rds_text l)).
Proof. intros. eapply provider_line; eassumption. Qed.
Print Assumptions C83_provider.

(* A name that is shown was received completely: its characters, in order, are the latest received *)
Theorem C83_provider_is_complete : forall env o w0 gs now g w c out line v,
  host_ok env -> o_output_type o = OutJSON -> Forall received_group (gs ++ [(now, g, w)]) ->
  tmc_in_8A (items_of (gs ++ [(now, g, w)])) -> stays_tmc (items_of (gs ++ [(now, g, w)])) ->
  run_groups env o (Channel_new o w0) (gs ++ [(now, g, w)]) = Ok (c, out ++ [Some line]) ->
  says line ["tmc"; "service_provider"] v ->
  exists l, complete_text 8 (provider_writes (flat_map app_items (decoded_in (gs ++ [(now, g, w)]) (out ++ [Some line])))) l /\
    v = VStr (rds_text l).
Proof. exact provider_complete. Qed.
Print Assumptions C83_provider_is_complete.

(* ---- cases ---- *)
Definition in_service (g : Group) : Prop := let gs1 := at_times 11 [plain_service] in
  traffic_from 0x2204 ps_groups (gs1 ++ [((12 * sec)%Z, g, 0)]) /\ tmc_started (items_of gs1).
Definition service_last (g : Group) : option bytes := traffic_last (ps_groups ++ at_times 11 [plain_service] ++ [((12 * sec)%Z, g, 0)]).
Ltac serving := split; [meet|exists type_8A, 0xCD46, 0x0040; split; [left; reflexivity|split; reflexivity]].

Example C83_administration_case : let g := rt2 0x8400 0x0125 0x0400 in
  in_service g /\ user_groups (app_items (g, 0)) = [(0, 0x0125, 0x0400)] /\
  exists line, service_last g = Some line /\ says line ["tmc"; "system_info"; "service_id"] (VNum (bs "9")) /\
    says line ["tmc"; "system_info"; "encryption_id"] (VNum (bs "5")) /\ says line ["tmc"; "system_info"; "location_table"] (VNum (bs "1")).
Proof.
  split; [serving|]. split; [reflexivity|]. eexists. split; [vm_compute; reflexivity|]. split; [vm_compute; reflexivity|]. split; [vm_compute; reflexivity|vm_compute; reflexivity].
Qed.

Example C83_other_networks_case : let g := rt2 0x8419 0x07C5 0xD318 in
  in_service g /\ user_groups (app_items (g, 0)) = [(25, 0x07C5, 0xD318)] /\
  exists line, service_last g = Some line /\ says line ["tmc"; "other_network"; "pi"] (VStr (bs "0xD318")) /\
    says line ["tmc"; "other_network"; "service_id"] (VNum (bs "5")) /\ says line ["tmc"; "other_network"; "location_table"] (VNum (bs "1")) /\
    says line ["tmc"; "other_network"; "scope"] (VArr [VStr (bs "inter-road"); VStr (bs "national"); VStr (bs "regional"); VStr (bs "urban")]).
Proof.
  split; [serving|]. split; [reflexivity|]. eexists. split; [vm_compute; reflexivity|]. split; [vm_compute; reflexivity|]. split; [vm_compute; reflexivity|]. split; [vm_compute; reflexivity|vm_compute; reflexivity].
Qed.
Example C83_two_networks_case : let g := rt2 0x8418 0xD301 0xD302 in
  in_service g /\ user_groups (app_items (g, 0)) = [(24, 0xD301, 0xD302)] /\
  exists line, service_last g = Some line /\ says line ["tmc"; "other_network"; "pi_codes"] (VArr [VStr (bs "0xD301"); VStr (bs "0xD302")]).
Proof. split; [serving|]. split; [reflexivity|]. eexists. split; [vm_compute; reflexivity|vm_compute; reflexivity]. Qed.

(* The name "Traffic+", after a part of another one *)
Example C83_provider_case : let gs1 := at_times 11 [plain_service; rt2 0x8415 0x4142 0x4344; rt2 0x8414 0x5472 0x6166] in let g := rt2 0x8415 0x6669 0x632B in
  traffic_from 0x2204 ps_groups (gs1 ++ [((20 * sec)%Z, g, 0)]) /\
  (exists l1 l2, items_of (gs1 ++ [((20 * sec)%Z, g, 0)]) = l1 ++ l2 /\ tmc_started l1 /\ provider_writes l2 = place 4 (bs "ABCD") ++ place 0 (bs "Traffic+")) /\
  user_groups (app_items (g, 0)) = [(21, 0x6669, 0x632B)] /\ ~ In end_of_text (bs "Traffic+") /\
  exists line, traffic_last (ps_groups ++ gs1 ++ [((20 * sec)%Z, g, 0)]) = Some line /\ says line ["tmc"; "service_provider"] (VStr (bs "Traffic+")).
Proof.
  split; [meet|]. split.
  { eexists [_], [_; _; _]. split; [vm_compute; reflexivity|]. split; [eexists type_8A, 0xCD46, 0x0040; split; [left; reflexivity|split; reflexivity]|vm_compute; reflexivity]. }
  split; [reflexivity|]. split; [intros X; cbn in X; repeat (destruct X as [X|X]; [discriminate X|]); destruct X|]. eexists. split; [vm_compute; reflexivity|vm_compute; reflexivity].
Qed.

(* ---- what is not so ---- *)
(* The two frequencies of another network (87.6 and 87.7 MHz) are not shown; and of two networks of which the
   first is 0 the second is not shown. *)
Theorem C83_frequencies_refuted : ~ forall g a b z line, in_service g -> user_groups (app_items (g, 0)) = [(22, 256 * a + b, z)] ->
  1 <= a <= 204 -> 1 <= b <= 204 -> service_last g = Some line -> says_list line ["tmc"; "other_network"; "frequencies_khz"] [87500 + 100 * a; 87500 + 100 * b].
Proof.
  intros A. remember (service_last (rt2 0x8416 0x0102 0xD318)) as l eqn:E. destruct l as [line|]; [|vm_compute in E; discriminate E].
  specialize (A (rt2 0x8416 0x0102 0xD318) 1 2 0xD318 line). destruct A as (ts & S & _); [serving|reflexivity|lia|lia|symmetry; exact E|].
  assert (N0 : match service_last (rt2 0x8416 0x0102 0xD318) with Some l => line_at ["tmc"; "other_network"; "frequencies_khz"] l | None => None end = None) by (vm_compute; reflexivity).
  rewrite <- E in N0. unfold says in S. congruence.
Qed.
Print Assumptions C83_frequencies_refuted.
