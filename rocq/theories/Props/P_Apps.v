(* C58: open data applications. *)
From Verif.Model Require Import Base Util Group Options Tables Json RdsString Tmc Station Channel.
From Verif.Spec Require Import Numerals Unicode JsonText Session Identity History Quality Texts Apps Labels Host Cases.
From Verif.Proofs Require Import Tac Numerals TextP UpdateP SessionP ChannelP HostP AppsP.
From Verif.Props Require Import P_Channel P_Radiotext P_Names.

Local Open Scope string_scope.
Local Open Scope N_scope.
Local Open Scope list_scope.

(* --- C58 --- *)
(* gs0 is any history after which station p is confirmed, gs1 ++ [g] is anything of the same station.
   If a is the application assigned last in gs1 to the type of g, then the line of g has, besides the
   members of every line, only those of application a.  If a is not known to the program, the line says
   its number.  If a is the DAB cross-reference, it says the mode, the
   frequency, the channel of that frequency if there is one, and the ensemble sent. *)
Theorem C58_latest_application_decodes : forall env o w0 gs0 gs1 now g c out p a,
  host_ok env -> host_text env -> o_output_type o = OutJSON ->
  let gs := gs1 ++ [(now, g, 0)] in
  Forall received_group (gs0 ++ gs) -> p <> 0 -> three p (pis gs0) -> Forall (stays p) gs -> carried_pi (now, g, 0) = Some p ->
  Forall (fun x => announcement (snd (fst x), snd x) <> [] -> carried_pi x = Some p) gs ->
  g_has_type g = true -> In (g_type g) for_applications -> assigned_last (g_type g) (flat_map announcement (groups_of gs)) a ->
  run_groups env o (Channel_new o w0) (gs0 ++ gs) = Ok (c, out) ->
  exists out' line, out = out' ++ [Some line] /\
    (forall k v, says line [k] v -> ~ In k common_members -> k <> "debug" -> In (a, k) applications \/ (~ decoded_app a /\ k = "unknown_oda")) /\
    (~ decoded_app a -> (exists t, says line ["unknown_oda"; "app_id"] (VStr t) /\ hex4 t a) /\
      exists t, says line ["unknown_oda"; "raw_data"] (VStr t) /\ hex_group (blk_data (g_b2 g)) (blk_is_received (g_b3 g)) (blk_data (g_b3 g)) (blk_is_received (g_b4 g)) (blk_data (g_b4 g)) t) /\
    (a = 0x0093 -> blk_is_received (g_b3 g) = true -> blk_is_received (g_b4 g) = true -> N.testbit (blk_data (g_b2 g)) 4 = false ->
     let khz := 16 * ((blk_data (g_b2 g) mod 4) * 65536 + blk_data (g_b3 g)) in
     says line ["dab"; "mode"] (VStr (bs (nth (N.to_nat ((blk_data (g_b2 g) / 4) mod 4)) ["unspecified"; "I"; "II or III"; "IV"] ""))) /\
     (exists t, says line ["dab"; "kilohertz"] (VNum t) /\ numeral 10 t = Some khz) /\
     (forall ch, In (khz, ch) dab_plan -> says line ["dab"; "channel"] (VStr (bs ch))) /\
     ((forall ch, ~ In (khz, ch) dab_plan) -> line_at ["dab"; "channel"] line = None) /\
     (exists t, says line ["dab"; "ensemble_id"] (VStr (bs "0x" ++ t)) /\ hex4 t (blk_data (g_b4 g)))).
Proof. intros env o w0 gs0 gs1 now g c out p a H HT OJ. exact (app_latest env o H HT OJ w0 gs0 gs1 now g c out p a). Qed.
Print Assumptions C58_latest_application_decodes.

(* If none was ever assigned to a type without a meaning of its own, the line shows only the blocks *)
Theorem C58_no_application_assigned : forall env o w0 gs0 gs1 now g c out p,
  host_ok env -> host_text env -> o_output_type o = OutJSON ->
  let gs := gs1 ++ [(now, g, 0)] in
  Forall received_group (gs0 ++ gs) -> p <> 0 -> three p (pis gs0) -> Forall (stays p) gs -> carried_pi (now, g, 0) = Some p ->
  g_has_type g = true -> In (g_type g) for_applications -> ~ In (g_type g) own_meaning -> not_announced (g_type g) (groups_of (gs0 ++ gs)) ->
  run_groups env o (Channel_new o w0) (gs0 ++ gs) = Ok (c, out) ->
  exists out' line, out = out' ++ [Some line] /\
    (forall k v, says line [k] v -> ~ In k common_members -> k = "unknown_oda") /\
    (exists t, says line ["unknown_oda"; "raw_data"] (VStr t) /\ hex_group (blk_data (g_b2 g)) (blk_is_received (g_b3 g)) (blk_data (g_b3 g)) (blk_is_received (g_b4 g)) (blk_data (g_b4 g)) t) /\ line_at ["unknown_oda"; "app_id"] line = None.
Proof. intros env o w0 gs0 gs1 now g c out p H HT OJ. exact (app_none env o H HT OJ w0 gs0 gs1 now g c out p). Qed.
Print Assumptions C58_no_application_assigned.

(* 11A assigned to RadioText Plus, 12A to an unknown application, then 11A to DAB *)
Definition assigning (last : Group) : list (Z * Group * N) :=
  at_times 11 [rt2 0x3416 0x0000 0x4BD7; rt2 0x3418 0x0000 0x1234; rt2 0x3416 0x0000 0x0093; last].
Example C58_case : let g := rt2 0xB404 0x2AB5 0xCE15 in
  Forall received_group (ps_groups ++ assigning g) /\ three 0x2204 (pis ps_groups) /\ Forall (stays 0x2204) (assigning g) /\
  Forall (fun x => announcement (snd (fst x), snd x) <> [] -> carried_pi x = Some 0x2204) (assigning g) /\
  g_has_type g = true /\ In (g_type g) for_applications /\ assigned_last (g_type g) (flat_map announcement (groups_of (assigning g))) 0x0093 /\
  (exists line, last_line Options_default (ps_groups ++ assigning g) = Some line /\
     says line ["dab"; "mode"] (VStr (bs "I")) /\ says line ["dab"; "kilohertz"] (VNum (bs "174928")) /\ says line ["dab"; "channel"] (VStr (bs "5A")) /\ says line ["dab"; "ensemble_id"] (VStr (bs "0xCE15")) /\ line_at ["radiotext_plus"] line = None) /\
  (exists line, last_line Options_default (ps_groups ++ assigning (rt2 0xC400 0x1111 0x2222)) = Some line /\ says line ["unknown_oda"; "app_id"] (VStr (bs "1234"))).
Proof.
  split; [repeat constructor; reflexivity|]. split; [exists []; reflexivity|]. split; [repeat constructor; left; reflexivity|].
  split; [repeat constructor; intros _; reflexivity|]. split; [reflexivity|]. split; [cbn; tauto|].
  split; [exists [(mkGroupType 11 VA, 0x4BD7); (mkGroupType 12 VA, 0x1234)], []; split; [reflexivity|intros b []]|]. split.
  - eexists. split; [vm_compute; reflexivity|]. repeat split; vm_compute; reflexivity.
  - eexists. split; [vm_compute; reflexivity|]. vm_compute. reflexivity.
Qed.
Example C58_none_case : let g := rt2 0xD400 0x1111 0x2222 in
  In (g_type g) for_applications /\ ~ In (g_type g) own_meaning /\ not_announced (g_type g) (groups_of (ps_groups ++ assigning g)) /\
  exists line, last_line Options_default (ps_groups ++ assigning g) = Some line /\ says line ["unknown_oda"; "raw_data"] (VStr (bs "00 1111 2222")).
Proof.
  split; [cbn; tauto|]. split; [vm_compute; intuition discriminate|]. split; [intros a; vm_compute; intuition discriminate|].
  eexists. split; [vm_compute; reflexivity|]. vm_compute. reflexivity.
Qed.

(* --- C66 --- *)
(* Without the blocks that carry them, a DAB frequency and ensemble are shown nevertheless. *)
Theorem C66_dab_without_blocks_refuted : exists gs g line,
  last_line Options_default (gs ++ [g]) = Some line /\ blk_is_received (g_b3 (snd (fst g))) = false /\ blk_is_received (g_b4 (snd (fst g))) = false /\
  says line ["dab"; "kilohertz"] (VNum (bs "0")) /\ says line ["dab"; "ensemble_id"] (VStr (bs "0x0000")).
Proof.
  exists (ps_groups ++ at_times 11 [rt2 0x3416 0x0000 0x0093]),
    ((12 * sec)%Z, g_setBlock (g_setBlock Group_default BLOCK1 (rx OffA 0x2204)) BLOCK2 (rx OffB 0xB404), 0).
  eexists. split; [vm_compute; reflexivity|]. repeat split; vm_compute; reflexivity.
Qed.
Print Assumptions C66_dab_without_blocks_refuted.
