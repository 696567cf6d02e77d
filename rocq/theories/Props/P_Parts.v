(* C111: RadioText, programme type name and long name of which parts are lost or repeated. *)
From Verif.Model Require Import Base Util Group Options Tables Json RdsString Tmc Station Channel.
From Verif.Spec Require Import Unicode JsonText Session Identity History Quality Texts Host Cases.
From Verif.Proofs Require Import Tac UpdateP SessionP ChannelP HostP StringP PsP RtP PartsP.
From Verif.Props Require Import P_Channel P_Radiotext.

Local Open Scope string_scope.
Local Open Scope N_scope.
Local Open Scope list_scope.

(* --- C111 --- *)
(* gs0: any history after which station p is confirmed.  gs1 and g: groups of p.  The parts of one RadioText message (one
   A/B flag, one group version) are among them in any order, repeated, some of them lost.  If what was received is a complete
   text l - since the first character was last received, each later one was received directly after the one before, up to
   the end mark or to the last position - then group g's line shows it. *)
Theorem C111_radiotext : forall env o w0 gs0 gs1 now g c out p f v l,
  host_ok env -> host_text env -> o_output_type o = OutJSON ->
  let gs := gs1 ++ [(now, g, 0)] in
  Forall received_group (gs0 ++ gs) -> p <> 0 -> three p (pis gs0) -> Forall (stays p) gs ->
  Forall (fun x => rt_segment (snd (fst x), snd x) <> [] -> carried_pi x = Some p) gs ->
  rt_segment (g, 0) <> [] ->
  uniform f v (flat_map rt_segment (groups_of gs)) -> complete_text (rt_size v) (part_writes (flat_map rt_segment (groups_of gs))) l ->
  no_plus (groups_of (gs0 ++ gs)) (groups_of gs) ->
  run_groups env o (Channel_new o w0) (gs0 ++ gs) = Ok (c, out) ->
  exists out' line s, out = out' ++ [Some line] /\ says line ["radiotext"] (VStr s) /\ trimmed (rds_text l) s.
Proof. exact rt_any_order. Qed.
Print Assumptions C111_radiotext.

(* The same for the programme type name *)
Theorem C111_type_name : forall env o w0 gs0 gs1 now g w c out p f l,
  host_ok env -> host_text env -> o_output_type o = OutJSON ->
  let gs := gs1 ++ [(now, g, w)] in
  Forall received_group (gs0 ++ gs) -> p <> 0 -> three p (pis gs0) -> Forall (stays p) gs ->
  Forall (fun x => pn_segment (snd (fst x), snd x) <> [] -> carried_pi x = Some p) gs ->
  pn_segment (g, w) <> [] ->
  uniform f VA (flat_map pn_segment (groups_of gs)) -> complete_text 8 (part_writes (flat_map pn_segment (groups_of gs))) l ->
  run_groups env o (Channel_new o w0) (gs0 ++ gs) = Ok (c, out) ->
  exists out' line, out = out' ++ [Some line] /\ says line ["pty_name"] (VStr (rds_text l)).
Proof. exact pn_any_order. Qed.
Print Assumptions C111_type_name.

(* The same for the long name, of which the bytes are UTF-8 *)
Theorem C111_long_name : forall env o w0 gs0 gs1 now g w c out p cs l,
  host_ok env -> host_text env -> o_output_type o = OutJSON ->
  let gs := gs1 ++ [(now, g, w)] in
  Forall received_group (gs0 ++ gs) -> p <> 0 -> three p (pis gs0) -> Forall (stays p) gs ->
  Forall (fun x => long_segment (snd (fst x), snd x) <> [] -> carried_pi x = Some p) gs ->
  long_segment (g, w) <> [] -> not_announced (mkGroupType 15 VA) (groups_of (gs0 ++ gs)) ->
  complete_text 32 (flat_map long_segment (groups_of gs)) l -> Forall scalar cs -> map visible l = utf8_text cs ->
  run_groups env o (Channel_new o w0) (gs0 ++ gs) = Ok (c, out) ->
  exists out' line s, out = out' ++ [Some line] /\ says line ["long_ps"] (VStr s) /\ trimmed (utf8_text cs) s.
Proof. exact lps_any_order. Qed.
Print Assumptions C111_long_name.

(* RadioText "Hello", its parts received as 1, 0, 2, 0, 0, 1, 2, 1; part 2 is from beyond the end mark *)
Definition jumbled_text : list (Z * Group * N) :=
  at_times 11 [rt2 0x2411 0x6F0D 0x2020; rt2 0x2410 0x4865 0x6C6C; rt2 0x2412 0x5858 0x5858; rt2 0x2410 0x4865 0x6C6C; rt2 0x2410 0x4865 0x6C6C;
    rt2 0x0408 0xE0E0 0x4142; rt2 0x2411 0x6F0D 0x2020; rt2 0x2412 0x5858 0x5858].
Definition text_again : Group := rt2 0x2411 0x6F0D 0x2020.
Example C111_radiotext_case : let gs := jumbled_text ++ [((19 * sec)%Z, text_again, 0)] in
  Forall received_group (ps_groups ++ gs) /\ three 0x2204 (pis ps_groups) /\ Forall (stays 0x2204) gs /\
  Forall (fun x => rt_segment (snd (fst x), snd x) <> [] -> carried_pi x = Some 0x2204) gs /\ rt_segment (text_again, 0) <> [] /\
  uniform true VA (flat_map rt_segment (groups_of gs)) /\
  complete_text 64 (part_writes (flat_map rt_segment (groups_of gs))) [0x48; 0x65; 0x6C; 0x6C; 0x6F; 0x0D] /\
  no_plus (groups_of (ps_groups ++ gs)) (groups_of gs) /\
  exists line, last_line Options_default (ps_groups ++ gs) = Some line /\ line_at ["radiotext"] line = Some (VStr (bs "Hello")).
Proof.
  cbv zeta. split; [repeat constructor; reflexivity|]. split; [exists []; reflexivity|].
  split; [repeat constructor; (left; reflexivity) || (right; reflexivity)|].
  split; [repeat constructor; intros _; reflexivity|]. split; [discriminate|]. split; [cbn; repeat constructor|].
  split; [|split; [intros g _ _ X; exact X|eexists; split; [vm_compute; reflexivity|vm_compute; reflexivity]]].
  split; [split|right; exists [0x48; 0x65; 0x6C; 0x6C; 0x6F]; split; [reflexivity|cbn; intuition discriminate]].
  - set (ws := part_writes _). vm_compute in ws. subst ws. apply (sequence_is 6 _ [(4, 0x6F); (5, 0x0D); (6, 0x20); (7, 0x20)] 0x48 _ eq_refl). reflexivity.
  - intros i b Hi. do 6 (destruct i as [|i]; [cbn in Hi; injection Hi as <-; vm_compute; reflexivity|]). destruct i; discriminate Hi.
Qed.

(* "JAZZ LIV", its two parts received as 1, 1, 0, 0, 1, 1, the last one of a name that has changed *)
Definition jumbled_type : list (Z * Group * N) :=
  at_times 11 [rt2 0xA411 0x204C 0x4956; rt2 0xA411 0x204C 0x4956; rt2 0xA410 0x4A41 0x5A5A; rt2 0xA410 0x4A41 0x5A5A; rt2 0x0408 0xE0E0 0x4142; rt2 0xA411 0x204C 0x4956].
Definition type_again : Group := rt2 0xA411 0x2B4C 0x4956.
Example C111_type_name_case : let gs := jumbled_type ++ [((19 * sec)%Z, type_again, 0)] in
  Forall received_group (ps_groups ++ gs) /\ three 0x2204 (pis ps_groups) /\ Forall (stays 0x2204) gs /\
  Forall (fun x => pn_segment (snd (fst x), snd x) <> [] -> carried_pi x = Some 0x2204) gs /\ pn_segment (type_again, 0) <> [] /\
  uniform true VA (flat_map pn_segment (groups_of gs)) /\
  complete_text 8 (part_writes (flat_map pn_segment (groups_of gs))) (bs "JAZZ+LIV") /\
  exists line, last_line Options_default (ps_groups ++ gs) = Some line /\ line_at ["pty_name"] line = Some (VStr (bs "JAZZ+LIV")).
Proof.
  cbv zeta. split; [repeat constructor; reflexivity|]. split; [exists []; reflexivity|].
  split; [repeat constructor; (left; reflexivity) || (right; reflexivity)|].
  split; [repeat constructor; intros _; reflexivity|]. split; [discriminate|]. split; [cbn; repeat constructor|].
  split; [|eexists; split; [vm_compute; reflexivity|vm_compute; reflexivity]].
  split; [split|left; split; [reflexivity|cbn; intuition discriminate]].
  - set (ws := part_writes _). vm_compute in ws. subst ws.
    apply (sequence_is 8 _ [(4, 0x20); (5, 0x4C); (6, 0x49); (7, 0x56); (4, 0x20); (5, 0x4C); (6, 0x49); (7, 0x56)] 0x4A _ eq_refl). reflexivity.
  - intros i b Hi. do 8 (destruct i as [|i]; [cbn in Hi; injection Hi as <-; vm_compute; reflexivity|]). destruct i; discriminate Hi.
Qed.

(* "Hör" with an end mark, its parts received as 1, 0, 3, 0, 1, 3 *)
Definition jumbled_long : list (Z * Group * N) :=
  at_times 11 [rt2 0xF401 0x200D 0x2020; rt2 0xF400 0x48C3 0xB672; rt2 0xF403 0x5858 0x5858; rt2 0xF400 0x48C3 0xB672; rt2 0x0408 0xE0E0 0x4142; rt2 0xF401 0x200D 0x2020].
Definition long_again : Group := rt2 0xF403 0x5858 0x5858.
Example C111_long_name_case : let gs := jumbled_long ++ [((19 * sec)%Z, long_again, 0)] in
  Forall received_group (ps_groups ++ gs) /\ three 0x2204 (pis ps_groups) /\ Forall (stays 0x2204) gs /\
  Forall (fun x => long_segment (snd (fst x), snd x) <> [] -> carried_pi x = Some 0x2204) gs /\ long_segment (long_again, 0) <> [] /\
  not_announced (mkGroupType 15 VA) (groups_of (ps_groups ++ gs)) /\
  complete_text 32 (flat_map long_segment (groups_of gs)) (utf8_text [72; 0xF6; 114; 32] ++ [end_of_text]) /\
  Forall scalar [72; 0xF6; 114; 32; 32] /\ map visible (utf8_text [72; 0xF6; 114; 32] ++ [end_of_text]) = utf8_text [72; 0xF6; 114; 32; 32] /\
  exists line, last_line Options_default (ps_groups ++ gs) = Some line /\ line_at ["long_ps"] line = Some (VStr (utf8_text [72; 0xF6; 114])).
Proof.
  cbv zeta. split; [repeat constructor; reflexivity|]. split; [exists []; reflexivity|].
  split; [repeat constructor; (left; reflexivity) || (right; reflexivity)|].
  split; [repeat constructor; intros _; reflexivity|]. split; [discriminate|]. split; [intros a []|].
  split; [|split; [repeat constructor; left; reflexivity|split; [reflexivity|eexists; split; [vm_compute; reflexivity|vm_compute; reflexivity]]]].
  split; [split|right; eexists; split; [reflexivity|cbn; intuition discriminate]].
  - set (ws := flat_map _ _). vm_compute in ws. subst ws. apply (sequence_is 6 _ [(4, 0x20); (5, 0x0D); (6, 0x20); (7, 0x20)] 0x48 _ eq_refl). reflexivity.
  - intros i b Hi. do 6 (destruct i as [|i]; [cbn in Hi; injection Hi as <-; vm_compute; reflexivity|]). destruct i; discriminate Hi.
Qed.
