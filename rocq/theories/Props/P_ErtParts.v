(* C111, for Enhanced RadioText: texts of which parts are lost or repeated. *)
From Verif.Model Require Import Base Util Group Options Tables Json RdsString Tmc Station Channel.
From Verif.Spec Require Import Unicode JsonText Session Identity History Quality Texts Apps Traffic Enhanced Host Cases.
From Verif.Proofs Require Import Tac Numerals JsonP TextP Utf8P CleanP UpdateP SessionP LineP ChannelP ShowP TraceP HostP StringP FreqP PsP RtP LpsP ErtP PartsP.
From Verif.Props Require Import P_Channel P_Radiotext P_Plus P_Enhanced.

Local Open Scope string_scope.
Local Open Scope N_scope.
Local Open Scope list_scope.

(* As C84_text_received_is_shown, but the parts may have been received in any order, repeated and with losses, as long as
   what was received since the announcement is a complete text l: since its first character was last received, each
   later one was received directly after the one before, up to the end mark or to the last position. *)
Theorem C111_enhanced_radiotext : forall env o w0 gs0 ga gb now g w c out p t m cs l,
  host_ok env -> host_text env -> o_output_type o = OutJSON ->
  let gs := ga ++ gb ++ [(now, g, w)] in
  Forall received_group (gs0 ++ gs) -> p <> 0 -> three p (pis gs0) -> Forall (stays p) gs ->
  Forall (fun x => app_items (snd (fst x), snd x) <> [] \/ ert_segment t (snd (fst x), snd x) <> [] -> carried_pi x = Some p) gs ->
  In t for_applications -> in_utf8 m -> let all := groups_of (gs0 ++ gs) in ert_only t m all -> ert_whole t all -> ert_short t all ->
  In (t, 0x6552) (flat_map announcement (groups_of ga)) ->
  ert_segment t (g, w) <> [] ->
  complete_text 64 (flat_map (ert_segment t) (groups_of (gb ++ [(now, g, w)]))) l -> Forall scalar cs -> map visible l = utf8_text cs ->
  run_groups env o (Channel_new o w0) (gs0 ++ gs) = Ok (c, out) ->
  exists out' line s, out = out' ++ [Some line] /\ says line ["enhanced_radiotext"] (VStr s) /\ trimmed (utf8_text cs) s.
Proof.
  intros env o w0 gs0 ga gb now g w c out p t m cs l H HT OJ gs F Np T3 S P Ta U all O W Sh An Pl Cm Fc Vl E.
  destruct (ert_received_any env o w0 gs0 ga gb now g w c out p t m _ H HT OJ F Np T3 S P Ta O W Sh An Pl eq_refl E) as (out' & ln & s0 & h & j & -> & Z0 & En0 & Wok & Pj & Ch & _ & Ej).
  rewrite (utf8_start m _ U) in En0. exists out', ln. cbv zeta in Ej.
  destruct (any_complete (env_ucs2 env) 64 _ s0 l Z0 ltac:(lia) ltac:(congruence) Wok Cm) as (Cp & Ls & Sb & Fb).
  pose proof (complete_str (env_ucs2 env) _ Fb Cp) as X. rewrite set_all_encoding, En0, Sb, Vl in X.
  remember (set_all (env_ucs2 env) s0 (flat_map (ert_segment t) (groups_of (gb ++ [(now, g, w)])))) as s' eqn:Es'. rewrite Cp in Ej.
  assert (Lc : s_last_complete_string s' = utf8_text cs) by congruence.
  exists (rtrim (s_last_complete_string s')). split; [reflexivity|]. split; [|rewrite Lc; apply rtrim_trimmed].
  assert (Cj : clean j).
  { rewrite Ej. apply put_clean; [exact Ch|reflexivity|].
    unfold clean. cbn [json_utf8]. rewrite Lc. apply txt_rtrim. apply valid_is_utf8. exists cs. split; [exact Fc|reflexivity]. }
  unfold says. rewrite (clean_shows env j ln H Cj Pj), Ej. cbn [jget]. rewrite find_put. reflexivity.
Qed.
Print Assumptions C111_enhanced_radiotext.

(* "Köln!" in groups 11A, its parts received as 1, 0, 5, 0, 1, 5, 1; part 5 is from beyond the end mark *)
Definition ert_jumbled : list (Z * Group * N) :=
  at_times 12 [rt2 0xB401 0x6E21 0x0D20; rt2 0xB400 0x4BC3 0xB66C; rt2 0xB405 0x5858 0x5858; rt2 0xB400 0x4BC3 0xB66C; rt2 0x3416 0x0001 0x6552; rt2 0xB401 0x6E21 0x0D20; rt2 0xB405 0x5858 0x5858].
Example C111_enhanced_case : let t := mkGroupType 11 VA in let gs := ert_announced ++ ert_jumbled ++ [((20 * sec)%Z, ert_last, 0)] in let all := groups_of (ps_groups ++ gs) in
  Forall received_group (ps_groups ++ gs) /\ three 0x2204 (pis ps_groups) /\ Forall (stays 0x2204) gs /\
  Forall (fun x => app_items (snd (fst x), snd x) <> [] \/ ert_segment t (snd (fst x), snd x) <> [] -> carried_pi x = Some 0x2204) gs /\
  In t for_applications /\ in_utf8 1 /\ ert_only t 1 all /\ ert_whole t all /\ ert_short t all /\
  In (t, 0x6552) (flat_map announcement (groups_of ert_announced)) /\ ert_segment t (ert_last, 0) <> [] /\
  complete_text 64 (flat_map (ert_segment t) (groups_of (ert_jumbled ++ [((20 * sec)%Z, ert_last, 0)]))) (utf8_text [75; 0xF6; 108; 110; 33] ++ [end_of_text]) /\
  map visible (utf8_text [75; 0xF6; 108; 110; 33] ++ [end_of_text]) = utf8_text [75; 0xF6; 108; 110; 33; 32] /\
  exists line, last_line Options_default (ps_groups ++ gs) = Some line /\ line_at ["enhanced_radiotext"] line = Some (VStr (utf8_text [75; 0xF6; 108; 110; 33])).
Proof.
  intros t gs all. split; [apply (Forall_by _ receivedb _ receivedb_ok); vm_compute; reflexivity|]. split; [exists []; reflexivity|].
  split; [apply (Forall_by _ (pi_is 0x2204)); [intros ? ?; right; apply pi_is_ok; assumption|vm_compute; reflexivity]|].
  split; [apply (Forall_by _ (pi_is 0x2204)); [intros ? ? _; apply pi_is_ok; assumption|vm_compute; reflexivity]|].
  split; [vm_compute; tauto|]. split; [reflexivity|]. split; [only_here|]. split; [whole_here|].
  split; [apply (Forall_by _ (fun pb => fst pb <? 64)); [intros x X; apply N.ltb_lt; exact X|vm_compute; reflexivity]|].
  split; [left; reflexivity|]. split; [discriminate|]. split; [|split; [vm_compute; reflexivity|exists (the_line Options_default (ps_groups ++ gs)); split; vm_compute; reflexivity]].
  split; [split|right; exists (utf8_text [75; 0xF6; 108; 110; 33]); split; [reflexivity|vm_compute; intuition discriminate]].
  - change (N.of_nat (length (utf8_text [75; 0xF6; 108; 110; 33] ++ [end_of_text]))) with 7.
    set (ws := flat_map _ _). vm_compute in ws. subst ws.
    apply (sequence_is 7 _ [(4, 0x6E); (5, 0x21); (6, 0x0D); (7, 0x20)] 75 _ eq_refl). reflexivity.
  - intros i b Hi. do 7 (destruct i as [|i]; [cbn in Hi; injection Hi as <-; vm_compute; reflexivity|]). destruct i; discriminate Hi.
Qed.
