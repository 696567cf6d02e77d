(* C95: RadioText Plus tags on Enhanced RadioText. *)
From Verif.Model Require Import Base Util Group Options Tables Json RdsString Tmc Station Channel.
From Verif.Spec Require Import Unicode JsonText Session Identity History Quality Texts Apps Traffic Enhanced Plus Host Cases.
From Verif.Proofs Require Import Tac Numerals TextP UpdateP SessionP ChannelP HostP StringP PsP RtP LpsP ErtP ErtPlusP ErtTagsP.
From Verif.Props Require Import P_Channel P_Radiotext P_Plus P_Enhanced.

Local Open Scope string_scope.
Local Open Scope N_scope.
Local Open Scope list_scope.

(* Tags that are shown were sent in this group, and quote a text that had been received completely *)
Theorem C95_tags_shown_are_true : forall env o w0 gs now g w c out line v t m,
  host_ok env -> o_output_type o = OutJSON -> Forall received_group (gs ++ [(now, g, w)]) ->
  In t for_applications -> in_utf8 m ->
  let all := groups_of (gs ++ [(now, g, w)]) in ert_assigned t m all -> ert_whole t all -> ert_short t all ->
  run_groups env o (Channel_new o w0) (gs ++ [(now, g, w)]) = Ok (c, out ++ [Some line]) -> says line ["ert_plus"; "tags"] v ->
  exists ws rest l, flat_map (ert_segment t) (decoded_in (gs ++ [(now, g, w)]) (out ++ [Some line])) = ws ++ rest /\ complete_text 64 ws l /\
    forall cs, Forall scalar cs -> map visible l = utf8_text cs ->
    exists keep vs, v = VArr vs /\ Forall2 (shows_chars cs) (filter keep (tags_in g)) vs /\
      Forall (fun tg => real tg = true /\ fits_chars cs tg) (filter keep (tags_in g)).
Proof. exact ert_tags_true. Qed.
Print Assumptions C95_tags_shown_are_true.

(* gs0 is any history after which station p is confirmed; what follows is anything of the same station.
   Within ga, Enhanced RadioText is announced in groups of type t and RadioText Plus for it in those of
   type t2.  From g1 on, the groups of type t2 are about the same item, and the text was received since.
   Then the line of g shows just the tags in g, each with the characters that it is about. *)
Theorem C95_tags_sent_are_shown : forall env o w0 gs0 ga now1 g1 gb now g c out p t m t2 l body earlier,
  host_ok env -> host_text env -> o_output_type o = OutJSON ->
  let gs := (ga ++ (now1, g1, 0) :: gb) ++ [(now, g, 0)] in
  Forall received_group (gs0 ++ gs) -> p <> 0 -> three p (pis gs0) -> Forall (stays p) gs ->
  Forall (fun x => app_group (snd (fst x), snd x) = true \/ announcement (snd (fst x), snd x) <> [] -> carried_pi x = Some p) gs ->
  In t for_applications -> In t2 for_applications -> t <> t2 -> in_utf8 m -> let all := groups_of (gs0 ++ gs) in
  ert_assigned t m all -> ert_plus_in t2 all -> ert_whole t all -> ert_short t all ->
  In (t, 0x6552) (flat_map announcement (groups_of ga)) -> In (t2, 0x4BD8) (flat_map announcement (groups_of ga)) ->
  app_group (g1, 0) = true -> g_type g1 = t2 -> app_group (g, 0) = true -> g_type g = t2 ->
  (forall x, In x (groups_of gb ++ [(g, 0)]) -> app_group x = true -> g_type (fst x) = t2 -> item_bits (fst x) = item_bits g1) ->
  flat_map (ert_segment t) (groups_of gb) = earlier ++ place 0 l -> ert_text l body ->
  Forall (fun tg => real tg = true -> fits_chars body tg) (tags_in g) ->
  run_groups env o (Channel_new o w0) (gs0 ++ gs) = Ok (c, out) ->
  exists out' line vs, out = out' ++ [Some line] /\ Forall2 (shows_chars body) (filter real (tags_in g)) vs /\
    line_at ["ert_plus"; "tags"] line = match vs with [] => None | _ => Some (VArr vs) end /\
    says line ["ert_plus"; "item_running"] (VBool (snd (item_bits g1))) /\
    says line ["ert_plus"; "item_toggle"] (VNum (if fst (item_bits g1) then bs "1" else bs "0")).
Proof. exact ert_tags_shown. Qed.
Print Assumptions C95_tags_sent_are_shown.

(* "Köln!" in groups 11A; the tags, in groups 12A, are "Köln!" and "n!" *)
Definition ep_announced : list (Z * Group * N) := at_times 11 [rt2 0x3416 0x0001 0x6552; rt2 0x3418 0 0x4BD8].
Definition ep_first : Group := rt2 0xC418 0 0.
Definition ep_text : list (Z * Group * N) := at_times 14 [rt2 0xB405 0x5858 0x5858; rt2 0xB400 0x4BC3 0xB66C; rt2 0xC418 0 0; rt2 0xB401 0x6E21 0x0D20; rt2 0x3418 0 0x4BD8].
Definition ep_last : Group := rt2 0xC418 0x2008 0x2061.
Definition ep_case : list (Z * Group * N) := (ep_announced ++ ((13 * sec)%Z, ep_first, 0) :: ep_text) ++ [((19 * sec)%Z, ep_last, 0)].
Ltac plus_here := intros t' a m X;
  match type of X with In _ ?l => let v := eval vm_compute in l in change l with v in X end;
  repeat (destruct X as [X|X]; [first [discriminate X|injection X as <- <- <-; intros [Y|Y]; first [discriminate Y|repeat split; reflexivity]]|]); destruct X.
Ltac item_here := intros x X;
  match type of X with In _ ?l => let v := eval vm_compute in l in change l with v in X end;
  repeat (destruct X as [<-|X]; [intros A T; first [discriminate A|discriminate T|reflexivity]|]); destruct X.
Example C95_case : let t := mkGroupType 11 VA in let t2 := mkGroupType 12 VA in let all := groups_of (ps_groups ++ ep_case) in
  let body := [75; 0xF6; 108; 110; 33] ++ [32] in
  Forall received_group (ps_groups ++ ep_case) /\ three 0x2204 (pis ps_groups) /\ Forall (stays 0x2204) ep_case /\
  Forall (fun x => app_group (snd (fst x), snd x) = true \/ announcement (snd (fst x), snd x) <> [] -> carried_pi x = Some 0x2204) ep_case /\
  In t for_applications /\ In t2 for_applications /\ t <> t2 /\ in_utf8 1 /\
  ert_assigned t 1 all /\ ert_plus_in t2 all /\ ert_whole t all /\ ert_short t all /\
  In (t, 0x6552) (flat_map announcement (groups_of ep_announced)) /\ In (t2, 0x4BD8) (flat_map announcement (groups_of ep_announced)) /\
  app_group (ep_first, 0) = true /\ g_type ep_first = t2 /\ app_group (ep_last, 0) = true /\ g_type ep_last = t2 /\
  (forall x, In x (groups_of ep_text ++ [(ep_last, 0)]) -> app_group x = true -> g_type (fst x) = t2 -> item_bits (fst x) = item_bits ep_first) /\
  flat_map (ert_segment t) (groups_of ep_text) = place 20 (bs "XXXX") ++ place 0 (utf8_text [75; 0xF6; 108; 110; 33] ++ end_of_text :: [32]) /\
  ert_text (utf8_text [75; 0xF6; 108; 110; 33] ++ end_of_text :: [32]) body /\
  tags_in ep_last = [mkTag 1 0 5; mkTag 4 3 2] /\ Forall (fun tg => real tg = true -> fits_chars body tg) (tags_in ep_last) /\
  last_line Options_default (ps_groups ++ ep_case) = Some (the_line Options_default (ps_groups ++ ep_case)) /\
  says (the_line Options_default (ps_groups ++ ep_case)) ["ert_plus"; "tags"]
    (VArr [VObj [(bs "content-type", VStr (bs "item.title")); (bs "data", VStr (utf8_text [75; 0xF6; 108; 110; 33]))];
           VObj [(bs "content-type", VStr (bs "item.artist")); (bs "data", VStr (bs "n!"))]]).
Proof.
  intros t t2 all body. split; [apply (Forall_by _ receivedb _ receivedb_ok); vm_compute; reflexivity|]. split; [exists []; reflexivity|].
  split; [apply (Forall_by _ (pi_is 0x2204)); [intros ? ?; right; apply pi_is_ok; assumption|vm_compute; reflexivity]|].
  split; [apply (Forall_by _ (pi_is 0x2204)); [intros ? ? _; apply pi_is_ok; assumption|vm_compute; reflexivity]|].
  split; [vm_compute; tauto|]. split; [vm_compute; tauto|]. split; [discriminate|]. split; [reflexivity|]. split; [plus_here|]. split; [plus_here|]. split; [whole_here|].
  split; [apply (Forall_by _ (fun pb => fst pb <? 64)); [intros x X; apply N.ltb_lt; exact X|vm_compute; reflexivity]|].
  split; [left; reflexivity|]. split; [right; left; reflexivity|]. split; [reflexivity|]. split; [reflexivity|]. split; [reflexivity|]. split; [reflexivity|].
  split; [item_here|]. split; [vm_compute; reflexivity|].
  split.
  { exists [75; 0xF6; 108; 110; 33]. split; [repeat (constructor; [left; reflexivity|]); constructor|]. split; [cbn; lia|]. split; [cbn; unfold end_of_text; lia|]. left. split; [exists [32]; reflexivity|reflexivity]. }
  split; [reflexivity|]. split.
  { change (tags_in ep_last) with [mkTag 1 0 5; mkTag 4 3 2]. constructor; [|constructor; [|constructor]]; intros _; (split; [reflexivity|]); split.
    - left. reflexivity.
    - exists 33. split; reflexivity.
    - right. exists 108. split; reflexivity.
    - exists 33. split; reflexivity. }
  split; [vm_compute; reflexivity|vm_compute; reflexivity].
Qed.
(* The same case for the first theorem *)
Example C95_true_case : exists c out line, run_groups plain_host Options_default (Channel_new Options_default 0) (ps_groups ++ ep_case) = Ok (c, out ++ [Some line]) /\
  exists v, says line ["ert_plus"; "tags"] v.
Proof.
  exists (fst (final Options_default (ps_groups ++ ep_case))), (snd (final Options_default (ps_groups ++ ep_case))), (the_line Options_default (ps_groups ++ ep_case)).
  split; [vm_compute; reflexivity|]. eexists. exact (proj2 (proj2 (proj2 (proj2 (proj2 (proj2 (proj2 (proj2 (proj2 (proj2 (proj2 (proj2 (proj2 (proj2 (proj2 (proj2 (proj2 (proj2 (proj2 (proj2 (proj2 (proj2 (proj2 (proj2 C95_case)))))))))))))))))))))))).
Qed.
