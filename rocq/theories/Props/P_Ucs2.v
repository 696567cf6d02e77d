(* C106: Enhanced RadioText in UCS-2. *)
From Verif.Model Require Import Base Util Group Options Tables Json RdsString Tmc Station Channel.
From Verif.Spec Require Import Unicode JsonText Session Identity History Quality Texts Apps Traffic Enhanced Ucs2 Host Cases.
From Verif.Proofs Require Import Tac Numerals TextP UpdateP SessionP ChannelP HostP StringP PsP RtP LpsP ErtP UcsP.
From Verif.Props Require Import P_Channel P_Radiotext P_Plus P_Enhanced.

Local Open Scope string_scope.
Local Open Scope N_scope.
Local Open Scope list_scope.

(* gs0 is any history after which station p is confirmed; ga ++ gb ++ [g] is anything of the same
   station.  Within ga, Enhanced RadioText in UCS-2 is announced in groups of type t.  The bytes l received
   last in such groups, in order, contain an end mark or fill all 64 places.  The host's converter is given
   the bytes up to the first end mark, with a blank for each zero byte and for the end mark; the line shows
   what it makes of them, or no text if it refuses them. *)
Theorem C106_text_is_converted : forall env o w0 gs0 ga gb now g w c out p t m l earlier,
  host_ok env -> host_text env -> o_output_type o = OutJSON ->
  let gs := ga ++ gb ++ [(now, g, w)] in
  Forall received_group (gs0 ++ gs) -> p <> 0 -> three p (pis gs0) -> Forall (stays p) gs ->
  Forall (fun x => app_items (snd (fst x), snd x) <> [] \/ ert_segment t (snd (fst x), snd x) <> [] -> carried_pi x = Some p) gs ->
  In t for_applications -> in_ucs2 m -> let all := groups_of (gs0 ++ gs) in ert_only t m all -> ert_whole t all -> ert_short t all ->
  In (t, 0x6552) (flat_map announcement (groups_of ga)) ->
  ert_segment t (g, w) <> [] ->
  flat_map (ert_segment t) (groups_of (gb ++ [(now, g, w)])) = earlier ++ place 0 l ->
  In end_of_text l \/ length l = 64%nat ->
  run_groups env o (Channel_new o w0) (gs0 ++ gs) = Ok (c, out) ->
  exists out' line, out = out' ++ [Some line] /\
    match env_ucs2 env (map visible (up_to_end l)) with
    | Some text => is_utf8 text -> exists s, says line ["enhanced_radiotext"] (VStr s) /\ trimmed text s
    | None => forall v, ~ says line ["enhanced_radiotext"] v
    end.
Proof. exact ucs_converted. Qed.
Print Assumptions C106_text_is_converted.

(* So a text of 32 characters cs, without a byte that looks like the end mark, is shown with other characters in place
   of those with a zero byte *)
Theorem C106_text_is_misread : forall env o w0 gs0 ga gb now g w c out p t m cs earlier,
  host_ok env -> host_text env -> reads_ucs2 env -> o_output_type o = OutJSON ->
  let gs := ga ++ gb ++ [(now, g, w)] in
  Forall received_group (gs0 ++ gs) -> p <> 0 -> three p (pis gs0) -> Forall (stays p) gs ->
  Forall (fun x => app_items (snd (fst x), snd x) <> [] \/ ert_segment t (snd (fst x), snd x) <> [] -> carried_pi x = Some p) gs ->
  In t for_applications -> in_ucs2 m -> let all := groups_of (gs0 ++ gs) in ert_only t m all -> ert_whole t all -> ert_short t all ->
  In (t, 0x6552) (flat_map announcement (groups_of ga)) ->
  ert_segment t (g, w) <> [] ->
  Forall ucs2_char cs -> ~ In end_of_text (ucs2_text cs) -> length cs = 32%nat ->
  flat_map (ert_segment t) (groups_of (gb ++ [(now, g, w)])) = earlier ++ place 0 (ucs2_text cs) ->
  run_groups env o (Channel_new o w0) (gs0 ++ gs) = Ok (c, out) ->
  exists out' line s, out = out' ++ [Some line] /\ says line ["enhanced_radiotext"] (VStr s) /\ trimmed (utf8_text (map misread cs)) s.
Proof.
  intros env o w0 gs0 ga gb now g w c out p t m cs earlier H HT Rd OJ gs F Np T3 S P Ta U all O W Sh An Pl Fc Ne Lc Sg E.
  destruct (ucs_converted env o w0 gs0 ga gb now g w c out p t m (ucs2_text cs) earlier H HT OJ F Np T3 S P Ta U O W Sh An Pl Sg) as (out' & ln & Eo & Q); [|exact E|].
  { right. clear - Lc. unfold ucs2_text. change 64%nat with (2 * 32)%nat. rewrite <- Lc. clear. induction cs as [|x cs IH]; [reflexivity|]. cbn [flat_map app length]. rewrite IH. cbn [length]. lia. }
  rewrite (up_to_none _ Ne), visible_text_ucs in Q.
  assert (Fm : Forall ucs2_char (map misread cs)) by (apply Forall_map; eapply Forall_impl; [|exact Fc]; exact misread_char).
  rewrite (Rd _ Fm) in Q. destruct Q as (s & Q1 & Q2).
  { exists (map misread cs). split; [|reflexivity]. eapply Forall_impl; [|exact Fm]. intros x X. exact (proj1 X). }
  exists out', ln, s. auto.
Qed.
Print Assumptions C106_text_is_misread.

(* A text of 32 characters is shown as sent if none of them has a zero byte or a byte that looks like the end mark *)
Theorem C106_text_received_is_shown : forall env o w0 gs0 ga gb now g w c out p t m cs earlier,
  host_ok env -> host_text env -> reads_ucs2 env -> o_output_type o = OutJSON ->
  let gs := ga ++ gb ++ [(now, g, w)] in
  Forall received_group (gs0 ++ gs) -> p <> 0 -> three p (pis gs0) -> Forall (stays p) gs ->
  Forall (fun x => app_items (snd (fst x), snd x) <> [] \/ ert_segment t (snd (fst x), snd x) <> [] -> carried_pi x = Some p) gs ->
  In t for_applications -> in_ucs2 m -> let all := groups_of (gs0 ++ gs) in ert_only t m all -> ert_whole t all -> ert_short t all ->
  In (t, 0x6552) (flat_map announcement (groups_of ga)) ->
  ert_segment t (g, w) <> [] ->
  Forall ucs2_char cs -> Forall whole_char cs -> length cs = 32%nat ->
  flat_map (ert_segment t) (groups_of (gb ++ [(now, g, w)])) = earlier ++ place 0 (ucs2_text cs) ->
  run_groups env o (Channel_new o w0) (gs0 ++ gs) = Ok (c, out) ->
  exists out' line s, out = out' ++ [Some line] /\ says line ["enhanced_radiotext"] (VStr s) /\ trimmed (utf8_text cs) s.
Proof.
  intros env o w0 gs0 ga gb now g w c out p t m cs earlier H HT Rd OJ gs F Np T3 S P Ta U all O W Sh An Pl Fc Wc Lc Sg E.
  assert (Em : map misread cs = cs) by (clear - Wc; induction Wc as [|x l X _ IH]; [reflexivity|]; cbn [map]; rewrite IH, (misread_whole x X); reflexivity).
  rewrite <- Em. eapply C106_text_is_misread; try eassumption.
  clear - Wc. induction Wc as [|x l [X1 X2] _ IH]; [intros []|]. unfold ucs2_text in *. cbn [flat_map app]. intros [Y|[Y|Y]]; [apply X1; right; left; symmetry; exact Y|apply X2; right; left; symmetry; exact Y|exact (IH Y)].
Qed.
Print Assumptions C106_text_received_is_shown.

(* A host whose converter reads UCS-2, with the more or the less significant byte first *)
Fixpoint from_ucs2 (high_first : bool) (l : list N) : option (list N) :=
  match l with
  | [] => Some []
  | a :: b :: r =>
      let c := if high_first then 256 * a + b else 256 * b + a in
      if (c <? 0xD800) || (0xE000 <=? c) then match from_ucs2 high_first r with Some cs => Some (c :: cs) | None => None end else None
  | _ => None
  end.
Definition ucs2_host (high_first : bool) : Env :=
  mkEnv (fun l => option_map utf8_text (from_ucs2 high_first l)) (env_what_iconv plain_host) (env_what_json plain_host)
    (env_strftime plain_host) (env_localtime plain_host) (env_float plain_host) (env_tmc plain_host).
Lemma ucs2_hosts : reads_ucs2 (ucs2_host true) /\ reads_ucs2_low_first (ucs2_host false).
Proof.
  assert (Q : forall c, ucs2_char c -> ((c <? 0xD800) || (0xE000 <=? c)) = true).
  { intros c [Sc _]. destruct (N.ltb_spec c 0xD800); [reflexivity|]. destruct (N.leb_spec 0xE000 c); [reflexivity|]. destruct Sc; lia. }
  assert (D : forall c, 256 * (c / 256) + c mod 256 = c) by (intros c; symmetry; apply N.div_mod; lia).
  split; intros cs F; cbn [env_ucs2 ucs2_host].
  - replace (from_ucs2 true (ucs2_text cs)) with (Some cs); [reflexivity|]. symmetry. induction F as [|c cs Hc _ IH]; [reflexivity|]. unfold ucs2_text in *. cbn [flat_map app from_ucs2]. rewrite D, (Q c Hc), IH. reflexivity.
  - replace (from_ucs2 false (ucs2_text_low_first cs)) with (Some cs); [reflexivity|]. symmetry. induction F as [|c cs Hc _ IH]; [reflexivity|]. unfold ucs2_text_low_first in *. cbn [flat_map app from_ucs2]. rewrite D, (Q c Hc), IH. reflexivity.
Qed.

(* Sixteen groups 11A with the first 64 bytes of a text *)
Definition ucs2_announced : list (Z * Group * N) := at_times 11 [rt2 0x3416 0x0000 0x6552].
Fixpoint ert_groups (n : N) (l : list N) : list Group :=
  match l with
  | a :: b :: c :: d :: r => rt2 (0xB400 + n) (256 * a + b) (256 * c + d) :: ert_groups (n + 1) r
  | _ => []
  end.
Definition ucs2_sent (l : list N) : list (Z * Group * N) := ucs2_announced ++ at_times 12 (ert_groups 0 l).
Definition ucs2_run (high_first : bool) (l : list N) : Channel * list (option bytes) :=
  match run_groups (ucs2_host high_first) Options_default (Channel_new Options_default 0) (ps_groups ++ ucs2_sent l) with
  | Ok r => r | _ => (Channel_new Options_default 0, []) end.
Definition ucs2_line (high_first : bool) (l : list N) : bytes := match last (snd (ucs2_run high_first l)) None with Some s => s | None => [] end.
(* In the words of the property: the text l was sent in UCS-2 and received, and the line shows cs *)
Definition sent_and_shown (env : Env) (l cs : list N) : Prop :=
  exists gs t m c out line, let all := groups_of gs in
    Forall received_group gs /\ In t for_applications /\ in_ucs2 m /\ ert_only t m all /\ ert_whole t all /\ ert_short t all /\
    run_groups env Options_default (Channel_new Options_default 0) gs = Ok (c, out ++ [Some line]) /\
    flat_map (ert_segment t) (decoded_in gs (out ++ [Some line])) = place 0 l /\
    says line ["enhanced_radiotext"] (VStr (utf8_text cs)).
Ltac by_running b l :=
  exists (ps_groups ++ ucs2_sent l), (mkGroupType 11 VA), 0, (fst (ucs2_run b l)), (removelast (snd (ucs2_run b l))), (ucs2_line b l);
  intros all; split; [apply (Forall_by _ receivedb _ receivedb_ok); vm_compute; reflexivity|]; split; [vm_compute; tauto|]; split; [reflexivity|]; split; [only_here|]; split; [whole_here|];
  split; [apply (Forall_by _ (fun pb => fst pb <? 64)); [intros x X; apply N.ltb_lt; exact X|vm_compute; reflexivity]|];
  split; [vm_compute; reflexivity|]; split; [vm_compute; reflexivity|vm_compute; reflexivity].

(* "Радио", six times, and two more letters *)
Definition radio : list N := [0x420; 0x430; 0x434; 0x438; 0x43E].
Definition radios : list N := radio ++ radio ++ radio ++ radio ++ radio ++ radio ++ [0x420; 0x430].
Example C106_case : let t := mkGroupType 11 VA in let gs := ucs2_sent (ucs2_text radios) in let all := groups_of (ps_groups ++ gs) in
  host_ok (ucs2_host true) /\ reads_ucs2 (ucs2_host true) /\ Forall received_group (ps_groups ++ gs) /\ three 0x2204 (pis ps_groups) /\ Forall (stays 0x2204) gs /\
  Forall (fun x => app_items (snd (fst x), snd x) <> [] \/ ert_segment t (snd (fst x), snd x) <> [] -> carried_pi x = Some 0x2204) gs /\
  In t for_applications /\ in_ucs2 0 /\ ert_only t 0 all /\ ert_whole t all /\ ert_short t all /\ In (t, 0x6552) (flat_map announcement (groups_of ucs2_announced)) /\
  Forall ucs2_char radios /\ Forall whole_char radios /\ length radios = 32%nat /\ flat_map (ert_segment t) (groups_of (at_times 12 (ert_groups 0 (ucs2_text radios)))) = place 0 (ucs2_text radios) /\
  says (ucs2_line true (ucs2_text radios)) ["enhanced_radiotext"] (VStr (utf8_text radios)).
Proof.
  intros t gs all. split; [exact plain_host_ok|]. split; [apply ucs2_hosts|]. split; [apply (Forall_by _ receivedb _ receivedb_ok); vm_compute; reflexivity|]. split; [exists []; reflexivity|].
  split; [apply (Forall_by _ (pi_is 0x2204)); [intros ? ?; right; apply pi_is_ok; assumption|vm_compute; reflexivity]|].
  split; [apply (Forall_by _ (pi_is 0x2204)); [intros ? ? _; apply pi_is_ok; assumption|vm_compute; reflexivity]|].
  split; [vm_compute; tauto|]. split; [reflexivity|]. split; [only_here|]. split; [whole_here|].
  split; [apply (Forall_by _ (fun pb => fst pb <? 64)); [intros x X; apply N.ltb_lt; exact X|vm_compute; reflexivity]|].
  split; [left; reflexivity|]. split; [repeat constructor|]. split; [|split; [reflexivity|split; vm_compute; reflexivity]].
  apply (Forall_by _ (fun c => negb ((c / 256 =? 0) || (c / 256 =? 13) || (c mod 256 =? 0) || (c mod 256 =? 13)))); [|reflexivity].
  intros c X. apply negb_true_iff in X. repeat (apply orb_false_elim in X; destruct X as [X ?]). rewrite N.eqb_neq in *. unfold whole_char, end_of_text. cbn [In]. intuition.
Qed.

(* Latin letters: "Hello!" and 26 blanks.  The letters turn into marks of the block from U+2000 on, each blank into a
   dagger. *)
Definition hello : list N := [72; 101; 108; 108; 111; 33] ++ repeat 32 26.
Theorem C106_latin_refuted : reads_ucs2 (ucs2_host true) /\ Forall ucs2_char hello /\ sent_and_shown (ucs2_host true) (ucs2_text hello) (map (fun c => 0x2000 + c) hello).
Proof. split; [apply ucs2_hosts|]. split; [repeat constructor|]. by_running true (ucs2_text hello). Qed.
Print Assumptions C106_latin_refuted.

(* The end mark U+000D is shown as a dagger *)
Definition radio_ended : list N := ucs2_text (radio ++ [end_of_text]).
Theorem C106_end_mark_refuted : reads_ucs2 (ucs2_host true) /\ sent_and_shown (ucs2_host true) radio_ended (radio ++ [0x2020]).
Proof. split; [apply ucs2_hosts|]. by_running true radio_ended. Qed.
Print Assumptions C106_end_mark_refuted.

(* A letter whose second byte looks like the end mark cuts the text off and is itself changed: U+010D becomes U+0120 *)
Definition with_caron : list N := [0x420; 0x10D] ++ radio ++ radio ++ radio ++ radio ++ radio ++ radio.
Theorem C106_cut_off_refuted : reads_ucs2 (ucs2_host true) /\ Forall ucs2_char with_caron /\ sent_and_shown (ucs2_host true) (ucs2_text with_caron) [0x420; 0x120].
Proof. split; [apply ucs2_hosts|]. split; [repeat constructor|]. by_running true (ucs2_text with_caron). Qed.
Print Assumptions C106_cut_off_refuted.

(* The program does not tell the converter which byte comes first.  If it is the less significant one, every
   text is misread. *)
Theorem C106_byte_order_refuted : reads_ucs2_low_first (ucs2_host false) /\ sent_and_shown (ucs2_host false) (ucs2_text radios) (map (fun c => 256 * (c mod 256) + c / 256) radios).
Proof. split; [apply ucs2_hosts|]. by_running false (ucs2_text radios). Qed.
Print Assumptions C106_byte_order_refuted.
