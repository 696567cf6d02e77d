(* C90: the descriptions of traffic messages. *)
From Verif.Model Require Import Base Util Group Options Tables Json RdsString Tmc Station Channel.
From Verif.Spec Require Import Numerals Unicode JsonText Session Identity History Quality Texts Apps Fields Frequencies Traffic Host Cases.
From Verif.Proofs Require Import JsonP SessionP Utf8P Tac Numerals TextP UpdateP ChannelP HostP AppsP TmcHistP TmcRunP TmcOnlyP.
From Verif.Props Require Import P_Channel P_Radiotext P_Tmc.

Local Open Scope string_scope.
Local Open Scope N_scope.
Local Open Scope list_scope.

(* A message in a single group, of a service that is not encrypted: the description is the text of its
   event in the table of events, as a sentence. *)
Theorem C90_single_group_description : forall env o w0 gs0 gs1 now g w c out p ms flag duration,
  host_ok env -> host_text env -> o_output_type o = OutJSON ->
  traffic_from p gs0 (gs1 ++ [(now, g, w)]) ->
  never_encrypted (items_of (gs0 ++ gs1)) -> tmc_started (items_of gs1) ->
  message_ok ms -> ms_fields ms = [] -> duration < 8 -> user_groups (app_items (g, w)) = [single_group ms flag duration] ->
  run_groups env o (Channel_new o w0) (gs0 ++ gs1 ++ [(now, g, w)]) = Ok (c, out) ->
  exists out' line, out = out' ++ [Some line] /\
    shows_text line "description" (option_map (fun row => capital (ev_description row) ++ bs ".") (td_event (env_tmc env) (ms_event ms))).
Proof.
  intros env o w0 gs0 gs1 now g w c out p ms flag duration H HT OJ T Ne St Mok Nf Hd U E.
  destruct (C69_single_group_message env o w0 gs0 gs1 now g w c out p ms flag duration) as (out' & line & Eo & Sc & _); try assumption.
  exists out', line. split; [exact Eo|]. destruct Sc as (_ & _ & _ & _ & _ & _ & _ & _ & _ & _ & Sd).
  assert (Qn : forall row, quantity_code row [] = None) by (intros row; unfold quantity_code, all_of; cbn [flat_map hd_error]; destruct (ev_allows_quantifier row); reflexivity).
  assert (K : known_reports (env_tmc env) ms = match td_event (env_tmc env) (ms_event ms) with Some row => [(row, [])] | None => [] end).
  { unfold known_reports. rewrite Nf. cbn [reports flat_map fst snd]. destruct (td_event _ _); reflexivity. }
  assert (Mg : meaningful (env_tmc env) ms).
  { unfold meaningful. rewrite K. destruct (td_event _ _) as [row|]; constructor; [|constructor]. intros code X. cbn [fst snd] in X. rewrite Qn in X. discriminate X. }
  destruct (Sd Mg) as (l & Sl & Sx). rewrite K in Sl. unfold supplements in Sx. rewrite Nf in Sx. cbn [all_of flat_map] in Sx. rewrite app_nil_r in Sx.
  destruct (td_event _ _) as [row|]; cbn [option_map].
  - inversion Sl as [|r s ? l' Hs Hl]; subst. inversion Hl; subst. destruct Hs as (t & -> & Et). cbn [fst snd] in Et. rewrite Qn in Et. subst t. exact Sx.
  - inversion Sl; subst. exact Sx.
Qed.
Print Assumptions C90_single_group_description.

(* A message of two or of five groups, whose quantities all have a meaning: the sentences of its events,
   with their quantities, then the supplementary sentences. *)
Theorem C90_multi_group_description : forall env o w0 gs0 gs1 now g w c out p ms l1 l2 earlier ci groups,
  host_ok env -> host_text env -> o_output_type o = OutJSON ->
  traffic_from p gs0 (gs1 ++ [(now, g, w)]) ->
  never_encrypted (items_of (gs0 ++ gs1 ++ [(now, g, w)])) ->
  items_of (gs1 ++ [(now, g, w)]) = l1 ++ l2 -> tmc_started l1 ->
  message_ok ms -> sent_in ms groups -> length groups = 2%nat \/ length groups = 5%nat ->
  multi_groups l2 = earlier ++ map (pair ci) groups ->
  multi_groups (app_items (g, w)) <> [] -> meaningful (env_tmc env) ms ->
  run_groups env o (Channel_new o w0) (gs0 ++ gs1 ++ [(now, g, w)]) = Ok (c, out) ->
  exists out' line, out = out' ++ [Some line] /\ shows_description (env_tmc env) line ms.
Proof.
  intros env o w0 gs0 gs1 now g w c out p ms l1 l2 earlier ci groups H HT OJ T Ne El St Mok Sn Ln Em Nm Mg E.
  destruct (C42_multi_group_message env o w0 gs0 gs1 now g w c out p ms l1 l2 earlier ci groups) as (out' & line & Eo & Sc & _); try assumption.
  exists out', line. split; [exact Eo|]. destruct Sc as (_ & _ & _ & _ & _ & _ & _ & _ & _ & _ & Sd). exact (Sd Mg).
Qed.
Print Assumptions C90_multi_group_description.

(* The description determines the message's sentences: there is only one text with the marks filled in. *)
Theorem C90_one_description : forall row own s1 s2, sentence row own s1 -> sentence row own s2 -> s1 = s2.
Proof.
  intros row own s1 s2 (t1 & -> & A) (t2 & -> & B). f_equal. destruct (quantity_code row own) as [code|]; [|congruence].
  destruct A as (q & Eq & A). destruct B as (q' & Eq' & B). assert (q' = q) as -> by congruence. clear Eq Eq'.
  revert t2 B. induction A as [|s t A IH|x s t N1 A IH]; intros t2 B.
  - inversion B. reflexivity.
  - inversion B as [|s' t' B' Ex|x' s' t' N2 B' Ex]; [subst; f_equal; apply IH, B'|]. exfalso. subst. apply (N2 s). reflexivity.
  - inversion B as [|s' t' B' Ex|x' s' t' N2 B' Ex]; [|subst; f_equal; apply IH, B']. exfalso. subst. apply (N1 s'). reflexivity.
Qed.
Print Assumptions C90_one_description.

(* ---- cases ---- *)
Definition descr_tables : TmcData := mkTmcData
  (fun c => if c =? 108 then Some (mkEvent (bs "queuing traffic") (bs "queuing traffic with average speeds (Q)") QUptoKmh DSingle UU 1 true)
            else if c =? 39 then Some (mkEvent (bs "reopening of bridge expected") (bs "reopening of bridge expected (Q)") QTime DBoth UNone 39 true) else None)
  (fun c => if c =? 20 then Some (bs "on bridges") else None)
  (fun t => LocationDatabase_default) (fun k => None).
Definition descr_host : Env :=
  mkEnv (fun _ => None) (bs "iconv error") (fun _ => bs "[json.exception.type_error.316]")
        (fun _ t => Some (dec_string_Z t)) utc_normalise (fun _ => bs "0.0") descr_tables.
Example descr_host_meets : host_ok descr_host /\ host_text descr_host.
Proof.
  split.
  - split; [|split; [intros j; apply valid_is_utf8; reflexivity|intros f; right; reflexivity]]. intros i k X. discriminate X.
  - split; [apply valid_is_utf8; reflexivity|]. split.
    + intros f t s X. injection X as <-. apply valid_is_utf8. apply (num_small (dec_string_Z t)), dec_string_Z_chars.
    + cbn [env_tmc descr_host descr_tables td_event td_suppl td_locdb LocationDatabase_default db_points db_roads]. split; [in_table|]. split; [in_table|]. split; intros l c q X; discriminate X.
Qed.
Definition descr_last (gs : list (Z * Group * N)) : option bytes :=
  match run_groups descr_host Options_default (Channel_new Options_default 0) gs with
  | Ok (_, out) => last out None
  | _ => None
  end.
Definition queue_5 : tmc_message := mkTmcMessage true 2 108 100 [(4, 7); (9, 39); (5, 50); (6, 20)].
Definition queue_groups : list (N * N) := [(0xD06C, 0x0064); (0x743C, 0x8275); (0x2326, 0x1400); (0x1000, 0x0000); (0x0000, 0x0000)].
Example C90_case : let all := with_groups [plain_service] queue_groups in
  let gs := before_last all ++ [((20 * sec)%Z, the_last all, 0)] in
  message_ok queue_5 /\ sent_in queue_5 queue_groups /\ meaningful descr_tables queue_5 /\
  traffic_from 0x2204 ps_groups gs /\ never_encrypted (items_of (ps_groups ++ gs)) /\
  (exists l1 l2, items_of gs = l1 ++ l2 /\ tmc_started l1 /\ multi_groups l2 = (3, (0xD065, 0x0064)) :: map (pair 5) queue_groups) /\
  multi_groups (app_items (the_last all, 0)) <> [] /\
  exists line, descr_last (ps_groups ++ gs) = Some line /\
    says line (msg "description") (VStr (bs "Queuing traffic with average speeds of up to 35 km/h. Reopening of bridge expected 08:10. On bridges.")).
Proof.
  cbv zeta. split; [field_cases|]. split; [in_order 64%nat|]. split.
  { unfold meaningful. vm_compute known_reports. repeat (apply Forall_cons; [intros code X; vm_compute in X; injection X as <-; vm_compute; discriminate|]). apply Forall_nil. }
  split; [meet|]. split; [plainly|].
  split; [exists [Announced type_8A 0xCD46 0x0040]; eexists; split; [vm_compute; reflexivity|split; [exists type_8A, 0xCD46, 0x0040; split; [left; reflexivity|split; reflexivity]|vm_compute; reflexivity]]|].
  split; [discriminate|].
  eexists. split; [vm_compute; reflexivity|vm_compute; reflexivity].
Qed.

(* A code that has no meaning is not left out: the time of code 0 is shown as ten minutes before midnight
   in a form that is not a time. *)
Definition no_time : tmc_message := mkTmcMessage true 2 39 100 [(5, 0)].
Definition no_time_groups : list (N * N) := [(0xD027, 0x0064); (0x4500, 0x0000)].
Theorem C90_code_without_meaning_refuted : exists gs line,
  Forall received_group (ps_groups ++ gs) /\ traffic_from 0x2204 ps_groups gs /\
  message_ok no_time /\ sent_in no_time no_time_groups /\ ~ meaningful descr_tables no_time /\
  (exists earlier b, multi_groups (items_of gs) = earlier ++ b :: map (pair 5) no_time_groups) /\
  descr_last (ps_groups ++ gs) = Some line /\ says line (msg "description") (VStr (bs "Reopening of bridge expected 00:-10.")).
Proof.
  exists (let all := with_groups [plain_service] no_time_groups in before_last all ++ [((20 * sec)%Z, the_last all, 0)]). eexists.
  split; [repeat constructor; reflexivity|]. split; [meet|]. split; [field_cases|]. split; [in_order 16%nat|].
  split; [|split; [exists [], (3, (0xD065, 0x0064)); vm_compute; reflexivity|split; [vm_compute; reflexivity|vm_compute; reflexivity]]].
  intros M. unfold meaningful in M. vm_compute known_reports in M. apply Forall_inv in M. apply (M 0); vm_compute; reflexivity.
Qed.
Print Assumptions C90_code_without_meaning_refuted.
