(* C94: the events and supplementary texts compiled into the program. *)
From Verif.Model Require Import Base Util Float Group Options Tables Json RdsString Tmc Station Channel Csv TmcFiles EventData.
From Verif.Spec Require Import Numerals Unicode JsonText Session Inputs Labels Identity History Quality Texts Apps Fields Frequencies Traffic Host Cases.
From Verif.Proofs Require Import JsonP SessionP Utf8P Tac Numerals TextP UpdateP ChannelP HostP AppsP TmcHistP TmcRunP TmcOnlyP TableFilesP EventsP.
From Verif.Props Require Import P_Channel P_Radiotext P_Tmc P_Descr P_Tables.
From Verif.Spec Require Import TableFiles.
Local Open Scope string_scope.
Local Open Scope N_scope.
Local Open Scope list_scope.

Definition event_list : list bytes := map bs tmc_data_events.
Definition suppl_list : list bytes := map bs tmc_data_suppl.
Definition event_rows : list event_row := map event_row_of (tl event_list).
Definition suppl_rows : list (N * bytes) := map suppl_row_of suppl_list.

Fixpoint increasing (l : list N) : bool := match l with a :: ((b :: _) as r) => (a <? b) && increasing r | _ => true end.
Lemma increasing_nodup : forall l, increasing l = true -> NoDup l.
Proof.
  assert (G : forall l a, increasing (a :: l) = true -> Forall (fun b => a < b) l).
  { induction l as [|b l IH]; intros a H; [constructor|]. cbn in H. apply andb_prop in H. destruct H as (H1 & H2). constructor; [lia|]. specialize (IH b H2). rewrite Forall_forall in *. intros x I. specialize (IH x I). lia. }
  induction l as [|a l IH]; intros H; [constructor|]. constructor; [|apply IH; destruct l; [reflexivity|cbn in H; apply andb_prop in H; apply H]].
  intros I. specialize (G l a H). rewrite Forall_forall in G. specialize (G a I). lia.
Qed.
Definition ascii_only (s : bytes) : bool := forallb (fun c => c <? 128) s.
Definition mark_in (s : bytes) : bool := (fix go s := match s with 40 :: 81 :: 41 :: _ => true | _ :: r => go r | [] => false end) s.
Definition without_mark : list N :=
  [417; 418; 419; 420; 421; 422; 445; 446; 447; 448; 449; 450; 496; 499; 583; 584; 585; 586; 587; 588; 606; 616; 655; 930; 1519; 1533; 1547; 1573; 1822].
(* One computation over the whole list *)
Definition events_check (l : list string) (ls : list bytes) (rows : list event_row) : bool :=
  match l with first :: _ => line_check 59 event_titles (bs first) | [] => false end &&
  forallb (fun l => event_check l (event_row_of l)) (tl ls) && increasing (map e_code rows) && (N.of_nat (length rows) =? 1552) &&
  forallb (fun r => ascii_only (e_text r) && ascii_only (e_with_quantity r) && negb (match e_text r with [] => true | _ => false end) &&
     (match e_with_quantity r with [] => true | _ => false end || mark_in (e_with_quantity r) || existsb (N.eqb (e_code r)) without_mark)) rows.
Lemma events_all_true : events_check tmc_data_events event_list event_rows = true. Proof. vm_compute. reflexivity. Qed.
Definition suppl_all : bool :=
  forallb suppl_check suppl_list && increasing (map fst suppl_rows) && (N.of_nat (length suppl_rows) =? 233) && forallb (fun r => ascii_only (snd r)) suppl_rows.
Lemma suppl_all_true : suppl_all = true. Proof. vm_compute. reflexivity. Qed.
Lemma table_checked : forall l ls, ls = map bs l -> match l with first :: _ => line_check 59 event_titles (bs first) | [] => false end = true ->
  forallb (fun l => event_check l (event_row_of l)) (tl ls) = true -> table is_event ls (map event_row_of (tl ls)).
Proof.
  intros [|f rest] ls -> H0 H; [discriminate H0|]. exists event_titles, (bs f), (map bs rest). split; [reflexivity|]. split; [apply line_checked; exact H0|]. apply events_checked. exact H.
Qed.
Lemma event_list_is : event_list = map bs tmc_data_events. Proof. reflexivity. Qed.
Lemma event_rows_are : event_rows = map event_row_of (tl event_list). Proof. reflexivity. Qed.
Lemma ascii_text : forall s, ascii_only s = true -> is_utf8 s.
Proof. intros s X. apply valid_is_utf8. apply ascii_utf8. unfold ascii_only in X. rewrite forallb_forall in X. apply Forall_forall. intros c J. specialize (X c J). lia. Qed.
Lemma events_checks : forall l ls rows, ls = map bs l -> rows = map event_row_of (tl ls) -> events_check l ls rows = true ->
  table is_event ls rows /\ length rows = N.to_nat 1552 /\ NoDup (map e_code rows) /\
  forall r, In r rows -> is_utf8 (e_text r) /\ is_utf8 (e_with_quantity r) /\ e_text r <> [] /\
    (e_with_quantity r <> [] -> mark_in (e_with_quantity r) = true \/ In (e_code r) without_mark).
Proof.
  intros l ls rows El Er H. unfold events_check in H. do 4 (apply andb_prop in H; destruct H as (H & ?)).
  split; [rewrite Er; apply (table_checked l); assumption|].
  split; [lia|]. split; [apply increasing_nodup; assumption|]. intros r I. rewrite forallb_forall in H0. specialize (H0 r I). do 3 (apply andb_prop in H0; destruct H0 as (H0 & ?)).
  split; [apply ascii_text; assumption|]. split; [apply ascii_text; assumption|]. split; [intros X; rewrite X in *; discriminate|]. intros Nq. apply orb_prop in H4. destruct H4 as [X|X].
  - apply orb_prop in X. destruct X as [X|X]; [destruct (e_with_quantity r); [congruence|discriminate]|auto].
  - apply existsb_exists in X. destruct X as (c & J & Ec). apply N.eqb_eq in Ec. rewrite Ec. auto.
Qed.
Lemma events_facts : table is_event event_list event_rows /\ length event_rows = N.to_nat 1552 /\ NoDup (map e_code event_rows) /\
  forall r, In r event_rows -> is_utf8 (e_text r) /\ is_utf8 (e_with_quantity r) /\ e_text r <> [] /\
    (e_with_quantity r <> [] -> mark_in (e_with_quantity r) = true \/ In (e_code r) without_mark).
Proof. exact (events_checks tmc_data_events event_list event_rows event_list_is event_rows_are events_all_true). Qed.
Lemma nodup_last : forall {A} (key : A -> N) (l : list A) a, NoDup (map key l) -> In a l -> last_with (fun x => key x =? key a) l = Some a.
Proof.
  intros A key l a N I. unfold last_with. assert (N' : NoDup (map key (rev l))) by (rewrite map_rev; apply NoDup_rev; exact N). apply in_rev in I. clear N. induction (rev l) as [|x r IH]; [destruct I|].
  cbn [find map] in *. apply NoDup_cons_iff in N'. destruct N' as (N1 & N2). destruct I as [->|I]; [rewrite N.eqb_refl; reflexivity|].
  destruct (N.eqb_spec (key x) (key a)) as [E|]; [|exact (IH I N2)]. exfalso. apply N1. rewrite E. apply in_map. exact I.
Qed.
Lemma nodup_first : forall {A} (l : list (N * A)) e, NoDup (map fst l) -> In e l -> first_for (fst e) l = Some (snd e).
Proof.
  intros A l e N I. unfold first_for. induction l as [|x r IH]; [destruct I|].
  cbn [find map] in *. apply NoDup_cons_iff in N. destruct N as (N1 & N2). destruct I as [->|I]; [rewrite N.eqb_refl; reflexivity|].
  destruct (N.eqb_spec (fst x) (fst e)) as [E|]; [|exact (IH N2 I)]. exfalso. apply N1. rewrite E. apply in_map. exact I.
Qed.
Lemma suppl_facts : lines_are suppl_line no_suppl_line suppl_list suppl_rows /\ length suppl_rows = N.to_nat 233 /\ NoDup (map fst suppl_rows) /\ forall r, In r suppl_rows -> is_utf8 (snd r).
Proof.
  pose proof suppl_all_true as H. unfold suppl_all in H. do 3 (apply andb_prop in H; destruct H as (H & ?)). split; [apply suppl_checked; exact H|]. split; [lia|]. split; [apply increasing_nodup; assumption|].
  intros r I. rewrite forallb_forall in H0. apply ascii_text. exact (H0 r I).
Qed.
Lemma loaded_suppl : forall events lines es fe names data, lines_are suppl_line no_suppl_line lines es -> loaded events lines fe names data ->
  (forall c, td_suppl data c = first_for c es) /\ (forall c, td_event data c = find_code c (loadEvents events)).
Proof.
  intros events lines es fe names data L (dbs & infos & _ & T). destruct (suppl_read _ _ L) as (l & El & Hl). unfold tmc_tables in T. rewrite El in T. cbn [bind] in T. injection T as <-.
  cbn [td_suppl td_event]. split; [exact Hl|reflexivity].
Qed.

(* --- C94 --- *)
(* Any list of events in this format: the last row with a code counts.  Any list of supplementary texts: the first. *)
Theorem C94_lists_loaded : forall events suppl rows es fe names data,
  table is_event events rows -> lines_are suppl_line no_suppl_line suppl es -> loaded events suppl fe names data ->
  (forall c, td_event data c = event_said rows c) /\ (forall c, td_suppl data c = first_for c es).
Proof.
  intros events suppl rows es fe names data T L Lo. destruct (loaded_suppl _ _ _ _ _ _ L Lo) as (S1 & S2). split; [|exact S1]. intros c. rewrite S2. apply events_read. exact T.
Qed.
Print Assumptions C94_lists_loaded.
(* The lists in the program: every one of the 1552 events and 233 supplementary texts is known under its code, no
   code is used twice, and no other code is known. *)
Theorem C94_all_known : exists rows es, table is_event event_list rows /\ lines_are suppl_line no_suppl_line suppl_list es /\
  length rows = N.to_nat 1552 /\ length es = N.to_nat 233 /\ NoDup (map e_code rows) /\ NoDup (map fst es) /\
  forall fe names data, loaded event_list suppl_list fe names data ->
    (forall r, In r rows -> td_event data (e_code r) = Some (event_of r) /\ e_text r <> []) /\ (forall c, ~ In c (map e_code rows) -> td_event data c = None) /\
    (forall e, In e es -> td_suppl data (fst e) = Some (snd e)) /\ (forall c, ~ In c (map fst es) -> td_suppl data c = None).
Proof.
  destruct events_facts as (E1 & E2 & E3 & E4). destruct suppl_facts as (S1 & S2 & S3 & S4).
  exists event_rows, suppl_rows. split; [exact E1|]. split; [exact S1|]. split; [exact E2|]. split; [exact S2|]. split; [exact E3|]. split; [exact S3|].
  intros fe names data Lo. destruct (C94_lists_loaded _ _ _ _ _ _ _ E1 S1 Lo) as (L1 & L2). split; [|split; [|split]].
  - intros r I. split; [|apply (E4 r I)]. rewrite L1. unfold event_said. rewrite (nodup_last e_code) by assumption. reflexivity.
  - intros c N. rewrite L1. unfold event_said, last_with. destruct (find _ (rev event_rows)) as [r|] eqn:F; [|reflexivity]. apply find_some in F. destruct F as (I & Ec). apply N.eqb_eq in Ec. exfalso. apply N. rewrite <- Ec. apply in_map. apply in_rev. exact I.
  - intros e I. rewrite L2. apply nodup_first; assumption.
  - intros c N. rewrite L2. unfold first_for. destruct (find _ suppl_rows) as [r|] eqn:F; [|reflexivity]. apply find_some in F. destruct F as (I & Ec). apply N.eqb_eq in Ec. exfalso. apply N. rewrite <- Ec. apply in_map. exact I.
Qed.
Print Assumptions C94_all_known.
(* The program can always load them. *)
Theorem C94_always_loaded : exists supplementary, load_supplementary (readCSV suppl_list semicolon) [] = Ok supplementary.
Proof. destruct suppl_facts as (S1 & _). destruct (suppl_read _ _ S1) as (l & E & _). exists l. exact E. Qed.
Print Assumptions C94_always_loaded.
(* With these lists, messages are printed whatever the events: all texts are UTF-8. *)
Theorem C94_texts_valid : forall env fe names, loaded event_list suppl_list fe names (env_tmc env) ->
  is_utf8 (env_what_iconv env) -> (forall format t s, env_strftime env format t = Some s -> is_utf8 s) ->
  (forall l c p, db_points (td_locdb (env_tmc env) l) c = Some p -> is_utf8 (pt_name1 p) /\ is_utf8 (pt_road_name p)) ->
  (forall l c r, db_roads (td_locdb (env_tmc env) l) c = Some r -> is_utf8 (road_number r) /\ is_utf8 (road_name r)) ->
  host_text env.
Proof.
  intros env fe names Lo H1 H2 H3 H4. destruct events_facts as (E1 & E2 & E3 & E4). destruct suppl_facts as (S1 & S2 & S3 & S4). destruct (C94_lists_loaded _ _ _ _ _ _ _ E1 S1 Lo) as (L1 & L2).
  split; [exact H1|]. split; [exact H2|]. split; [|split; [|split; assumption]].
  - intros c e X. rewrite L1 in X. unfold event_said, last_with in X. destruct (find _ (rev event_rows)) as [r|] eqn:F; [|discriminate X]. injection X as <-. apply find_some in F. destruct F as (I & _). apply in_rev in I. destruct (E4 r I) as (A & B & _). split; assumption.
  - intros c s X. rewrite L2 in X. unfold first_for in X. destruct (find _ suppl_rows) as [r|] eqn:F; [|discriminate X]. injection X as <-. apply find_some in F. exact (S4 r (proj1 F)).
Qed.
Print Assumptions C94_texts_valid.
(* A message of one group with one of the events shows its text. *)
Theorem C94_event_described : exists rows, table is_event event_list rows /\
  forall env fe names o w0 gs0 gs1 now g w c out p ms flag duration r,
  loaded event_list suppl_list fe names (env_tmc env) -> host_ok env -> host_text env -> o_output_type o = OutJSON ->
  traffic_from p gs0 (gs1 ++ [(now, g, w)]) -> never_encrypted (items_of (gs0 ++ gs1)) -> tmc_started (items_of gs1) ->
  message_ok ms -> ms_fields ms = [] -> duration < 8 -> user_groups (app_items (g, w)) = [single_group ms flag duration] ->
  In r rows -> ms_event ms = e_code r ->
  run_groups env o (Channel_new o w0) (gs0 ++ gs1 ++ [(now, g, w)]) = Ok (c, out) ->
  exists out' line, out = out' ++ [Some line] /\ shows_text line "description" (Some (capital (e_text r) ++ bs ".")).
Proof.
  destruct events_facts as (E1 & E2 & E3 & E4). destruct suppl_facts as (S1 & _). exists event_rows. split; [exact E1|].
  intros env fe names o w0 gs0 gs1 now g w c out p ms flag duration r Lo H HT OJ T Ne St Mok Nf Hd U I Er E.
  destruct (C90_single_group_description env o w0 gs0 gs1 now g w c out p ms flag duration) as (out' & line & Eo & Sx); try assumption.
  exists out', line. split; [exact Eo|]. destruct (C94_lists_loaded _ _ _ _ _ _ _ E1 S1 Lo) as (L1 & _). rewrite L1, Er in Sx. unfold event_said in Sx. rewrite (nodup_last e_code) in Sx by assumption. exact Sx.
Qed.
Print Assumptions C94_event_described.
(* The quantity of an event that takes one is part of its text, except for 29 events. *)
Lemma marked : forall w, mark_in w = true -> forall q t, filled_in q w t -> exists a b, t = a ++ q ++ b.
Proof.
  intros w M q t F. induction F as [|s t F IH|c s t N F IH].
  - discriminate M.
  - exists [], t. reflexivity.
  - assert (M' : mark_in s = true).
    { destruct (mark_in s) eqn:Es; [reflexivity|]. exfalso. cbn [mark_in] in M. fold (mark_in s) in M. rewrite Es in M.
      destruct s as [|c2 [|c3 s]]; try (revert M; repeat match goal with |- (match ?x with _ => _ end) = true -> _ => destruct x end; discriminate).
      destruct (N.eq_dec c 40) as [->|]; [destruct (N.eq_dec c2 81) as [->|]; [destruct (N.eq_dec c3 41) as [->|]; [apply (N s); reflexivity|]|]|];
        revert M; repeat match goal with |- (match ?x with _ => _ end) = true -> _ => destruct x end; try discriminate; congruence. }
    destruct (IH M') as (a & b & ->). exists (c :: a), b. reflexivity.
Qed.
Theorem C94_quantity_shown : exists rows, table is_event event_list rows /\ forall r q t, In r rows -> e_with_quantity r <> [] -> ~ In (e_code r) without_mark ->
  filled_in q (e_with_quantity r) t -> exists before after, t = before ++ q ++ after.
Proof.
  destruct events_facts as (E1 & E2 & E3 & E4). exists event_rows. split; [exact E1|]. intros r q t I Ne Nw F. destruct (E4 r I) as (_ & _ & _ & M). destruct (M Ne) as [X|X]; [|contradiction]. exact (marked _ X q t F).
Qed.
Print Assumptions C94_quantity_shown.
Definition real_tables : res TmcData := '(databases, _) <- load_directories (files_of [] encodings) [] [] ;; tmc_tables event_list suppl_list (files_of [] encodings) databases.
Definition real_last (gs : list (Z * Group * N)) : option bytes :=
  match (data <- real_tables ;; run_groups (env_with data) Options_default (Channel_new Options_default 0) gs) with
  | Ok (_, out) => last out None
  | _ => None
  end.
Definition queue_417 : tmc_message := mkTmcMessage true 2 417 100 [(4, 7)].
Definition groups_417 : list (N * N) := [(0xD1A1, 0x0064); (0x4438, 0x0000)].
Theorem C94_quantity_refuted : exists gs line, traffic_from 0x2204 ps_groups gs /\ message_ok queue_417 /\ sent_in queue_417 groups_417 /\
  (exists earlier b, multi_groups (items_of gs) = earlier ++ b :: map (pair 5) groups_417) /\
  (exists data row, real_tables = Ok data /\ td_event data 417 = Some row /\ ev_allows_quantifier row = true /\ quantity_code row (ms_fields queue_417) = Some 7) /\
  real_last (ps_groups ++ gs) = Some line /\ says line (msg "description") (VStr (bs "Closed ahead. Queuing traffic.")).
Proof.
  exists (let all := with_groups [plain_service] groups_417 in before_last all ++ [((20 * sec)%Z, the_last all, 0)]). eexists.
  split; [meet|]. split; [field_cases|]. split; [in_order 19%nat|]. split; [exists [], (3, (0xD065, 0x0064)); vm_compute; reflexivity|].
  split; [|split; [vm_compute; reflexivity|vm_compute; reflexivity]].
  destruct C94_always_loaded as (l & El). eexists. eexists. split; [unfold real_tables; cbn [load_directories bind]; unfold tmc_tables; rewrite El; reflexivity|]. cbn [td_event].
  split; [vm_compute; reflexivity|]. split; reflexivity.
Qed.
Print Assumptions C94_quantity_refuted.
Example C94_case : exists line, real_last (ps_groups ++ at_times 11 [plain_service] ++ [((12 * sec)%Z, rt2 0x8408 0x5065 0x0064, 0)]) = Some line /\
  says line (msg "event_codes") (VArr [VNum (bs "101")]) /\ says line (msg "description") (VStr (bs "Stationary traffic.")) /\
  (exists data, loaded event_list suppl_list (files_of [] encodings) [] data).
Proof.
  eexists. split; [vm_compute; reflexivity|]. split; [vm_compute; reflexivity|]. split; [vm_compute; reflexivity|].
  destruct C94_always_loaded as (l & El). eexists. exists [], []. split; [reflexivity|]. unfold tmc_tables. rewrite El. reflexivity.
Qed.
