(* What a line shows of a traffic message. *)
From Verif.Model Require Import Util Group Options Tables Json Freq RdsString Tmc Station Channel.
From Verif.Spec Require Import Numerals Unicode JsonText Session Identity History Quality Texts Apps Fields Frequencies Traffic.
From Verif.Proofs Require Import Tac Numerals JsonP Schema StationP TextP CleanP UpdateP SessionP LineP FrameP ChannelP LinesP HistoryP ShowP TraceP KeysP GetP FieldsP StringP PsP RtP EndP LpsP AppsP AfP TmcP TmcMsgP TmcTextP.

Local Open Scope string_scope.
Local Open Scope N_scope.
Local Open Scope list_scope.

Lemma time_texts : forall v, v < 256 -> getTimeString v = time_text v.
Proof.
  intros v H. assert (X : forallb (fun v => Base.bytes_eqb (getTimeString v) (time_text v)) (nseq 0 256) = true) by (vm_compute; reflexivity).
  apply (forallb_In _ _ v) in X; [|apply nseq_In; lia]. apply FreqP.bytes_eqb_eq. exact X.
Qed.

Lemma jget_app : forall p q j, jget (p ++ q) j = match jget p j with Some x => jget q x | None => None end.
Proof.
  induction p as [|k p IH]; intros q j; [reflexivity|]. cbn [app jget]. destruct j; try reflexivity. destruct (obj_find k m); [apply IH|reflexivity].
Qed.
Lemma jset_inside : forall p q v j j', jset p v j = Ok j' -> jget (p ++ q) j' = jget q v.
Proof. intros p q v j j' E. rewrite jget_app, (jset_same _ _ _ _ E). reflexivity. Qed.

Lemma find_app : forall k a b, obj_find k (a ++ b) = match obj_find k a with Some v => Some v | None => obj_find k b end.
Proof. intros k a b. induction a as [|[k' v] a IH]; [reflexivity|]. cbn [app obj_find]. destruct (String.eqb k k'); [reflexivity|exact IH]. Qed.

(* The members that depend on the location table *)
Definition located (k : string) : bool := existsb (String.eqb k) ["coordinates"; "span_from"; "span_to"; "road_number"; "road_name"].
Lemma located_apart : forall k k', located k = false -> located k' = true -> apart ["tmc"; "message"; k'] ["tmc"; "message"; k] = true.
Proof.
  intros k k' H H'. cbn [apart]. rewrite !String.eqb_refl. destruct (String.eqb_spec k' k) as [->|]; [congruence|reflexivity].
Qed.
Lemma location_other : forall db ltn b lcd ng ext j j' k, decodeLocation db ltn b lcd ng ext j = Ok j' -> located k = false ->
  jget (msg k) j' = jget (msg k) j.
Proof.
  intros db ltn b lcd ng ext j j' k D Hk. unfold decodeLocation in D. destruct (_ || _ || _); [congruence|].
  assert (O : forall k' v j1 j2, jset ["tmc"; "message"; k'] v j1 = Ok j2 -> located k' = true -> jget (msg k) j2 = jget (msg k) j1).
  { intros k' v j1 j2 E L. apply (jset_other _ _ _ _ _ E). apply located_apart; assumption. }
  destruct (db_points db lcd) as [pt|]; [|congruence]. cbv zeta in D. unbind D. rename B into B1. apply O in B1; [|reflexivity]. rewrite <- B1. clear B1.
  unbind D. rename B into B2.
  assert (E2 : jget (msg k) y0 = jget (msg k) y).
  { destruct (walk _ _ _ _) as [|p0 [|p1 r]]; [congruence|congruence|]. destruct (pt_name1 p0); [congruence|]. destruct (pt_name1 (List.last _ _)); [congruence|].
    unbind B2. apply O in B2; [|reflexivity]. apply O in B; [|reflexivity]. congruence. }
  rewrite <- E2. clear B2 E2. destruct (db_roads db (pt_roa_lcd pt)) as [road|]; [|congruence]. unbind D. rename B into B3.
  assert (E3 : jget (msg k) y1 = jget (msg k) y0). { destruct (road_number road); [congruence|]. apply O in B3; [exact B3|reflexivity]. }
  rewrite <- E3. destruct (road_name road); [destruct (pt_road_name pt); [congruence|]|]; (apply O in D; [exact D|reflexivity]).
Qed.

(* A message that is finished: decrypted if there is a key *)
Lemma finish_shows : forall d s m j j' k, finish_message d s m j = Ok j' -> m_is_complete m = true -> m_events m <> [] -> located k = false ->
  exists m', (if t_is_encrypted s then match td_key d (t_encid s) with Some key => m_decrypt m key | None => Ok m end else Ok m) = Ok m' /\
    jget (msg k) j' = jget [k] (m_json d m').
Proof.
  intros d s m j j' k F C E Hk. unfold finish_message in F. unbind F. exists y. split; [reflexivity|].
  assert (Q : m_is_complete y = true /\ m_events y <> []).
  { destruct (t_is_encrypted s); [|assert (y = m) as -> by congruence; auto]. destruct (td_key d (t_encid s)) as [key|]; [|assert (y = m) as -> by congruence; auto].
    unfold m_decrypt in B. destruct (negb _); [assert (y = m) as -> by congruence; auto|]. destruct (_ || _); [discriminate|]. injection B as <-. auto. }
  destruct Q as [Cy Ey].
  assert (Je : jempty (m_json d y) = false).
  { unfold m_json. rewrite Cy. destruct (m_events y); [contradiction|]. reflexivity. }
  rewrite Je in F. unbind F. rewrite (location_other _ _ _ _ _ _ _ _ k F Hk). change (msg k) with (["tmc"; "message"] ++ [k]). exact (jset_inside _ _ _ _ _ B0).
Qed.

(* The members of a message *)
Lemma m_json_obj : forall d m, m_is_complete m = true -> m_events m <> [] -> exists o, m_json d m = JObj o.
Proof. intros d m C E. unfold m_json. rewrite C. destruct (m_events m); [contradiction|]. cbn [negb orb]. eexists. reflexivity. Qed.
Ltac absent_piece k := match goal with
  | |- context [obj_find k (match ?x with _ => _ end)] =>
      replace (obj_find k (match x with _ => _ end)) with (@None json) by (destruct x; reflexivity)
  end.
Ltac member k C E := unfold m_json; rewrite C; destruct (m_events _) as [|e0 er] eqn:Eev; [contradiction|]; cbn [negb orb]; cbn [jget];
  rewrite ?find_app; cbn [obj_find String.eqb Ascii.eqb Bool.eqb]; repeat absent_piece k.
Section Members.
  Variable d : TmcData.
  Variable m : Message.
  Hypothesis C : m_is_complete m = true.
  Hypothesis E : m_events m <> [].
  Lemma mem_events : jget ["event_codes"] (m_json d m) = Some (jnums (m_events m)).
  Proof. member "event_codes" C E. reflexivity. Qed.
  Lemma mem_suppl : jget ["supplementary_codes"] (m_json d m) = match m_supplementary m with [] => None | l => Some (jnums l) end.
  Proof. member "supplementary_codes" C E. destruct (m_supplementary m); cbn [obj_find]; repeat absent_piece "supplementary_codes"; reflexivity. Qed.
  Lemma mem_class : jget ["update_class"] (m_json d m) = option_map (fun e => JN (ev_update_class e)) (td_event d (nth 0 (m_events m) 0)).
  Proof.
    member "update_class" C E. unfold isValidEventCode, getEvent. cbn [nth]. destruct (td_event d e0); cbn [obj_find]; repeat absent_piece "update_class"; reflexivity.
  Qed.
  Lemma mem_div : jget ["diversion_route"] (m_json d m) = match m_diversion m with [] => None | l => Some (jnums l) end.
  Proof. member "diversion_route" C E. destruct (m_diversion m); cbn [obj_find]; repeat absent_piece "diversion_route"; reflexivity. Qed.
  Lemma mem_speed : jget ["speed_limit"] (m_json d m) = option_map (fun v => JStr (dec_string v ++ bs " km/h")) (m_speed_limit m).
  Proof. member "speed_limit" C E. destruct (m_speed_limit m); cbn [obj_find]; repeat absent_piece "speed_limit"; reflexivity. Qed.
  Lemma mem_encrypted : jget ["encrypted_location"] (m_json d m) = if m_was_encrypted m then Some (JN (m_encrypted_location m)) else None.
  Proof. member "encrypted_location" C E. destruct (m_was_encrypted m); cbn [obj_find]; repeat absent_piece "encrypted_location"; reflexivity. Qed.
  Lemma mem_location : jget ["location"] (m_json d m) = if m_is_encrypted m then None else Some (JN (m_location m)).
  Proof. member "location" C E. destruct (m_is_encrypted m); cbn [obj_find]; repeat absent_piece "location"; reflexivity. Qed.
  Lemma mem_direction : jget ["direction"] (m_json d m) = Some (match m_directionality m with DSingle => JS "single" | DBoth => JS "both" end).
  Proof. member "direction" C E. reflexivity. Qed.
  Lemma mem_extent : jget ["extent"] (m_json d m) = Some (JStr ((match m_direction m with DirNegative => bs "-" | DirPositive => bs "+" end) ++ dec_string (m_extent m))).
  Proof. member "extent" C E. reflexivity. Qed.
  Lemma mem_starts : jget ["starts"] (m_json d m) = option_map (fun v => JStr (getTimeString v)) (m_time_starts m).
  Proof. member "starts" C E. destruct (m_time_starts m); cbn [obj_find]; repeat absent_piece "starts"; reflexivity. Qed.
  Lemma mem_until : jget ["until"] (m_json d m) = option_map (fun v => JStr (getTimeString v)) (m_time_until m).
  Proof. member "until" C E. destruct (m_time_until m); cbn [obj_find]; repeat absent_piece "until"; reflexivity. Qed.
  Lemma mem_description : jget ["description"] (m_json d m) =
    match event_sentences d (m_quantifiers m) 0 (m_events m) ++ suppl_sentences d (m_supplementary m) with
    | [] => None
    | l => Some (JStr (join l (bs ". ") ++ bs "."))
    end.
  Proof. member "description" C E. destruct (event_sentences _ _ _ _ ++ suppl_sentences _ _); cbn [obj_find]; repeat absent_piece "description"; reflexivity. Qed.
  Lemma mem_urgency : jget ["urgency"] (m_json d m) = Some (JStr (getUrgencyString (m_urgency m))).
  Proof. member "urgency" C E. reflexivity. Qed.
End Members.

(* ---- the meaning of a message ---- *)
Definition same_content (m m' : Message) : Prop :=
  m_direction m' = m_direction m /\ m_extent m' = m_extent m /\ m_events m' = m_events m /\ m_supplementary m' = m_supplementary m /\ m_quantifiers m' = m_quantifiers m /\
  m_diversion m' = m_diversion m /\ m_is_complete m' = m_is_complete m /\ m_time_until m' = m_time_until m /\ m_time_starts m' = m_time_starts m /\ m_speed_limit m' = m_speed_limit m /\
  m_directionality m' = m_directionality m /\ m_urgency m' = m_urgency m.
Lemma fields_small : forall l fs v, Forall field_ok fs -> last_of l fs = Some v -> l <= 14 /\ v < 2 ^ N.of_nat (label_size l).
Proof.
  intros l fs v F H. unfold last_of in H. destruct (rev (all_of l fs)) as [|x r] eqn:E; [discriminate|]. injection H as ->.
  assert (X : In v (all_of l fs)) by (apply in_rev; rewrite E; left; reflexivity). unfold all_of in X. apply in_flat_map in X. destruct X as ([l' v'] & X & Y). cbn [fst snd] in Y.
  destruct (N.eqb_spec l' l) as [->|]; [|destruct Y]. destruct Y as [->|[]]. rewrite Forall_forall in F. destruct (F _ X) as (F1 & F2 & _). auto.
Qed.

Section Shown.
  Variable env : Env.
  Let d := env_tmc env.
  Variable line : bytes.
  Variable j : json.
  Hypothesis Sh : forall q, line_at q line = option_map (value_of (env_float env)) (jget q j).

  Lemma shown_numbers : forall k l, jget (msg k) j = match l with [] => None | _ => Some (jnums l) end -> shows_numbers line (msg k) l.
  Proof. intros k l H. apply (shown_array env line (msg k) l _ (Sh (msg k))). rewrite H. destruct l; reflexivity. Qed.
  Lemma shown_number : forall k n, jget (msg k) j = option_map JN n -> shows_number line k n.
  Proof.
    intros k [n|] H; unfold shows_number; [|rewrite Sh, H; reflexivity]. exists (dec_string n). split; [|apply dec_string_value].
    unfold says. rewrite Sh, H. unfold JN. cbn [option_map value_of]. rewrite dec_string_Z_of_N. reflexivity.
  Qed.
  Lemma shown_quantity : forall k a n b, jget (msg k) j = option_map (fun n => JStr (a ++ dec_string n ++ b)) n -> shows_quantity line k a n b.
  Proof.
    intros k a [n|] b H; unfold shows_quantity; [|rewrite Sh, H; reflexivity]. exists (dec_string n). split; [|apply dec_string_value].
    unfold says. rewrite Sh, H. reflexivity.
  Qed.
  Lemma shown_text : forall k t, jget (msg k) j = option_map JStr t -> shows_text line k t.
  Proof. intros k [t|] H; unfold shows_text; rewrite Sh, H; reflexivity. Qed.

  (* m: what a message without fields would be; m1: the message; m2: the message decrypted *)
  Variable ms : tmc_message.
  Hypothesis Mok : message_ok ms.
  Variable y : N.
  Hypothesis Hy : getBits 11 y 0 = ms_event ms /\ getBits 3 y 11 = ms_extent ms /\ getBool y 14 = ms_negative ms.
  Variables (e : bool) (z : N) (m1 m2 : Message).
  Hypothesis M : means d (m_set_head d (Message_new e) y z) (ms_fields ms) m1.
  Hypothesis M2 : same_content m1 m2.
  Hypothesis J : forall k, located k = false -> jget (msg k) j = jget [k] (m_json d m2).

  Lemma content_shown : shows_content d line ms.
  Proof.
    destruct M as [A1 A2 A3 A4 A5 A6 A7 A8 A9 A10 A11 A12 A13 A14 A15 A16]. destruct M2 as (B1 & B2 & B3 & B4 & B5 & B6 & B7 & B8 & B9 & B10 & B11 & B12).
    cbn [m_set_head Message_new m_direction m_extent m_events m_supplementary m_quantifiers m_diversion m_is_complete m_time_until m_time_starts m_speed_limit m_directionality m_urgency app nth] in *.
    destruct Hy as (Y1 & Y2 & Y3). rewrite Y1, ?Y2, ?Y3 in *. destruct Mok as (_ & _ & _ & Fk).
    assert (C : m_is_complete m2 = true) by congruence. assert (E : m_events m2 <> []) by (rewrite B3, A5; discriminate).
    unfold shows_content. cbv zeta.
    assert (Tm : forall l v, l = 7 \/ l = 8 -> last_of l (ms_fields ms) = Some v -> getTimeString v = time_text v).
    { intros l v Hl Hv. destruct (fields_small _ _ _ Fk Hv) as [_ X]. apply time_texts. destruct Hl as [-> | ->]; exact X. }
    split; [apply shown_numbers; rewrite J, (mem_events d m2 C E), B3, A5 by reflexivity; reflexivity|].
    split; [apply shown_numbers; rewrite J, (mem_suppl d m2 C E), B4, A6 by reflexivity; destruct (all_of 6 _); reflexivity|].
    split; [apply shown_numbers; rewrite J, (mem_div d m2 C E), B6, A7 by reflexivity; destruct (all_of 10 _); reflexivity|].
    split; [apply shown_quantity; rewrite J, (mem_extent d m2 C E), B1, A3, B2, A4 by reflexivity; cbn [option_map]; rewrite app_nil_r; unfold extent_of; destruct (ms_negative ms); reflexivity|].
    split; [apply shown_quantity; rewrite J, (mem_speed d m2 C E), B10, A13 by reflexivity; destruct (last_of 3 (ms_fields ms)); cbn [option_map or_else app]; [rewrite N.mul_comm|]; reflexivity|].
    split; [apply shown_text; rewrite J, (mem_starts d m2 C E), B9, A12 by reflexivity; destruct (last_of 7 (ms_fields ms)) as [v|] eqn:Ev; cbn [option_map or_else]; [rewrite (Tm 7 v) by (auto; exact Ev)|]; reflexivity|].
    split; [apply shown_text; rewrite J, (mem_until d m2 C E), B8, A11 by reflexivity; destruct (last_of 8 (ms_fields ms)) as [v|] eqn:Ev; cbn [option_map or_else]; [rewrite (Tm 8 v) by (auto; exact Ev)|]; reflexivity|].
    split; [apply shown_text; rewrite J, (mem_direction d m2 C E), B11, A14 by reflexivity; unfold directions, flipped, getEvent; cbv zeta; rewrite <- N.negb_odd; destruct (N.odd _), (td_event d (ms_event ms)) as [ev|]; cbn [negb xorb]; try destruct (ev_directionality ev); reflexivity|].
    split.
    - apply shown_text. rewrite J, (mem_urgency d m2 C E), B12, A15 by reflexivity. cbn [option_map]. f_equal. f_equal. unfold urgency, urgency_steps, getEvent. cbv zeta.
      set (n := controls 0 (ms_fields ms) + 2 * controls 1 (ms_fields ms)).
      assert (Hn : forall s, (s + controls 0 (ms_fields ms) + 2 * controls 1 (ms_fields ms)) mod 3 = (s + n mod 3) mod 3).
      { intros s. unfold n. rewrite N.add_mod_idemp_r by discriminate. f_equal. lia. }
      rewrite Hn. assert (H3 : n mod 3 < 3) by (apply N.mod_lt; discriminate). revert H3. generalize (n mod 3). intros r H3. assert (R : r = 0 \/ r = 1 \/ r = 2) by lia.
      destruct (td_event d (ms_event ms)) as [ev|]; [destruct (ev_urgency ev)|]; destruct R as [->|[->| ->]]; reflexivity.
    - split; [apply shown_number; rewrite J, (mem_class d m2 C E), B3, A5 by reflexivity; cbn [nth app]; destruct (td_event d (ms_event ms)); reflexivity|].
      intros Mg. destruct (description_of d ms Mok Mg) as (l & Sl & El). exists l. split; [exact Sl|].
      apply shown_text. rewrite J, (mem_description d m2 C E), B3, B4, B5, A5, A6, A16 by reflexivity. cbn [app]. rewrite El. destruct (l ++ supplements d ms) as [|s r] eqn:Es; [reflexivity|].
      cbn [option_map]. rewrite punctuated_join by discriminate. reflexivity.
  Qed.
End Shown.
