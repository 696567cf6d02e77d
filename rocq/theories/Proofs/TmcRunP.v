(* Traffic messages over a run of the channel. *)
From Coq Require Import SpecFloat.
From Verif.Model Require Import Util Group Options Tables Json Freq RdsString Tmc Station Channel.
From Verif.Spec Require Import Numerals Unicode JsonText Session Identity History Quality Texts Apps Fields Frequencies Traffic.
From Verif.Proofs Require Import Tac Numerals FreqP JsonP Schema StationP TextP CleanP UpdateP SessionP LineP FrameP ChannelP LinesP HistoryP ShowP TraceP KeysP GetP FieldsP StringP PsP RtP EndP LpsP AppsP AfP TmcP TmcMsgP TmcLineP TmcHistP TmcEndP.

Local Open Scope string_scope.
Local Open Scope N_scope.
Local Open Scope list_scope.

Lemma all_items_ok : forall gs, Forall received_group gs -> Forall item_ok (items_of gs).
Proof.
  intros gs. induction gs as [|[[now g] w] gs IH]; intros F; [constructor|]. inversion F; subst. unfold items_of, groups_of. cbn [map flat_map fst snd]. apply Forall_app. split; [eapply items_ok; eassumption|apply IH; assumption].
Qed.
Lemma items_of_app : forall a b, items_of (a ++ b) = items_of a ++ items_of b.
Proof. intros. unfold items_of, groups_of. rewrite map_app, flat_map_app. reflexivity. Qed.

(* the last group is a user group *)
Lemma user_group_of : forall g w x y z, user_groups (app_items (g, w)) = [(x, y, z)] ->
  app_items (g, w) = [AppData type_8A (blk_data (g_b2 g)) (blk_data (g_b3 g)) (blk_data (g_b4 g))] /\ w = 0 /\ g_has_type g = true /\ g_type g = type_8A /\
  x = blk_data (g_b2 g) mod 32 /\ y = blk_data (g_b3 g) /\ z = blk_data (g_b4 g) /\ blk_is_received (g_b2 g) = true /\ blk_is_received (g_b3 g) = true /\ blk_is_received (g_b4 g) = true.
Proof.
  intros g w x y z E. assert (Hu : user_groups (map (fun ta => Announced (fst ta) (snd ta) (blk_data (g_b3 g))) (announcement (g, w))) = []).
  { induction (announcement (g, w)); [reflexivity|]. unfold user_groups in *. cbn [map flat_map]. exact IHl. }
  assert (Ua : forall a b, user_groups (a ++ b) = user_groups a ++ user_groups b) by (intros; unfold user_groups; apply flat_map_app).
  unfold app_items in E |- *. rewrite Ua, Hu in E. cbn [app] in E.
  destruct (w =? 0) eqn:Ew; [|discriminate]. destruct (g_has_type g) eqn:Ht; [|discriminate]. destruct (existsb _ _) eqn:Ex; [|discriminate].
  destruct (blk_is_received (g_b2 g)) eqn:R2; [|discriminate]. destruct (blk_is_received (g_b3 g)) eqn:R3; [|discriminate]. destruct (blk_is_received (g_b4 g)) eqn:R4; [|discriminate].
  cbn [andb] in *. unfold user_groups in E. cbn [flat_map] in E. destruct (GroupType_eqb (g_type g) type_8A) eqn:Et; [|discriminate]. apply type_eqb_eq in Et. apply N.eqb_eq in Ew. subst w.
  assert (Na : announcement (g, 0) = []). { unfold announcement, carries. rewrite Et. cbn [gt_number type_8A N.eqb Pos.eqb]. rewrite ?andb_false_r. reflexivity. }
  rewrite Na, Et. cbn [map app] in *. split; [reflexivity|]. repeat split; try assumption; congruence.
Qed.

Section Run.
  Variables (env : Env) (o : Options).
  Hypothesis H : host_ok env.
  Hypothesis HT : host_text env.
  Hypothesis OJ : o_output_type o = OutJSON.
  Let d := env_tmc env.

  (* The line of a user group *)
  Lemma tmc_line : forall w0 gs0 gs1 now g w c out p x y z, traffic_from p gs0 (gs1 ++ [(now, g, w)]) ->
    user_groups (app_items (g, w)) = [(x, y, z)] ->
    run_groups env o (Channel_new o w0) (gs0 ++ gs1 ++ [(now, g, w)]) = Ok (c, out) ->
    exists out' ln h0 s j0 s' j, out = out' ++ [Some ln] /\ (forall q, line_at q ln = option_map (value_of (env_float env)) (jget q j)) /\
      receiveUserGroup d (env_ucs2 env) s x y z j0 = Ok (s', j) /\ jget ["tmc"] j0 = None /\
      incl h0 (items_of gs0) /\ view_of s = fold_left (t_do d) (items_of gs1) (fold_left (t_do d) h0 v0).
  Proof.
    intros w0 gs0 gs1 now g w c out p x y z (F & Np & T3 & S & P & T8 & St) U E.
    destruct (user_group_of _ _ _ _ _ U) as (Ei & -> & Ht & Ty & Ex & Ey & Ez & R2 & R3 & R4).
    assert (Pg : carried_pi (now, g, 0) = Some p).
    { rewrite Forall_forall in P. apply (P (now, g, 0)); [apply in_or_app; right; left; reflexivity|]. cbn [fst snd]. rewrite Ei. discriminate. }
    assert (Rg : received_group (now, g, 0)). { rewrite Forall_forall in F. apply F. apply in_or_app. right. apply in_or_app. right. left. reflexivity. }
    destruct (last_shown (tmc_inv env) env o H HT OJ (tmc_new env) (tmc_new_pi env) (tmc_had env) (fun h st now c g w st' j I _ R _ D => tmc_step env o h st now c g w st' j I R D) w0 gs0 gs1 now g 0 c out p F Np T3 S Pg E)
      as (old & h0 & out0 & out1 & ln & c1 & st & j & D0 & -> & L0 & L1 & I & So & B & _ & Dd & Sh & Pj & Ad).
    set (g' := prepared o now c1 g 0) in *.
    assert (Ty' : g_type g' = type_8A) by (unfold g'; rewrite prepared_type; exact Ty).
    assert (Ht' : g_has_type g' = true) by (unfold g'; rewrite prepared_has_type, Ht; reflexivity).
    assert (Od : oda_type g' = true) by (unfold oda_type; rewrite Ty'; reflexivity).
    specialize (Ad _ app_items P). rewrite (decoded_in_app gs1 [(now, g, 0)] out1 [Some ln] L1) in Ad. unfold groups_of in Ad. rewrite map_app, !flat_map_app in Ad.
    cbn [decoded_in combine flat_map app map fst snd] in Ad. rewrite ?app_nil_r in Ad. apply app_inv_tail in Ad. fold (groups_of gs1) in Ad. change (flat_map app_items (groups_of gs1)) with (items_of gs1) in Ad.
    assert (Ih : incl (items h0) (items_of gs0)).
    { intros i X. unfold items in X. apply in_flat_map in X. destruct X as (b & X1 & X2). unfold items_of. apply in_flat_map. exists b. split; [|exact X2]. apply (decoded_sub gs0 out0). rewrite D0. apply in_or_app. right. exact X1. }
    assert (Pl : Forall in_place (items h0) /\ Forall in_place (items_of gs1)).
    { pose proof (in_places _ T8 St) as Q. rewrite !items_of_app in Q. apply Forall_app in Q. destruct Q as [Q0 Q]. apply Forall_app in Q. destruct Q as [Q1 _]. split; [|exact Q1].
      rewrite Forall_forall in *. intros i X. apply Q0, Ih, X. }
    destruct I as [_ I]. unfold items in I. rewrite flat_map_app, Ad, fold_left_app in I. fold (items h0) in I. destruct Pl as [Pl0 Pl1].
    destruct (fold_left (ti_do (env_tmc env)) (items h0) ([], v0)) as [A0 v1] eqn:E0.
    assert (S0 : settled A0) by (change A0 with (fst (A0, v1)); rewrite <- E0; apply settled_all; [apply settled_nil|exact Pl0]).
    assert (V1 : v1 = fold_left (t_do (env_tmc env)) (items h0) v0) by (change v1 with (snd (A0, v1)); rewrite <- E0; apply plain_fold; [apply settled_nil|exact Pl0]).
    pose proof (plain_fold (env_tmc env) (items_of gs1) A0 v1 S0 Pl1) as V2. pose proof (settled_all (env_tmc env) (items_of gs1) A0 v1 S0 Pl1) as S2. rewrite <- I in V2, S2. cbn [fst snd] in V2, S2.
    assert (Tt : to_tmc (st_oda_app_for_group st) (g_type g') = true) by (rewrite S2, Ty'; reflexivity).
    unfold decoded in Dd. rewrite Ht', (dispatch_tmc env o (had st g') g' _ Od ltac:(rewrite had_oda; exact Tt)) in Dd. unfold receiveTMC in Dd.
    pose proof (items_prepared o now c1 g 0 Rg) as Ip. cbv zeta in Ip. fold g' in Ip. rewrite Ei, Ht', Ty' in Ip. cbn [negb orb gt_version gt_number type_8A Version_eqb N.eqb Pos.eqb andb] in Ip.
    destruct (g_has g' BLOCK2 && g_has g' BLOCK3 && g_has g' BLOCK4) eqn:Hb.
    2: { exfalso. rewrite <- !andb_assoc in Ip. rewrite <- andb_assoc in Hb. rewrite Hb, andb_false_r in Ip. discriminate Ip. }
    unbind Dd. destruct y0 as [s' j']. assert (j' = j) as -> by congruence.
    assert (G2 : g_get g' BLOCK2 = blk_data (g_b2 g)) by (unfold g'; rewrite prepared_get; reflexivity).
    assert (G3 : g_get g' BLOCK3 = blk_data (g_b3 g)) by (unfold g'; rewrite prepared_get; reflexivity).
    assert (G4 : g_get g' BLOCK4 = blk_data (g_b4 g)) by (unfold g'; rewrite prepared_get; reflexivity).
    rewrite G2, G3, G4, had_tmc in B0. assert (X5 : getBits 5 (blk_data (g_b2 g)) 0 = x) by (rewrite getBits_arith; change (2 ^ 0) with 1; rewrite N.div_1_r; change (2 ^ 5) with 32; congruence). rewrite X5, <- Ey, <- Ez in B0.
    assert (Rw : raw_group st g' = false).
    { unfold raw_group. cbv zeta. rewrite Ty'. unfold to_tmc in Tt. rewrite Ty' in Tt. destruct (find_type type_8A (st_oda_app_for_group st)) as [a|]; [|reflexivity].
      unfold is_tmc in Tt. apply orb_prop in Tt. destruct Tt as [Tt|Tt]; apply N.eqb_eq in Tt; subst a; reflexivity. }
    exists (out0 ++ out1), ln, (items h0), (st_tmc st), (JObj (header env o st g')), s', j. split; [apply app_assoc|]. split; [exact (Sh (or_introl Rw))|]. split; [exact B0|].
    split; [cbn [jget]; rewrite (header_no env o st g' "tmc" B eq_refl); reflexivity|]. split; [exact Ih|]. rewrite V2, V1. reflexivity.
  Qed.

  (* The state the service is in: encryption e, with a key number if encrypted *)
  Definition ready (e : bool) (all l : list app_item) : Prop :=
    enc_is e all /\ (e = false -> starts l) /\ (e = true -> exists key, last_key l key).
  Lemma ready_state : forall e all h0 l v, ready e all l -> Forall item_ok h0 -> Forall item_ok l -> enc_is e h0 -> enc_is e l -> v = fold_left (t_do d) l (fold_left (t_do d) h0 v0) ->
    v_init v = true /\ v_enc v = e /\ (e = true -> v_has v = true) /\ msg_of e (v_msg v).
  Proof.
    intros e all h0 l v (Re & R1 & R2) F0 F1 E0 E1 ->. assert (U : unlocked e (fold_left (t_do d) l (fold_left (t_do d) h0 v0))) by (apply kept_fold; try assumption; apply kept_fold; try assumption; apply v0_unlocked).
    assert (I : v_init (fold_left (t_do d) l (fold_left (t_do d) h0 v0)) = true).
    { destruct e; [destruct (R2 eq_refl) as (key & K); apply (key_known d _ (fold_left (t_do d) h0 v0) key F1 K)|apply started, R1; reflexivity]. }
    split; [exact I|]. destruct U as [U1 U2]. split; [exact (U1 I)|]. split; [|exact U2]. intros ->. destruct (R2 eq_refl) as (key & K). apply (key_known d _ (fold_left (t_do d) h0 v0) key F1 K).
  Qed.

  (* What is shown when a message is complete *)
  Definition shown_message (e : bool) (gs1 : list (Z * Group * N)) (ln : bytes) (ms : tmc_message) : Prop :=
    shows_content d ln ms /\
    (e = false -> shows_number ln "location" (Some (ms_location ms)) /\ shows_number ln "encrypted_location" None /\
       forall table, last_table (items_of gs1) table -> table <> 0 -> db_ltn (td_locdb d table) = table -> shows_place (env_float env) ln (td_locdb d table) ms) /\
    (e = true -> forall key, last_key (items_of gs1) key ->
       shows_number ln "encrypted_location" (Some (ms_location ms)) /\
       (td_key d key = None -> shows_number ln "location" None) /\
       (forall nrot pattern v, key_of d key nrot pattern -> v < 65536 -> ms_location ms = encrypted nrot pattern v -> shows_number ln "location" (Some v))).

  Lemma parts_ok : forall gs0 gs1 x, Forall received_group (gs0 ++ gs1 ++ [x]) -> Forall item_ok (items_of gs0) /\ Forall item_ok (items_of gs1).
  Proof. intros gs0 gs1 x F. apply Forall_app in F. destruct F as [F0 F]. apply Forall_app in F. destruct F as [F1 _]. split; apply all_items_ok; assumption. Qed.
  Lemma sub_ok : forall (P : app_item -> Prop) h l, incl h l -> Forall P l -> Forall P h.
  Proof. intros P h l I F. rewrite Forall_forall in *. intros x X. apply F, I, X. Qed.
  Lemma sub_enc : forall e h l, incl h l -> enc_is e l -> enc_is e h.
  Proof. intros e h l I F t a m X. apply (F t a m). apply I, X. Qed.

  Lemma conclude : forall e gs1 h0 ln j s m1 j0 ms y, Forall item_ok (items_of gs1) ->
    (forall q, line_at q ln = option_map (value_of (env_float env)) (jget q j)) ->
    view_of s = fold_left (t_do d) (items_of gs1) (fold_left (t_do d) h0 v0) -> v_enc (view_of s) = e ->
    message_ok ms -> getBits 11 y 0 = ms_event ms /\ getBits 3 y 11 = ms_extent ms /\ getBool y 14 = ms_negative ms ->
    means d (m_set_head d (Message_new e) y (ms_location ms)) (ms_fields ms) m1 -> finish_message d s m1 j0 = Ok j -> shown_message e gs1 ln ms.
  Proof.
    intros e gs1 h0 ln j s m1 j0 ms y F Sh V Ve Mok Hy M Fm. change (t_is_encrypted s = e) in Ve. subst e.
    split; [exact (finished_content env ln j Sh ms Mok y (ms_location ms) Hy s m1 j0 M Fm)|]. split.
    - intros E. destruct (plain_location env ln j Sh ms y (ms_location ms) s m1 j0 M Fm E) as [L1 L2]. split; [exact L1|]. split; [exact L2|].
      intros table Lt N0 El. assert (Et : t_ltn s = table). { change (t_ltn s) with (v_ltn (view_of s)). rewrite V. apply table_known; assumption. }
      rewrite <- Et. rewrite <- Et in El, N0. apply (plain_place env ln j Sh ms y (ms_location ms) Hy s m1 j0 M Fm E El N0 eq_refl).
    - intros E key K. destruct (key_known d (items_of gs1) (fold_left (t_do d) h0 v0) key F K) as (_ & _ & Kk). rewrite <- V in Kk. change (t_encid s = key) in Kk.
      destruct (finished_location env ln j Sh ms y (ms_location ms) s m1 j0 M Fm) as (m2 & K2 & L1 & L2). split.
      + rewrite E in L2. assert (Ee : m_encrypted_location m2 = m_encrypted_location m1).
        { unfold with_key in K2. rewrite E in K2. destruct (td_key _ _); [|congruence]. unfold m_decrypt in K2. destruct (negb _); [congruence|]. destruct (_ || _); [discriminate|]. injection K2 as <-. reflexivity. }
        destruct (location_values env ms y (ms_location ms) s m1 M) as (_ & _ & V3). rewrite E in V3. rewrite Ee, V3 in L2. exact L2.
      + split.
        * intros Kn. rewrite <- Kk in Kn. apply (locked_location env ln j Sh ms y (ms_location ms) s m1 j0 M Fm E Kn).
        * intros nrot pattern v Ko Hv Ez. rewrite <- Kk in Ko. apply (keyed_location env ln j Sh ms y (ms_location ms) s m1 j0 M Fm nrot pattern v E Ko Hv Ez).
  Qed.

  Lemma single_shown : forall e w0 gs0 gs1 now g w c out p ms flag duration, traffic_from p gs0 (gs1 ++ [(now, g, w)]) ->
    ready e (items_of (gs0 ++ gs1)) (items_of gs1) ->
    message_ok ms -> ms_fields ms = [] -> duration < 8 -> user_groups (app_items (g, w)) = [single_group ms flag duration] ->
    run_groups env o (Channel_new o w0) (gs0 ++ gs1 ++ [(now, g, w)]) = Ok (c, out) ->
    exists out' line, out = out' ++ [Some line] /\ shown_message e gs1 line ms.
  Proof.
    intros e w0 gs0 gs1 now g w c out p ms flag duration T R Mok Nf Hd U E. unfold single_group in U.
    destruct (tmc_line w0 gs0 gs1 now g w c out p _ _ _ T U E) as (out' & ln & h0 & s & j0 & s' & j & Eo & Sh & Ru & _ & Ih & V). exists out', ln. split; [exact Eo|].
    destruct (parts_ok gs0 gs1 _ (proj1 T)) as [F0 F1]. destruct R as (Re & R1 & R2). rewrite items_of_app in Re. destruct (enc_is_app _ _ _ Re) as [Re0 Re1].
    destruct (ready_state e _ h0 (items_of gs1) (view_of s) (conj Re (conj R1 R2)) (sub_ok _ _ _ Ih F0) F1 (sub_enc _ _ _ Ih Re0) Re1 V) as (I & Ve & Hk & _).
    destruct (head_fields_single ms flag Mok) as (Y1 & Y2 & Y3 & _). cbv zeta in Y1, Y2, Y3.
    pose proof (user_single _ _ _ _ _ _ _ _ _ Ru I ltac:(intros X; apply Hk; rewrite <- Ve; exact X) ltac:(lia)) as Fm. change (t_is_encrypted s) with (v_enc (view_of s)) in Fm. rewrite Ve in Fm.
    eapply (conclude e gs1 h0 ln j s _ j0 ms _ F1 Sh V Ve Mok (conj Y1 (conj Y2 Y3))); [|exact Fm]. rewrite Nf. apply means_nil.
  Qed.

  Lemma multi_shown_fields : forall e w0 gs0 gs1 now g w c out p ms fs1 l1 l2 earlier b ci groups, traffic_from p gs0 (gs1 ++ [(now, g, w)]) ->
    items_of (gs1 ++ [(now, g, w)]) = l1 ++ l2 -> ready e (items_of (gs0 ++ gs1 ++ [(now, g, w)])) l1 ->
    message_ok ms -> sent_in ms groups -> shown_fields (length groups) (ms_fields ms) fs1 ->
    multi_groups l2 = earlier ++ b :: map (pair ci) groups -> fst b <> ci \/ (fst (snd b) < 32768 /\ (fst (snd b) / 4096) mod 4 = 0) ->
    multi_groups (app_items (g, w)) <> [] ->
    run_groups env o (Channel_new o w0) (gs0 ++ gs1 ++ [(now, g, w)]) = Ok (c, out) ->
    exists out' line, out = out' ++ [Some line] /\ shown_message e gs1 line (with_fields ms fs1).
  Proof.
    intros e w0 gs0 gs1 now g w c out p ms fs1 l1 l2 earlier b ci groups T El R Mok Sent Len Em Bd Nm E. pose proof (shown_ok _ _ _ Mok Len) as Mok1.
    assert (U : exists x y z, user_groups (app_items (g, w)) = [(x, y, z)] /\ multi_groups (app_items (g, w)) = [(x, (y, z))] /\ 1 <= x <= 7).
    { unfold multi_groups in Nm |- *. destruct (user_groups (app_items (g, w))) as [|[[x y] z] r] eqn:Eu; [contradiction|]. assert (r = []) as ->.
      { clear - Eu. unfold app_items in Eu. assert (Hu : forall l, user_groups (map (fun ta : GroupType * N => Announced (fst ta) (snd ta) (blk_data (g_b3 g))) l) = []) by (induction l; [reflexivity|exact IHl]).
        unfold user_groups in *. rewrite flat_map_app, Hu in Eu. destruct (_ && _); [|discriminate]. cbn [app flat_map] in Eu. destruct (GroupType_eqb _ _); [|discriminate]. cbn [app] in Eu. congruence. }
      exists x, y, z. split; [reflexivity|]. cbn [flat_map app] in *. destruct ((1 <=? x) && (x <=? 7)) eqn:Ex; [|contradiction]. split; [reflexivity|lia]. }
    destruct U as (x & y & z & Eu & Ex & Hx).
    destruct (tmc_line w0 gs0 gs1 now g w c out p _ _ _ T Eu E) as (out' & ln & h0 & s & j0 & s' & j & Eo & Sh & Ru & _ & Ih & V). exists out', ln. split; [exact Eo|].
    destruct (parts_ok gs0 gs1 _ (proj1 T)) as [F0 F1]. destruct (user_group_of _ _ _ _ _ Eu) as (Ei & -> & _ & _ & Exx & Eyy & Ezz & _).
    assert (Rg : received_group (now, g, 0)). { destruct T as (F & _). rewrite Forall_forall in F. apply F. apply in_or_app. right. apply in_or_app. right. left. reflexivity. }
    (* split the items *)
    assert (Sp : exists l2', l2 = l2' ++ app_items (g, 0) /\ items_of gs1 = l1 ++ l2').
    { rewrite items_of_app in El. unfold items_of in El at 2. cbn [groups_of map flat_map app fst snd] in El. rewrite app_nil_r, Ei in El. destruct l2 as [|i r] using rev_ind; [cbn in Em; destruct earlier; discriminate|].
      rewrite app_assoc in El. apply app_inj_tail in El. destruct El as [El <-]. exists r. split; [rewrite Ei; reflexivity|exact El]. }
    destruct Sp as (l2' & -> & El'). rewrite El' in V. rewrite fold_left_app in V.
    assert (F12 : Forall item_ok l1 /\ Forall item_ok l2') by (rewrite El' in F1; apply Forall_app; exact F1). destruct F12 as [F1a F1b].
    destruct R as (Re & R1 & R2). rewrite !items_of_app, El' in Re. destruct (enc_is_app _ _ _ Re) as [Re0 Rer]. destruct (enc_is_app _ _ _ Rer) as [Rel _]. destruct (enc_is_app _ _ _ Rel) as [Rea Reb].
    set (v1 := fold_left (t_do d) l1 (fold_left (t_do d) h0 v0)) in *.
    destruct (ready_state e _ h0 l1 v1 (conj Re (conj R1 R2)) (sub_ok _ _ _ Ih F0) F1a (sub_enc _ _ _ Ih Re0) Rea eq_refl) as (I1 & Ve1 & Hk1 & Mo1).
    assert (U1 : unlocked e v1) by (split; [intros _; exact Ve1|exact Mo1]).
    pose proof (multi_fold d e l2' v1 F1b Reb U1 I1 Hk1) as Vm. rewrite <- V in Vm. change (v_msg (view_of s)) with (t_message s) in Vm.
    assert (I : v_init (view_of s) = true) by (rewrite V; apply init_fold; exact I1).
    assert (Ve : v_enc (view_of s) = e). { rewrite V in I |- *. exact (proj1 (kept_fold d e l2' v1 F1b Reb U1) I). }
    assert (Hk : e = true -> v_has (view_of s) = true). { intros X. rewrite V. specialize (Hk1 X). clear - Hk1. generalize dependent v1. induction l2' as [|i l IH]; intros v Hv; [exact Hv|]. cbn [fold_left]. apply IH, has_step, Hv. }
    rewrite multi_app, Ex in Em.
    (* the message so far *)
    assert (Gs : groups <> []) by (destruct Sent as (rest & ? & -> & _); discriminate).
    destruct groups as [|gl gr] using rev_ind; [contradiction|]. clear IHgr Gs. rewrite map_app in Em. cbn [map] in Em. change (b :: map (pair ci) gr ++ [(ci, gl)]) with ((b :: map (pair ci) gr) ++ [(ci, gl)]) in Em.
    rewrite app_assoc in Em. apply app_inj_tail in Em. destruct Em as [Em Eg]. injection Eg as <- <-.
    rewrite Em, fold_left_app in Vm. cbn [fold_left] in Vm. set (m0 := msg_do d e (fold_left (msg_do d e) earlier (v_msg v1)) b) in *.
    assert (Bi : In b (multi_groups l2')) by (rewrite Em; apply in_or_app; right; left; reflexivity).
    assert (Qs : forall q, In q (multi_groups l2') -> 1 <= fst q <= 7 /\ fst (snd q) < 65536).
    { intros [qx [qy qz]] X. unfold multi_groups in X. apply in_flat_map in X. destruct X as ([[ux uy] uz] & X1 & X2). destruct ((1 <=? ux) && (ux <=? 7)) eqn:Eux; [|destruct X2]. destruct X2 as [X2|[]].
      unfold user_groups in X1. apply in_flat_map in X1. destruct X1 as ([ |t b2 b3 b4] & Y1 & Y2); [destruct Y2|]. destruct (GroupType_eqb t type_8A); [|destruct Y2]. destruct Y2 as [Y2|[]].
      rewrite Forall_forall in F1b. destruct (F1b _ Y1) as (_ & Y3 & _). cbn [fst snd]. assert (qx = ux /\ qy = b3) as [-> ->] by (split; congruence). lia. }
    assert (P0 : pending e m0).
    { unfold m0. apply msg_do_of; [|apply Qs in Bi; lia]. clear - Mo1 Qs Em. assert (Hq : forall q, In q earlier -> 0 < fst q). { intros q X. assert (In q (multi_groups l2')) as Y by (rewrite Em; apply in_or_app; left; exact X). apply Qs in Y. lia. }
      clear Em. revert Hq Mo1. generalize (v_msg v1). induction earlier as [|q l IH]; intros m Hq Mo; [exact Mo|]. cbn [fold_left]. apply IH; [intros r X; apply Hq; right; exact X|]. left. apply msg_do_of; [exact Mo|apply Hq; left; reflexivity]. }
    assert (Fr : fresh x m0).
    { unfold m0. pose proof (Qs _ Bi) as [Qb1 Qb2]. apply boundary_fresh; [lia|lia|]. destruct Bd as [Bd|[Bd1 Bd2]]; [left; exact Bd|right]. unfold final. rewrite bit15 by exact Qb2. replace (32768 <=? fst (snd b)) with false by lia. rewrite gsi_of, Bd2. reflexivity. }
    assert (Yk : Forall (fun q : N * N => fst q < 65536) (gr ++ [(y, z)])).
    { apply Forall_app. split; [|constructor; [|constructor]; cbn [fst]; rewrite Eyy; apply Rg]. apply Forall_forall. intros q X. assert (Y : In (x, q) (multi_groups l2')) by (rewrite Em; apply in_or_app; right; right; apply in_map; exact X). apply Qs in Y. cbn [fst snd] in Y. lia. }
    destruct (whole_message d e x _ ms fs1 m0 Mok P0 ltac:(lia) Fr Sent Len Yk) as (init & y' & z' & m1 & mt & Ig & _ & Em1 & Pm1 & Cm1 & Pu & Mn).
    apply app_inj_tail in Ig. destruct Ig as [<- Iyz]. injection Iyz as <- <-. rewrite <- Em1 in Vm.
    pose proof (user_multi _ _ _ _ _ _ _ _ _ Ru I ltac:(intros X; apply Hk; rewrite <- Ve; exact X) ltac:(lia)) as Fm. cbv zeta in Fm. rewrite Vm, Cm1, N.eqb_refl, Pu in Fm.
    assert (Cc : m_is_complete (m_clear mt) = true). { rewrite clear_complete, (mn_complete _ _ _ _ Mn). reflexivity. } rewrite Cc in Fm.
    destruct (head_fields ms Mok) as (_ & Y1 & Y2 & Y3). cbv zeta in Y1, Y2, Y3.
    apply (conclude e gs1 h0 ln j s (m_clear mt) j0 (with_fields ms fs1) _ F1 Sh ltac:(rewrite El', fold_left_app; exact V) Ve Mok1 (conj Y1 (conj Y2 Y3))); [|exact Fm].
    destruct Mn. constructor; cbn [m_clear m_set_parts m_is_encrypted m_was_encrypted m_direction m_extent m_events m_supplementary m_diversion m_location m_encrypted_location m_is_complete m_time_until m_time_starts m_speed_limit m_directionality m_urgency]; assumption.
  Qed.
  Lemma multi_shown_any : forall e w0 gs0 gs1 now g w c out p ms l1 l2 earlier ci groups, traffic_from p gs0 (gs1 ++ [(now, g, w)]) ->
    items_of (gs1 ++ [(now, g, w)]) = l1 ++ l2 -> ready e (items_of (gs0 ++ gs1 ++ [(now, g, w)])) l1 ->
    message_ok ms -> sent_in ms groups -> (2 <= length groups <= 5)%nat ->
    multi_groups l2 = earlier ++ map (pair ci) groups ->
    multi_groups (app_items (g, w)) <> [] ->
    run_groups env o (Channel_new o w0) (gs0 ++ gs1 ++ [(now, g, w)]) = Ok (c, out) ->
    exists out' line fs1, out = out' ++ [Some line] /\ (fs1 = ms_fields ms \/ (length groups = 3 \/ length groups = 4)%nat /\ in_second_group (ms_fields ms) fs1) /\
      shown_message e gs1 line (with_fields ms fs1).
  Proof.
    intros e w0 gs0 gs1 now g w c out p ms l1 l2 earlier ci groups T El R Mok Sent Len Em Nm E.
    assert (U : exists x y z, user_groups (app_items (g, w)) = [(x, y, z)] /\ multi_groups (app_items (g, w)) = [(x, (y, z))] /\ 1 <= x <= 7).
    { unfold multi_groups in Nm |- *. destruct (user_groups (app_items (g, w))) as [|[[x y] z] r] eqn:Eu; [contradiction|]. assert (r = []) as ->.
      { clear - Eu. unfold app_items in Eu. assert (Hu : forall l, user_groups (map (fun ta : GroupType * N => Announced (fst ta) (snd ta) (blk_data (g_b3 g))) l) = []) by (induction l; [reflexivity|exact IHl]).
        unfold user_groups in *. rewrite flat_map_app, Hu in Eu. destruct (_ && _); [|discriminate]. cbn [app flat_map] in Eu. destruct (GroupType_eqb _ _); [|discriminate]. cbn [app] in Eu. congruence. }
      exists x, y, z. split; [reflexivity|]. cbn [flat_map app] in *. destruct ((1 <=? x) && (x <=? 7)) eqn:Ex; [|contradiction]. split; [reflexivity|lia]. }
    destruct U as (x & y & z & Eu & Ex & Hx).
    destruct (tmc_line w0 gs0 gs1 now g w c out p _ _ _ T Eu E) as (out' & ln & h0 & s & j0 & s' & j & Eo & Sh & Ru & _ & Ih & V). exists out', ln.
    destruct (parts_ok gs0 gs1 _ (proj1 T)) as [F0 F1]. destruct (user_group_of _ _ _ _ _ Eu) as (Ei & -> & _ & _ & Exx & Eyy & Ezz & _).
    assert (Rg : received_group (now, g, 0)). { destruct T as (F & _). rewrite Forall_forall in F. apply F. apply in_or_app. right. apply in_or_app. right. left. reflexivity. }
    (* split the items *)
    assert (Sp : exists l2', l2 = l2' ++ app_items (g, 0) /\ items_of gs1 = l1 ++ l2').
    { rewrite items_of_app in El. unfold items_of in El at 2. cbn [groups_of map flat_map app fst snd] in El. rewrite app_nil_r, Ei in El. destruct l2 as [|i r] using rev_ind; [cbn in Em; destruct Sent as (? & ? & -> & _); destruct earlier; discriminate|].
      rewrite app_assoc in El. apply app_inj_tail in El. destruct El as [El <-]. exists r. split; [rewrite Ei; reflexivity|exact El]. }
    destruct Sp as (l2' & -> & El'). rewrite El' in V. rewrite fold_left_app in V.
    assert (F12 : Forall item_ok l1 /\ Forall item_ok l2') by (rewrite El' in F1; apply Forall_app; exact F1). destruct F12 as [F1a F1b].
    destruct R as (Re & R1 & R2). rewrite !items_of_app, El' in Re. destruct (enc_is_app _ _ _ Re) as [Re0 Rer]. destruct (enc_is_app _ _ _ Rer) as [Rel _]. destruct (enc_is_app _ _ _ Rel) as [Rea Reb].
    set (v1 := fold_left (t_do d) l1 (fold_left (t_do d) h0 v0)) in *.
    destruct (ready_state e _ h0 l1 v1 (conj Re (conj R1 R2)) (sub_ok _ _ _ Ih F0) F1a (sub_enc _ _ _ Ih Re0) Rea eq_refl) as (I1 & Ve1 & Hk1 & Mo1).
    assert (U1 : unlocked e v1) by (split; [intros _; exact Ve1|exact Mo1]).
    pose proof (multi_fold d e l2' v1 F1b Reb U1 I1 Hk1) as Vm. rewrite <- V in Vm. change (v_msg (view_of s)) with (t_message s) in Vm.
    assert (I : v_init (view_of s) = true) by (rewrite V; apply init_fold; exact I1).
    assert (Ve : v_enc (view_of s) = e). { rewrite V in I |- *. exact (proj1 (kept_fold d e l2' v1 F1b Reb U1) I). }
    assert (Hk : e = true -> v_has (view_of s) = true). { intros X. rewrite V. specialize (Hk1 X). clear - Hk1. generalize dependent v1. induction l2' as [|i l IH]; intros v Hv; [exact Hv|]. cbn [fold_left]. apply IH, has_step, Hv. }
    rewrite multi_app, Ex in Em.
    (* the message so far *)
    assert (Gs : groups <> []) by (destruct Sent as (rest & ? & -> & _); discriminate).
    destruct groups as [|gl gr] using rev_ind; [contradiction|]. clear IHgr Gs. rewrite map_app in Em. cbn [map] in Em.
    rewrite app_assoc in Em. apply app_inj_tail in Em. destruct Em as [Em Eg]. injection Eg as <- <-.
    rewrite Em, fold_left_app in Vm. set (m0 := fold_left (msg_do d e) earlier (v_msg v1)) in *.
    assert (Qs : forall q, In q (multi_groups l2') -> 1 <= fst q <= 7 /\ fst (snd q) < 65536).
    { intros [qx [qy qz]] X. unfold multi_groups in X. apply in_flat_map in X. destruct X as ([[ux uy] uz] & X1 & X2). destruct ((1 <=? ux) && (ux <=? 7)) eqn:Eux; [|destruct X2]. destruct X2 as [X2|[]].
      unfold user_groups in X1. apply in_flat_map in X1. destruct X1 as ([ |t b2 b3 b4] & Y1 & Y2); [destruct Y2|]. destruct (GroupType_eqb t type_8A); [|destruct Y2]. destruct Y2 as [Y2|[]].
      rewrite Forall_forall in F1b. destruct (F1b _ Y1) as (_ & Y3 & _). cbn [fst snd]. assert (qx = ux /\ qy = b3) as [-> ->] by (split; congruence). lia. }
    assert (P0 : pending e m0 \/ m_continuity_index m0 <> x).
    { assert (Mo : msg_of e m0); [|destruct Mo as [Mo|Mo]; [left; exact Mo|right; rewrite Mo; cbn [m_continuity_index Message_new]; lia]].
      unfold m0. clear - Mo1 Qs Em. assert (Hq : forall q, In q earlier -> 0 < fst q). { intros q X. assert (In q (multi_groups l2')) as Y by (rewrite Em; apply in_or_app; left; exact X). apply Qs in Y. lia. }
      clear Em. revert Hq Mo1. generalize (v_msg v1). induction earlier as [|q l IH]; intros m Hq Mo; [exact Mo|]. cbn [fold_left]. apply IH; [intros r X; apply Hq; right; exact X|]. left. apply msg_do_of; [exact Mo|apply Hq; left; reflexivity]. }
    assert (Yk : Forall (fun q : N * N => fst q < 65536) (gr ++ [(y, z)])).
    { apply Forall_app. split; [|constructor; [|constructor]; cbn [fst]; rewrite Eyy; apply Rg]. apply Forall_forall. intros q X. assert (Y : In (x, q) (multi_groups l2')) by (rewrite Em; apply in_or_app; right; apply in_map; exact X). apply Qs in Y. cbn [fst snd] in Y. lia. }
    destruct (whole_any d e x _ ms m0 Mok P0 ltac:(lia) Sent Len Yk) as (init & y' & z' & m1 & mt & fs1 & Ig & Em1 & Pm1 & Cm1 & Pu & Fs & Mn).
    assert (Mok1 : message_ok (with_fields ms fs1)).
    { destruct Fs as [->|[_ (_ & fs2 & Ef & _)]]; [destruct ms; exact Mok|]. destruct Mok as (K1 & K2 & K3 & K4). rewrite Ef in K4. apply Forall_app in K4. split; [exact K1|]. split; [exact K2|]. split; [exact K3|apply K4]. }
    exists fs1. split; [exact Eo|]. split; [exact Fs|].
    apply app_inj_tail in Ig. destruct Ig as [<- Iyz]. injection Iyz as <- <-. rewrite <- Em1 in Vm.
    pose proof (user_multi _ _ _ _ _ _ _ _ _ Ru I ltac:(intros X; apply Hk; rewrite <- Ve; exact X) ltac:(lia)) as Fm. cbv zeta in Fm. rewrite Vm, Cm1, N.eqb_refl, Pu in Fm.
    assert (Cc : m_is_complete (m_clear mt) = true). { rewrite clear_complete, (mn_complete _ _ _ _ Mn). reflexivity. } rewrite Cc in Fm.
    destruct (head_fields ms Mok) as (_ & Y1 & Y2 & Y3). cbv zeta in Y1, Y2, Y3.
    apply (conclude e gs1 h0 ln j s (m_clear mt) j0 (with_fields ms fs1) _ F1 Sh ltac:(rewrite El', fold_left_app; exact V) Ve Mok1 (conj Y1 (conj Y2 Y3))); [|exact Fm].
    destruct Mn. constructor; cbn [m_clear m_set_parts m_is_encrypted m_was_encrypted m_direction m_extent m_events m_supplementary m_diversion m_location m_encrypted_location m_is_complete m_time_until m_time_starts m_speed_limit m_directionality m_urgency]; assumption.
  Qed.
  (* Two or five groups: everything is used *)
  Lemma multi_shown : forall e w0 gs0 gs1 now g w c out p ms l1 l2 earlier ci groups, traffic_from p gs0 (gs1 ++ [(now, g, w)]) ->
    items_of (gs1 ++ [(now, g, w)]) = l1 ++ l2 -> ready e (items_of (gs0 ++ gs1 ++ [(now, g, w)])) l1 ->
    message_ok ms -> sent_in ms groups -> length groups = 2%nat \/ length groups = 5%nat ->
    multi_groups l2 = earlier ++ map (pair ci) groups ->
    multi_groups (app_items (g, w)) <> [] ->
    run_groups env o (Channel_new o w0) (gs0 ++ gs1 ++ [(now, g, w)]) = Ok (c, out) ->
    exists out' line, out = out' ++ [Some line] /\ shown_message e gs1 line ms.
  Proof.
    intros e w0 gs0 gs1 now g w c out p ms l1 l2 earlier ci groups T El R Mok Sent Len Em Nm E.
    destruct (multi_shown_any e w0 gs0 gs1 now g w c out p ms l1 l2 earlier ci groups T El R Mok Sent ltac:(lia) Em Nm E) as (out' & line & fs1 & Eo & [->|[L _]] & Sm); [|lia].
    exists out', line. split; [exact Eo|]. destruct ms; exact Sm.
  Qed.
End Run.
