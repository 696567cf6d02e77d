(* RadioText Plus for Enhanced RadioText. *)
From Verif.Model Require Import Util Group Options Tables Json Freq RdsString Tmc Station Channel.
From Verif.Spec Require Import Numerals Unicode JsonText Session Identity History Quality Texts Apps Traffic Enhanced Plus.
From Verif.Proofs Require Import Tac Numerals JsonP Utf8P Schema StationP TextP CleanP UpdateP SessionP LineP FrameP ChannelP LinesP HistoryP ShowP TraceP KeysP GetP FieldsP StringP PsP RtP EndP LpsP AfP AppsP TmcP PlusP PlusTrueP ErtP.

Local Open Scope string_scope.
Local Open Scope N_scope.
Local Open Scope list_scope.

#[local] Strategy 1000 [set_all s_set s_isComplete s_str s_last_complete_string header].

(* --- the last complete text --- *)
Definition last_utf8 (ws : Texts.writes) (s : RDSString) : Prop :=
  s_last_complete_string s = [] \/ exists a b l, ws = a ++ b /\ complete_text 64 a l /\ s_last_complete_string s = map visible l.
Lemma set_utf8 : forall u s ws p b, tracks 64 s ws -> s_encoding s = EncUTF8 -> last_utf8 ws s -> p < 64 -> b < 256 -> last_utf8 (ws ++ [(p, b)]) (s_set u s p b).
Proof.
  intros u s ws p b T En L Hp Hb. pose proof (set_tracks u 64 s ws p b T Hp Hb) as T'. destruct (s_isComplete (s_set u s p b)) eqn:C.
  - right. exists (ws ++ [(p, b)]), [], (shown_bytes (s_set u s p b)). split; [rewrite app_nil_r; reflexivity|]. split; [apply complete_spec; [exact T'|lia|exact C]|].
    pose proof (proj2 (tracks_sized _ _ _ T')) as Fb.
    pose proof (set_last u 64 s p b (proj1 (tracks_sized _ _ _ T)) Hp C ltac:(lia)) as X. pose proof (complete_str u _ Fb C) as Y. rewrite set_encoding, En in Y. congruence.
  - assert (M : forall s0, last_utf8 ws s0 -> last_utf8 (ws ++ [(p, b)]) s0).
    { intros s0 [E|(a & r & l & -> & X)]; [left; exact E|right]. exists a, (r ++ [(p, b)]), l. split; [rewrite app_assoc; reflexivity|exact X]. }
    apply M. destruct (set_keeps u s p b C) as [X|X]; [|left; exact X]. unfold last_utf8 in *. rewrite X. exact L.
Qed.
Lemma set_all_utf8 : forall u r s ws, tracks 64 s ws -> s_encoding s = EncUTF8 -> last_utf8 ws s -> Forall (fun pb => fst pb < 64 /\ snd pb < 256) r -> last_utf8 (ws ++ r) (set_all u s r).
Proof.
  intros u r. induction r as [|[p b] r IH]; intros s ws T En L F; [rewrite app_nil_r; exact L|]. rewrite Forall_cons_iff in F. destruct F as [[F1 F2] F]. cbn [fst snd] in *.
  unfold set_all in *. cbn [fold_left fst snd]. replace (ws ++ (p, b) :: r) with ((ws ++ [(p, b)]) ++ r) by (rewrite <- app_assoc; reflexivity).
  apply IH; [apply set_tracks; assumption|rewrite set_encoding; exact En|apply set_utf8; assumption|exact F].
Qed.

(* --- any history --- *)
Lemma assigned_sub : forall t m a b, (forall x, In x a -> In x b) -> ert_assigned t m b -> ert_assigned t m a.
Proof.
  intros t m a b S O t' x y X. apply (O t' x y). apply in_flat_map in X. destruct X as (z & X1 & X2). apply in_flat_map. exists z. split; [apply S, X1|exact X2].
Qed.
Lemma assigned_found : forall t m h st tt a, ert_assigned t m h -> oda_inv h st -> find_type tt (st_oda_app_for_group st) = Some a -> a = 0x6552 \/ tt = t -> tt = t /\ a = 0x6552.
Proof.
  intros t m h st tt a O I E Y. unfold oda_inv in I. rewrite I in E. apply find_rev in E.
  assert (X : exists mm, In (Announced tt a mm) (flat_map app_items h)).
  { apply in_flat_map in E. destruct E as ([g w] & X1 & X2). exists (blk_data (g_b3 g)). apply in_flat_map. exists (g, w). split; [exact X1|]. unfold app_items. apply in_or_app. left.
    apply in_map_iff. exists (tt, a). split; [reflexivity|exact X2]. }
  destruct X as [mm X]. destruct (O _ _ _ X Y) as (A & B & _). auto.
Qed.
Definition ert_plus_group (st : Station) (g : Group) : Prop :=
  g_has_type g = true /\ oda_type g = true /\ find_type (g_type g) (st_oda_app_for_group st) = Some 0x4BD8.
Lemma ert_plus_decoded : forall env o st g st' j, decoded env o st g = Ok (st', j) -> ert_plus_group st g ->
  exists rt, parseRadioTextPlus g (st_ert st) ["ert_plus"] (JObj (header env o st g)) = Ok (rt, j) /\ st' = set_ert (had st g) rt.
Proof.
  intros env o st g st' j D (Ht & Od & Ef). unfold decoded in D. rewrite Ht in D. rewrite (oda_dispatch env o (had st g) g _ 0x4BD8 Od) in D by (rewrite had_oda; exact Ef).
  unfold decodeODAGroup in D. rewrite had_oda, Ef in D. cbn [N.eqb Pos.eqb] in D. rewrite had_ert in D.
  destruct (parseRadioTextPlus _ _ _ _) as [[rt j1]| |]; cbn [bind] in D; [|discriminate|discriminate]. exists rt. split; congruence.
Qed.
Lemma plus_text : forall g rt p j rt' j', parseRadioTextPlus g rt p j = Ok (rt', j') -> rt_text rt' = rt_text rt \/ rt_text rt' = s_clear (rt_text rt).
Proof.
  intros g rt p j rt' j' E. unfold parseRadioTextPlus in E. cbv zeta in E. do 4 unbind E. revert E. destruct (negb _ || negb _); intros E;
    assert (X := f_equal (fun r => match r with Ok (a, _) => rt_text a | _ => rt_text rt' end) E); cbn in X; auto.
Qed.
Lemma ert_fields : forall st g, g_has_type g = true -> (gt_number (g_type g) =? 3) && Version_eqb (gt_version (g_type g)) VA = false ->
  find_type (g_type g) (st_oda_app_for_group st) <> Some 0x6552 -> off (group_fields st g) Fert \/ ert_plus_group st g.
Proof.
  intros st g Ht E3 T. unfold ert_plus_group. destruct (find_type (g_type g) (st_oda_app_for_group st)) as [a|] eqn:Ef.
  - destruct (N.eqb_spec a 0x4BD8) as [->|Na].
    + destruct (oda_type g) eqn:Od; [right; auto|]. left. unfold off, group_fields. cbv zeta. rewrite Ef, Od. destruct (Version_eqb (gt_version (g_type g)) VC) eqn:Hv; [reflexivity|].
      destruct (gt_number (g_type g) =? 3) eqn:Z3; [|by_cases].
      exfalso. cbn [andb] in E3. apply N.eqb_eq in Z3. unfold oda_type in Od. cbv zeta in Od. rewrite Hv, Z3, E3 in Od. cbn in Od. rewrite andb_false_r in Od. discriminate.
    + left. apply no_ert_fields; [exact E3|]. rewrite Ef. intros b X. split; congruence.
  - left. apply no_ert_fields; [exact E3|]. rewrite Ef. discriminate.
Qed.

Definition etr_text (t : GroupType) (h : list (Group * N)) (st : Station) : Prop :=
  exists e ws, flat_map (ert_written t) h = e ++ ws /\ tracks 64 (rt_text (st_ert st)) ws /\ last_utf8 ws (rt_text (st_ert st)) /\
    (if found t st then s_encoding (rt_text (st_ert st)) = EncUTF8 else ws = []).
Definition etr_inv (t : GroupType) (m : N) (h : list (Group * N)) (st : Station) : Prop :=
  Forall (fun x => received_group (0%Z, fst x, snd x)) h /\ oda_inv h st /\ (ert_assigned t m h -> ert_whole t h -> ert_short t h -> etr_text t h st).
Lemma etr_start : forall t m st, st_ert st = RadioText_default -> st_oda_app_for_group st = [] -> etr_inv t m [] st.
Proof.
  intros t m st E1 E2. split; [constructor|]. split; [exact E2|]. intros _ _ _. exists [], []. rewrite E1. unfold found. rewrite E2.
  split; [reflexivity|]. split; [apply (new_tracks 64)|]. split; [left; reflexivity|reflexivity].
Qed.
Lemma etr_had : forall t m h st g, etr_inv t m h st -> etr_inv t m h (had st g).
Proof.
  intros t m h st g (F & Io & I). split; [exact F|]. split; [unfold oda_inv in *; rewrite had_oda; exact Io|]. unfold etr_text, found in *. rewrite had_oda, had_ert. exact I.
Qed.
Lemma etr_step : forall t m env o h st now c g w st' j, In t for_applications -> in_utf8 m -> etr_inv t m h st -> received_group (now, g, w) ->
  decoded env o st (prepared o now c g w) = Ok (st', j) -> etr_inv t m (h ++ [(g, w)]) st'.
Proof.
  intros t m env o h st now c g w st' j Ta U (F & Io & I) R D. pose proof (oda_step env o h st now c g w st' j Io R D) as Io'.
  assert (F' : Forall (fun x => received_group (0%Z, fst x, snd x)) (h ++ [(g, w)])) by (apply Forall_app; split; [exact F|constructor; [exact R|constructor]]).
  split; [exact F'|]. split; [exact Io'|]. intros O' W' S'.
  assert (Sub : forall x, In x h -> In x (h ++ [(g, w)])) by (intros x X; apply in_or_app; auto).
  pose proof (assigned_sub t m _ _ Sub O') as O. destruct (I O (whole_sub _ _ _ Sub W') (short_sub _ _ _ Sub S')) as (e & ws & Ew & T & L & Fd). clear I.
  pose proof (ert_ok t _ F' W' S') as Wok. rewrite flat_map_app in Wok. apply Forall_app in Wok. destruct Wok as [_ Wok]. cbn [flat_map] in Wok. rewrite app_nil_r in Wok.
  unfold etr_text. rewrite flat_map_app, Ew. cbn [flat_map]. rewrite app_nil_r.
  assert (Eo : st_oda_app_for_group st' = rev (announcement (g, w)) ++ st_oda_app_for_group st).
  { unfold oda_inv in Io, Io'. rewrite Io', Io, flat_map_app, rev_app_distr. cbn [flat_map]. rewrite app_nil_r. reflexivity. }
  rewrite (written_prepared t o now c g w Ta R) in *. cbv zeta in *.
  assert (Oa : forall t' a, announcement (g, w) = [(t', a)] -> (a = 0x6552 \/ t' = t -> t' = t /\ a = 0x6552 /\ g_get (prepared o now c g w) BLOCK3 = m)).
  { intros t' a An X. rewrite prepared_get. apply (O' t' a (blk_data (g_b3 g))); [|exact X].
    rewrite flat_map_app. apply in_or_app. right. cbn [flat_map]. rewrite app_nil_r. unfold app_items. rewrite An. left. reflexivity. }
  pose proof (announce_prepared o now c g w R) as An. cbv zeta in An. set (g' := prepared o now c g w) in *.
  pose proof (decoded_frame env o st g' _ D) as Fr. cbn [fst] in Fr. destruct Fr as (_ & _ & _ & _ & _ & Fe & _). rewrite had_ert in Fe.
  pose proof D as D0. unfold decoded in D. destruct (g_has_type g') eqn:Ht; cbn [negb orb andb] in *.
  2: { rewrite An in *. cbn [rev app] in *. unfold found in *. rewrite Eo, Fe by reflexivity. exists e, ws. rewrite app_nil_r. auto. }
  destruct ((gt_number (g_type g') =? 3) && Version_eqb (gt_version (g_type g')) VA) eqn:E3.
  - assert (Nt : GroupType_eqb (g_type g') t = false).
    { destruct (GroupType_eqb (g_type g') t) eqn:E; [|reflexivity]. apply eqb_types in E. rewrite <- E in Ta. rewrite (apps_not_3A _ Ta) in E3. discriminate. }
    rewrite Nt in *. rewrite app_nil_r. apply andb_prop in E3. destruct E3 as [E3 Ea].
    assert (Hv : Version_eqb (gt_version (g_type g')) VC = false) by (destruct (gt_version (g_type g')); try discriminate; reflexivity).
    rewrite Hv, E3, Ea in An. cbn [andb negb] in An. rewrite andb_true_r in An.
    unfold decodeByType in D. cbv zeta in D. apply N.eqb_eq in E3. rewrite Hv, E3, Ea in D. cbn [N.eqb Pos.eqb andb] in D.
    unfold decodeType3A in D. cbv zeta in D. rewrite Ea in D. cbn [negb] in D.
    destruct (g_has g' BLOCK3 && g_has g' BLOCK4); cbn [negb] in D.
    2: { rewrite An in *. cbn [rev app] in *. exists e, ws. unfold found in *. rewrite Eo. assert (st' = had st g') as -> by congruence. rewrite had_ert. auto. }
    specialize (Oa _ _ An). rewrite An in *. cbn [rev app] in *. unfold found in *. rewrite Eo. cbn [find_type].
    set (t' := GroupType_of (getBits 5 (g_get g' BLOCK2) 0)) in *. remember (g_get g' BLOCK4) as a eqn:Eqa.
    assert (Sw : GroupType_eqb t t' = GroupType_eqb t' t).
    { destruct (GroupType_eqb t' t) eqn:E; [apply eqb_types in E; rewrite E; apply eqb_type|]. destruct (GroupType_eqb t t') eqn:E2; [|reflexivity]. apply eqb_types in E2. rewrite E2, eqb_type in E. discriminate. }
    rewrite Sw. unbind D. unbind D.
    assert (Tx : rt_text (st_ert st') = if a =? 0x6552 then start (g_get g' BLOCK3) (rt_text (st_ert st)) else rt_text (st_ert st)).
    { rewrite <- (had_ert st g'). destruct (N.eqb_spec a 0x0093) as [->|_]; [injection D as <- _; reflexivity|].
      destruct (N.eqb_spec a 0x4BD7) as [->|_]; [injection D as <- _; reflexivity|].
      destruct (N.eqb_spec a 0x4BD8) as [->|_]; [injection D as <- _; reflexivity|].
      destruct (N.eqb_spec a 0x6552) as [->|_]; [injection D as <- _; reflexivity|].
      destruct ((a =? 0xCD46) || (a =? 0xCD47)).
      - unbind D. destruct y1 as [s1 j1]. injection D as <- _. reflexivity.
      - unbind D. unbind D. injection D as <- _. reflexivity. }
    exists e, ws. split; [reflexivity|]. rewrite Tx. destruct (GroupType_eqb t' t) eqn:Et.
    + apply eqb_types in Et. destruct (Oa (or_intror Et)) as (_ & -> & ->). rewrite N.eqb_refl. split; [exact T|]. split; [exact L|]. apply utf8_start, U.
    + destruct (N.eqb_spec a 0x6552) as [X|_]; [|auto]. destruct (Oa (or_introl X)) as (Y & _). rewrite Y, eqb_type in Et. discriminate.
  - assert (An0 : announcement (g, w) = []).
    { rewrite An. replace (negb (Version_eqb (gt_version (g_type g')) VC) && (gt_number (g_type g') =? 3) && (g_has g' BLOCK3 && g_has g' BLOCK4 && Version_eqb (gt_version (g_type g')) VA)) with false; [reflexivity|].
      destruct (gt_number (g_type g') =? 3); [|rewrite andb_false_r; reflexivity]. cbn [andb] in E3. rewrite E3, !andb_false_r. reflexivity. }
    rewrite An0 in *. cbn [rev app] in *. unfold found in *. rewrite Eo.
    destruct (GroupType_eqb (g_type g') t) eqn:Et.
    + apply eqb_types in Et. destruct (find_type t (st_oda_app_for_group st)) as [a|] eqn:Ef.
      * destruct (assigned_found t m h st t a O Io Ef (or_intror eq_refl)) as [_ ->].
        rewrite (oda_dispatch env o (had st g') g' _ 0x6552) in D; [|apply for_apps; rewrite Et; exact Ta|rewrite had_oda, Et; exact Ef].
        unfold decodeODAGroup in D. rewrite had_oda, Et, Ef in D. cbn [N.eqb Pos.eqb] in D. rewrite parseEnhanced_eq in D. cbv zeta in D. rewrite had_ert in D.
        assert (Tx : rt_text (st_ert st') = set_all (env_ucs2 env) (rt_text (st_ert st)) (ert_seg g')) by (destruct (s_isComplete _); [unbind D|]; injection D as <- _; reflexivity).
        exists e, (ws ++ ert_seg g'). split; [rewrite app_assoc; reflexivity|]. rewrite Tx. split; [apply set_all_tracks; assumption|]. split; [apply set_all_utf8; assumption|rewrite set_all_encoding; exact Fd].
      * rewrite Fe; [|apply no_ert_fields; [exact E3|]; rewrite had_oda, Et, Ef; discriminate].
        exists ((e ++ ws) ++ ert_seg g'), []. split; [rewrite app_nil_r; reflexivity|]. subst ws. auto.
    + rewrite app_nil_r. destruct (ert_fields (had st g') g' Ht E3) as [Off|Pg].
      * rewrite had_oda. intros Ef. destruct (assigned_found t m h st _ _ O Io Ef (or_introl eq_refl)) as [Y _]. rewrite Y, eqb_type in Et. discriminate.
      * rewrite (Fe Off). exists e, ws. auto.
      * assert (Pg' : ert_plus_group st g') by (destruct Pg as (P1 & P2 & P3); rewrite had_oda in P3; split; auto).
        destruct (ert_plus_decoded env o st g' st' j D0 Pg') as (rt & Ep & ->). cbn [set_ert st_ert]. destruct (plus_text _ _ _ _ _ _ Ep) as [-> | ->]; [exists e, ws; auto|].
        exists (e ++ ws), []. split; [rewrite app_nil_r; reflexivity|]. split; [exact (clear_tracks _ _ _ [] T)|]. split; [left; reflexivity|].
        destruct (find_type t _); [exact Fd|reflexivity].
Qed.

(* --- the text shown --- *)
Lemma etr_cases : forall t m env o h st g st' j, In t for_applications -> ert_assigned t m h -> oda_inv h st -> decoded env o st g = Ok (st', j) ->
  (g_has_type g = true /\ g_type g = t /\ found t st = true /\ parseEnhancedRT env (had st g) g (JObj (header env o st g)) = Ok (st', j)) \/
  (g_has_type g = true -> existsb (String.eqb "enhanced_radiotext") (type_keys o st g) = false).
Proof.
  intros t m env o h st g st' j Ta O Io D. destruct (g_has_type g) eqn:Ht; [|right; discriminate].
  destruct (find_type (g_type g) (st_oda_app_for_group st)) as [a|] eqn:Ef.
  - destruct (N.eqb_spec a 0x6552) as [->|Na].
    + left. split; [reflexivity|]. destruct (assigned_found t m h st _ _ O Io Ef (or_introl eq_refl)) as [Et _]. split; [exact Et|].
      split; [unfold found; rewrite <- Et, Ef; reflexivity|].
      unfold decoded in D. rewrite Ht in D. rewrite (oda_dispatch env o (had st g) g _ 0x6552) in D; [|apply for_apps; rewrite Et; exact Ta|rewrite had_oda; exact Ef].
      unfold decodeODAGroup in D. rewrite had_oda, Ef in D. exact D.
    + right. intros _. unfold type_keys, app_keys. cbv zeta. rewrite Ef. apply N.eqb_neq in Na. rewrite Na. by_cases.
  - right. intros _. unfold type_keys. cbv zeta. rewrite Ef. by_cases.
Qed.
Lemma etr_complete : forall env o w0 gs now g w c out line v t m, host_ok env -> o_output_type o = OutJSON -> Forall received_group (gs ++ [(now, g, w)]) ->
  In t for_applications -> in_utf8 m -> let all := groups_of (gs ++ [(now, g, w)]) in ert_assigned t m all -> ert_whole t all -> ert_short t all ->
  run_groups env o (Channel_new o w0) (gs ++ [(now, g, w)]) = Ok (c, out ++ [Some line]) -> says line ["enhanced_radiotext"] v ->
  exists l s, complete_text 64 (flat_map (ert_segment t) (decoded_in (gs ++ [(now, g, w)]) (out ++ [Some line]))) l /\ v = VStr s /\ trimmed (map visible l) s.
Proof.
  intros env o w0 gs now g w c out line v t m H OJ F Ta U all O W Sh E S. destruct (host_env env H) as [Ee _].
  destruct (last_group (etr_inv t m) env o H OJ (fun w => etr_start t m (Station_new w) eq_refl eq_refl) (fun w p => etr_start t m (Station_new_pi w p) eq_refl eq_refl) (etr_had t m)
    (fun h st now c g w st' j I _ R _ D => etr_step t m env o h st now c g w st' j Ta U I R D) gs now g w w0 c out line F E)
    as (old & h & st & c1 & j & D & I & So & Dd & Pj & B & Hc & _).
  set (g' := prepared o now c1 g w) in *. pose proof (says_decoded env j line "enhanced_radiotext" [] v H Pj ltac:(discriminate) S) as J.
  assert (R : received_group (now, g, w)) by (apply Forall_app in F; destruct F as [_ F2]; inversion F2; assumption).
  assert (Sub' : forall x, In x (h ++ [(g, w)]) -> In x all) by (intros x X; apply (decoded_sub _ (out ++ [Some line])); rewrite D; apply in_or_app; auto).
  pose proof (whole_sub _ _ _ Sub' W) as Wh. pose proof (short_sub _ _ _ Sub' Sh) as Shh.
  assert (Sub : forall x, In x h -> In x (h ++ [(g, w)])) by (intros x X; apply in_or_app; auto).
  pose proof (assigned_sub t m _ _ Sub (assigned_sub t m _ _ Sub' O)) as Oh.
  destruct I as (Fh & Io & I). destruct (I Oh (whole_sub _ _ _ Sub Wh) (short_sub _ _ _ Sub Shh)) as (e & ws0 & Ew & T & L & Fd). clear I.
  destruct (etr_cases t m env o h st g' _ j Ta Oh Io Dd) as [(Ht & Et & Fo & D0)|No].
  2: { rewrite (decoded_absent env o st g' _ j "enhanced_radiotext" Ee So B Dd eq_refl No) in J. discriminate. }
  rewrite parseEnhanced_eq in D0. cbv zeta in D0. rewrite had_ert in D0.
  pose proof (written_prepared t o now c1 g w Ta R) as Sg. cbv zeta in Sg. fold g' in Sg. rewrite Ht, Et, eqb_type in Sg. cbn [andb] in Sg. rewrite <- Sg in D0.
  assert (F2 : Forall (fun x => received_group (0%Z, fst x, snd x)) (h ++ [(g, w)])) by (apply Forall_app; split; [exact Fh|constructor; [exact R|constructor]]).
  pose proof (ert_ok t _ F2 Wh Shh) as Wok.
  assert (Es : flat_map (ert_segment t) (decoded_in (gs ++ [(now, g, w)]) (out ++ [Some line])) = flat_map (ert_segment t) old ++ e ++ ws0 ++ ert_written t (g, w)).
  { rewrite D, flat_map_app. f_equal. rewrite <- (whole_written t _ Wh), flat_map_app, Ew. cbn [flat_map]. rewrite app_nil_r, app_assoc. reflexivity. }
  rewrite Es. rewrite flat_map_app in Wok. apply Forall_app in Wok. destruct Wok as [_ Wok]. cbn [flat_map] in Wok. rewrite app_nil_r in Wok.
  remember (ert_written t (g, w)) as ws eqn:Ews.
  assert (Nw : ws <> []) by (rewrite Sg; discriminate). rewrite Fo in Fd.
  pose proof (set_all_tracks (env_ucs2 env) 64 _ _ ws0 T Wok) as T'.
  remember (rt_text (st_ert st)) as s0 eqn:Es0. remember (set_all (env_ucs2 env) s0 ws) as s' eqn:Es'.
  assert (Hj : jget ["enhanced_radiotext"] j = if s_isComplete s' then Some (JStr (rtrim (s_last_complete_string s'))) else None).
  { destruct (s_isComplete s').
    - cbn [bind jset jupd] in D0. assert (j = JObj (obj_put "enhanced_radiotext" (JStr (rtrim (s_last_complete_string s'))) (header env o st g'))) as -> by congruence.
      cbn [jget]. rewrite find_put. reflexivity.
    - assert (j = JObj (header env o st g')) as -> by congruence. apply (conf_get _ _ _ "enhanced_radiotext" (header_absent env o st g' "enhanced_radiotext" B eq_refl)). reflexivity. }
  rewrite Hj in J. destruct (s_isComplete s') eqn:Cp; [|discriminate].
  assert (v = VStr (rtrim (s_last_complete_string s'))) as -> by (cbn in J; congruence).
  exists (shown_bytes s'), (rtrim (s_last_complete_string s')). split; [|split; [reflexivity|]].
  - do 2 apply complete_earlier. apply complete_spec; [exact T'|lia|exact Cp].
  - pose proof (complete_str (env_ucs2 env) s' (proj2 (tracks_sized _ _ _ T')) Cp) as Y.
    assert (En : s_encoding s' = EncUTF8) by (rewrite Es', set_all_encoding; exact Fd). rewrite En in Y.
    assert (Z : s_str (env_ucs2 env) s' = Some (s_last_complete_string s')).
    { rewrite Es' in Cp |- *. eapply (set_all_last _ 64); [|lia|exact Nw|exact Wok|exact Cp]. exact (tracks_sized _ _ _ T). }
    rewrite Z in Y. assert (s_last_complete_string s' = map visible (shown_bytes s')) as -> by congruence. apply rtrim_trimmed.
Qed.

(* --- the tags shown --- *)
Lemma ert_plus_keys : forall o st g, g_has_type g = true -> existsb (String.eqb "ert_plus") (type_keys o st g) = true -> ert_plus_group st g.
Proof.
  intros o st g Ht K. unfold ert_plus_group. split; [exact Ht|]. revert K. unfold type_keys, oda_type. cbv zeta.
  destruct (Version_eqb (gt_version (g_type g)) VC) eqn:Vc; [discriminate|].
  destruct (gt_number (g_type g) =? 0) eqn:N0; [destruct (o_show_partial o); discriminate|]. destruct (gt_number (g_type g) =? 1) eqn:N1; [discriminate|].
  destruct (gt_number (g_type g) =? 2) eqn:N2; [destruct (o_show_partial o); discriminate|].
  destruct (gt_number (g_type g) =? 3) eqn:N3; destruct (gt_number (g_type g) =? 4) eqn:N4; destruct (gt_number (g_type g) =? 10) eqn:N10; destruct (gt_number (g_type g) =? 14) eqn:N14; destruct (gt_number (g_type g) =? 15) eqn:N15;
    destruct (gt_version (g_type g)) eqn:Gv; cbn [Version_eqb andb orb negb]; try discriminate; try discriminate Vc; (intros K; split; [reflexivity|]); revert K;
    (destruct (find_type _ _) as [a|]; [|by_cases; discriminate]); unfold app_keys; destruct (N.eqb_spec a 0x4BD8) as [->|_]; try reflexivity; by_cases; discriminate.
Qed.
Lemma chars_true : forall s cs f ts, s_last_complete_string s = utf8_text cs -> Forall scalar cs -> Forall (fun t => 0 < chars t) ts -> Forall clean (flat_map (part_shown s) ts) ->
  exists keep, Forall2 (shows_chars cs) (filter keep ts) (map (value_of f) (flat_map (part_shown s) ts)) /\ Forall (fun t => real t = true /\ fits_chars cs t) (filter keep ts).
Proof.
  intros s l f ts El F P C. exists (fun t => match part_shown s t with [] => false | _ => true end). induction ts as [|t ts IH]; [split; constructor|].
  rewrite Forall_cons_iff in P. destruct P as [Pt P]. cbn [flat_map] in C. apply Forall_app in C. destruct C as [Ct C]. destruct (IH P C) as [I1 I2]. clear IH. cbn [flat_map filter]. rewrite map_app.
  destruct (part_shown s t) as [|e r] eqn:Es; [split; assumption|]. unfold part_shown in Es. destruct (real t) eqn:Rt; [|discriminate].
  destruct (s_getLastCompleteSubstring s (Plus.start t) (chars t)) as [|b x] eqn:Ex; [discriminate|].
  assert (Ee : JObj [("content-type", JStr (getRTPlusContentTypeString (content t))); ("data", JStr (rtrim (b :: x)))] = e) by congruence. assert (r = []) as -> by congruence. clear Es. subst e.
  rewrite Forall_cons_iff in Ct. destruct Ct as [Ct _]. apply clean_obj in Ct. do 2 rewrite Forall_cons_iff in Ct. destruct Ct as (_ & (_ & Ct) & _). cbn [snd] in Ct. unfold clean in Ct. cbn [json_utf8] in Ct. apply valid_is_utf8 in Ct.
  destruct (part_true_chars s l t El F Pt) as [Ft Eq]; [rewrite Ex; discriminate|rewrite Ex; exact Ct|]. cbv zeta in Eq. rewrite Ex in Eq.
  split; cbn [map app]; constructor; [|exact I1| |exact I2].
  - exists (rtrim (b :: x)). split; [rewrite <- content_same; reflexivity|]. rewrite Eq. apply rtrim_trimmed.
  - split; [exact Rt|exact Ft].
Qed.
Lemma ert_tags_true : forall env o w0 gs now g w c out line v t m, host_ok env -> o_output_type o = OutJSON -> Forall received_group (gs ++ [(now, g, w)]) ->
  In t for_applications -> in_utf8 m -> let all := groups_of (gs ++ [(now, g, w)]) in ert_assigned t m all -> ert_whole t all -> ert_short t all ->
  run_groups env o (Channel_new o w0) (gs ++ [(now, g, w)]) = Ok (c, out ++ [Some line]) -> says line ["ert_plus"; "tags"] v ->
  exists ws rest l, flat_map (ert_segment t) (decoded_in (gs ++ [(now, g, w)]) (out ++ [Some line])) = ws ++ rest /\ complete_text 64 ws l /\
    forall cs, Forall scalar cs -> map visible l = utf8_text cs ->
    exists keep vs, v = VArr vs /\ Forall2 (shows_chars cs) (filter keep (tags_in g)) vs /\ Forall (fun t => real t = true /\ fits_chars cs t) (filter keep (tags_in g)).
Proof.
  intros env o w0 gs now g w c out line v t m H OJ F Ta U all O W Sh E S. destruct (host_env env H) as [Ee _].
  destruct (last_group (etr_inv t m) env o H OJ (fun w => etr_start t m (Station_new w) eq_refl eq_refl) (fun w p => etr_start t m (Station_new_pi w p) eq_refl eq_refl) (etr_had t m)
    (fun h st now c g w st' j I _ R _ D => etr_step t m env o h st now c g w st' j Ta U I R D) gs now g w w0 c out line F E)
    as (old & h & st & c1 & j & D & I & So & Dd & Pj & B & Hc & _).
  assert (R : received_group (now, g, w)) by (apply Forall_app in F; destruct F as [_ F2]; inversion F2; assumption).
  pose proof (etr_step t m env o h st now c1 g w _ j Ta U I R Dd) as (_ & _ & I').
  set (g' := prepared o now c1 g w) in *. pose proof (says_decoded env j line "ert_plus" ["tags"] v H Pj ltac:(discriminate) S) as J.
  pose proof (says_clean env j line "ert_plus" ["tags"] v H Pj ltac:(discriminate) S) as Cj.
  assert (Sub' : forall x, In x (h ++ [(g, w)]) -> In x all) by (intros x X; apply (decoded_sub _ (out ++ [Some line])); rewrite D; apply in_or_app; auto).
  pose proof (whole_sub _ _ _ Sub' W) as Wh.
  destruct (I' (assigned_sub t m _ _ Sub' O) Wh (short_sub _ _ _ Sub' Sh)) as (e0 & ws0 & Ew & T & L & _). clear I I'.
  assert (Pg : ert_plus_group st g').
  { destruct (g_has_type g') eqn:Ht.
    - destruct (existsb (String.eqb "ert_plus") (type_keys o st g')) eqn:K; [exact (ert_plus_keys o st g' Ht K)|].
      exfalso. pose proof (decoded_absent env o st g' _ j "ert_plus" Ee So B Dd eq_refl (fun _ => K)) as X.
      cbn [jget] in X, J. destruct j; try discriminate J. destruct (obj_find "ert_plus" _); discriminate.
    - exfalso. pose proof (decoded_absent env o st g' _ j "ert_plus" Ee So B Dd eq_refl ltac:(rewrite Ht; discriminate)) as X.
      cbn [jget] in X, J. destruct j; try discriminate J. destruct (obj_find "ert_plus" _); discriminate. }
  destruct (ert_plus_decoded env o st g' _ j Dd Pg) as (rt' & Dp & Es).
  assert (Et : rt_text (st_ert (ch_station c)) = rt_text rt') by (rewrite Es; reflexivity). rewrite Et in *.
  pose proof (tags_prepared o now c1 g w R) as Tg. cbv zeta in Tg. fold g' in Tg.
  destruct (parse_tags g' _ _ rt' j "ert_plus" (tags_in g) Dp (header_no env o st g' "ert_plus" B eq_refl) Tg) as [_ Jt].
  rewrite Jt in J. destruct (flat_map (part_shown (rt_text rt')) (tags_in g)) as [|e r] eqn:Ef; [discriminate|].
  assert (Ev : v = VArr (map (value_of (env_float env)) (e :: r))) by (cbn [option_map value_of] in J; congruence).
  destruct L as [L|(a & b & l & Ea & Cl & El)]; [rewrite none_shown in Ef by exact L; discriminate|].
  assert (Cv : Forall clean (e :: r)) by (apply clean_arr; apply (clean_get ["ert_plus"; "tags"] j); [exact Cj|exact Jt]).
  assert (Pc : Forall (fun t => 0 < chars t) (tags_in g)).
  { rewrite Tg. apply Forall_app. split; [destruct (g_has g' BLOCK3)|destruct (_ && _)]; repeat constructor; cbn [chars]; lia. }
  exists (flat_map (ert_segment t) old ++ e0 ++ a), b, l. split; [|split].
  - rewrite D, flat_map_app, <- (whole_written t _ Wh), Ew, Ea, <- !app_assoc. reflexivity.
  - do 2 apply complete_earlier. exact Cl.
  - intros cs Sc Ec. rewrite <- Ef in Cv, Ev. destruct (chars_true (rt_text rt') cs (env_float env) (tags_in g) ltac:(congruence) Sc Pc Cv) as (keep & K1 & K2).
    exists keep, (map (value_of (env_float env)) (flat_map (part_shown (rt_text rt')) (tags_in g))). split; [exact Ev|split; [exact K1|exact K2]].
Qed.
