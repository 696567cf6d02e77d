(* Lines with traffic messages: where they come from, and what they do not show. *)
From Coq Require Import SpecFloat.
From Verif.Model Require Import Util Group Options Tables Json Freq RdsString Tmc Station Channel.
From Verif.Spec Require Import Numerals Unicode JsonText Session Identity History Quality Texts Apps Fields Frequencies Traffic.
From Verif.Proofs Require Import Tac Numerals FreqP JsonP Schema StationP TextP CleanP UpdateP SessionP LineP FrameP ChannelP LinesP HistoryP ShowP TraceP KeysP GetP FieldsP StringP PsP RtP EndP LpsP AppsP AfP TmcP TmcMsgP TmcLineP TmcHistP TmcEndP TmcRunP.

Local Open Scope string_scope.
Local Open Scope N_scope.
Local Open Scope list_scope.

(* A line with a traffic message is that of a group for TMC *)
Section Member.
Variable k : string.
Hypothesis Hk : String.eqb "system_info" k = false.
Lemma system_keeps : forall s m j s' j', receiveSystemGroup s m j = Ok (s', j') -> jget ["tmc"; k] j' = jget ["tmc"; k] j.
Proof.
  intros s m j s' j' E. unfold receiveSystemGroup in E. cbv zeta in E.
  assert (O : forall k1 v a b, jset (sysinfo k1) v a = Ok b -> jget ["tmc"; k] b = jget ["tmc"; k] a).
  { intros k1 v a b S. apply (jset_other _ _ _ _ _ S). exact (f_equal (fun b : bool => if b then false else true) Hk). }
  assert (O2 : forall k1 l a b, jpush_all (sysinfo k1) l a = Ok b -> jget ["tmc"; k] b = jget ["tmc"; k] a).
  { intros k1 l. induction l as [|x l IH]; intros a b S; cbn [jpush_all] in S; [congruence|]. unbind S. rewrite (IH _ _ S). apply (jpush_other _ _ _ _ _ B). exact (f_equal (fun b : bool => if b then false else true) Hk). }
  destruct (_ =? 0).
  { do 4 unbind E. assert (y2 = j') as <- by congruence. rewrite (O2 _ _ _ _ B2), (O _ _ _ _ B1). destruct (_ =? 0); [assert (y0 = y) as -> by congruence|rewrite (O _ _ _ _ B0)]; apply (O _ _ _ _ B). }
  destruct (_ =? 1).
  { do 3 unbind E. assert (y1 = j') as <- by congruence. destruct (_ <? _); [rewrite (O _ _ _ _ B1)|assert (y1 = y0) as -> by congruence]; rewrite (O _ _ _ _ B0); apply (O _ _ _ _ B). }
  destruct (_ =? 2); [|congruence]. destruct (_ <? _); [|congruence]. unbind E. destruct (_ <? _); [|assert (y = j') as <- by congruence; apply (O _ _ _ _ B)].
  do 2 unbind E. assert (y1 = j') as <- by congruence. rewrite (O _ _ _ _ B1). apply (O _ _ _ _ B).
Qed.
Lemma type3A_keeps : forall st g j st' j', decodeType3A st g j = Ok (st', j') -> jget ["tmc"; k] j' = jget ["tmc"; k] j.
Proof.
  intros st g j st' j' E. unfold decodeType3A in E. destruct (negb _); [congruence|]. destruct (negb _); [congruence|]. cbv zeta in E. do 2 unbind E.
  assert (X : jget ["tmc"; k] y0 = jget ["tmc"; k] j) by (rewrite (jset_other _ _ _ _ _ B0) by reflexivity; apply (jset_other _ _ _ _ _ B); reflexivity).
  rewrite <- X. clear B B0 X. destruct (_ =? _); [congruence|]. destruct (_ =? _); [congruence|]. destruct (_ =? _); [congruence|]. destruct (_ =? _); [congruence|].
  destruct (_ || _).
  - unbind E. destruct y1 as [t j1]. assert (j1 = j') as <- by congruence. apply (system_keeps _ _ _ _ _ B).
  - do 2 unbind E. assert (y2 = j') as <- by congruence. rewrite (jset_other _ _ _ _ _ B0) by reflexivity. unfold debug in B. apply (jpush_other _ _ _ _ _ B). reflexivity.
Qed.

Lemma member_from : forall env o st g st' j, env_ok env -> st_ok st -> bler_ok g -> decoded env o st g = Ok (st', j) -> jget ["tmc"; k] j <> None ->
  g_has_type g = true /\ oda_type g = true /\ to_tmc (st_oda_app_for_group st) (g_type g) = true /\ g_has g BLOCK2 && g_has g BLOCK3 && g_has g BLOCK4 = true /\
  exists s', receiveUserGroup (env_tmc env) (env_ucs2 env) (st_tmc st) (getBits 5 (g_get g BLOCK2) 0) (g_get g BLOCK3) (g_get g BLOCK4) (JObj (header env o st g)) = Ok (s', j) /\
    jget ["tmc"] (JObj (header env o st g)) = None.
Proof.
  intros env o st g st' j Ee So B Dd Nm.
  assert (Hn : jget ["tmc"] (JObj (header env o st g)) = None) by (cbn [jget]; rewrite (header_no env o st g "tmc" B eq_refl); reflexivity).
  assert (Hn2 : jget ["tmc"; k] (JObj (header env o st g)) = None) by (cbn [jget]; rewrite (header_no env o st g "tmc" B eq_refl); reflexivity).
  assert (Tk : g_has_type g = true /\ existsb (String.eqb "tmc") (type_keys o st g) = true).
  { destruct (g_has_type g) eqn:Ht; [|exfalso; apply Nm; unfold decoded in Dd; rewrite Ht in Dd; assert (j = JObj (header env o st g)) as -> by congruence; exact Hn2].
    split; [reflexivity|]. destruct (existsb (String.eqb "tmc") (type_keys o st g)) eqn:Ek; [reflexivity|]. exfalso. apply Nm.
    pose proof (decoded_absent env o st g st' j "tmc" Ee So B Dd eq_refl (fun _ => Ek)) as X. clear - X. destruct j; cbn [jget] in *; try reflexivity; [].
    destruct (obj_find "tmc" m); [discriminate|reflexivity]. }
  destruct Tk as [Ht Tk]. split; [exact Ht|].
  assert (N3 : (gt_number (g_type g) =? 3) && Version_eqb (gt_version (g_type g)) VA = false).
  { destruct ((gt_number (g_type g) =? 3) && Version_eqb (gt_version (g_type g)) VA) eqn:E3; [|reflexivity]. exfalso. apply Nm. apply andb_prop in E3. destruct E3 as [E3 Ev]. apply N.eqb_eq in E3.
    unfold decoded in Dd. rewrite Ht in Dd. unfold decodeByType in Dd. rewrite E3 in Dd. destruct (gt_version (g_type g)); try discriminate Ev. cbn [Version_eqb N.eqb Pos.eqb andb] in Dd. rewrite (type3A_keeps _ _ _ _ _ Dd). exact Hn2. }
  unfold type_keys in Tk. cbv zeta in Tk. rewrite N3 in Tk.
  destruct (Version_eqb (gt_version (g_type g)) VC) eqn:Vc; [discriminate Tk|].
  destruct (gt_number (g_type g) =? 0) eqn:N0; [destruct (o_show_partial o); discriminate Tk|]. destruct (gt_number (g_type g) =? 1) eqn:N1; [discriminate Tk|].
  destruct (gt_number (g_type g) =? 2) eqn:N2; [destruct (o_show_partial o); discriminate Tk|].
  destruct ((gt_number (g_type g) =? 4) && Version_eqb (gt_version (g_type g)) VA) eqn:N4; [discriminate Tk|].
  destruct ((gt_number (g_type g) =? 10) && Version_eqb (gt_version (g_type g)) VA) eqn:N10; [discriminate Tk|].
  destruct (gt_number (g_type g) =? 14) eqn:N14; [discriminate Tk|].
  destruct ((gt_number (g_type g) =? 15) && Version_eqb (gt_version (g_type g)) VB) eqn:N15; [discriminate Tk|].
  assert (Od : oda_type g = true).
  { unfold oda_type. cbv zeta. rewrite Vc, N0, N1, N2, N14. destruct (gt_version (g_type g)); [|destruct (gt_number (g_type g) =? 15); [discriminate N15|reflexivity]|discriminate Vc].
    cbn [Version_eqb andb] in *. rewrite andb_true_r in *. rewrite N3, N4, N10. reflexivity. }
  split; [exact Od|].
  assert (Tt : to_tmc (st_oda_app_for_group st) (g_type g) = true).
  { unfold to_tmc. destruct (find_type (g_type g) (st_oda_app_for_group st)) as [a|].
    - unfold app_keys in Tk. unfold is_tmc. destruct (a =? 0x0093); [discriminate Tk|]. destruct (a =? 0x4BD7); [discriminate Tk|]. destruct (a =? 0x4BD8); [discriminate Tk|]. destruct (a =? 0x6552); [discriminate Tk|].
      destruct ((a =? 0xCD46) || (a =? 0xCD47)); [reflexivity|discriminate Tk].
    - unfold GroupType_eqb. cbn [type_8A gt_number gt_version]. destruct (gt_number (g_type g) =? 5); [discriminate Tk|]. destruct (gt_number (g_type g) =? 6); [discriminate Tk|].
      destruct (((gt_number (g_type g) =? 7) || (gt_number (g_type g) =? 9)) && _); [discriminate Tk|]. destruct ((gt_number (g_type g) =? 8) && _); [reflexivity|].
      destruct ((gt_number (g_type g) =? 15) && Version_eqb (gt_version (g_type g)) VA); [destruct (o_show_partial o); discriminate Tk|discriminate Tk]. }
  split; [exact Tt|].
  unfold decoded in Dd. rewrite Ht, (dispatch_tmc env o (had st g) g _ Od ltac:(rewrite had_oda; exact Tt)) in Dd. unfold receiveTMC in Dd.
  destruct (g_has g BLOCK2 && g_has g BLOCK3 && g_has g BLOCK4); [|exfalso; apply Nm; assert (j = JObj (header env o st g)) as -> by congruence; exact Hn2].
  split; [reflexivity|]. unbind Dd. destruct y as [s' j']. exists s'. rewrite had_tmc in B0. split; [rewrite B0; congruence|exact Hn].
Qed.
End Member.

Lemma message_from : forall env o st g st' j, env_ok env -> st_ok st -> bler_ok g -> decoded env o st g = Ok (st', j) -> jget ["tmc"; "message"] j <> None ->
  g_has_type g = true /\ oda_type g = true /\ to_tmc (st_oda_app_for_group st) (g_type g) = true /\ g_has g BLOCK2 && g_has g BLOCK3 && g_has g BLOCK4 = true /\
  exists s', receiveUserGroup (env_tmc env) (env_ucs2 env) (st_tmc st) (getBits 5 (g_get g BLOCK2) 0) (g_get g BLOCK3) (g_get g BLOCK4) (JObj (header env o st g)) = Ok (s', j) /\
    jget ["tmc"] (JObj (header env o st g)) = None.
Proof. exact (member_from "message" eq_refl). Qed.

(* ... and completes a message *)
Lemma tuning_keeps : forall u s x y z j s' j', receiveTuningInfo u s x y z j = Ok (s', j') -> jget ["tmc"; "message"] j' = jget ["tmc"; "message"] j.
Proof.
  intros u s x y z j s' j' E. unfold receiveTuningInfo in E. cbv zeta in E.
  assert (O : forall k v a b, jset (othernet k) v a = Ok b -> jget ["tmc"; "message"] b = jget ["tmc"; "message"] a).
  { intros k v a b S. apply (jset_other _ _ _ _ _ S). reflexivity. }
  assert (O1 : forall k v a b, jpush (othernet k) v a = Ok b -> jget ["tmc"; "message"] b = jget ["tmc"; "message"] a).
  { intros k v a b S. apply (jpush_other _ _ _ _ _ S). reflexivity. }
  assert (O2 : forall k l a b, jpush_all (othernet k) l a = Ok b -> jget ["tmc"; "message"] b = jget ["tmc"; "message"] a).
  { intros k l. induction l as [|q l IH]; intros a b S; cbn [jpush_all] in S; [congruence|]. unbind S. rewrite (IH _ _ S). apply (O1 _ _ _ _ B). }
  destruct ((getBits 4 x 0 =? 4) || (getBits 4 x 0 =? 5)).
  { unbind E. assert (y0 = j') as <- by congruence. destruct (s_isComplete _); [apply (jset_other _ _ _ _ _ B); reflexivity|congruence]. }
  destruct (getBits 4 x 0 =? 6).
  { do 5 unbind E. assert (y4 = j') as <- by congruence. rewrite (O2 _ _ _ _ B3). apply (O _ _ _ _ B1). }
  destruct (getBits 4 x 0 =? 8).
  { destruct ((y =? 0) || (z =? 0) || (y =? z)).
    - unbind E. assert (y0 = j') as <- by congruence. apply (O _ _ _ _ B).
    - do 2 unbind E. assert (y1 = j') as <- by congruence. rewrite (O1 _ _ _ _ B0). apply (O1 _ _ _ _ B). }
  destruct (getBits 4 x 0 =? 9).
  { do 4 unbind E. assert (y3 = j') as <- by congruence. rewrite (O2 _ _ _ _ B2), (O _ _ _ _ B1), (O _ _ _ _ B0). apply (O _ _ _ _ B). }
  unbind E. assert (y0 = j') as <- by congruence. apply (jpush_other _ _ _ _ _ B). reflexivity.
Qed.
Lemma none_below : forall j, jget ["tmc"] j = None -> jget ["tmc"; "message"] j = None.
Proof. intros j X. destruct j; cbn [jget] in *; try reflexivity. destruct (obj_find "tmc" m); [discriminate|reflexivity]. Qed.
Lemma user_message : forall d u s x y z j s' j', x < 32 -> receiveUserGroup d u s x y z j = Ok (s', j') -> jget ["tmc"] j = None -> jget ["tmc"; "message"] j' <> None ->
  t_is_initialized s = true /\ (t_is_encrypted s = true -> t_has_encid s = true) /\
  ((8 <= x < 16 /\ finish_message d s (m_set_head d (Message_new (t_is_encrypted s)) y z) j = Ok j') \/
   (1 <= x <= 7 /\ let m := pushMulti d (if x =? m_continuity_index (t_message s) then t_message s else Message_new (t_is_encrypted s)) x y z in
      m_is_complete m = true /\ finish_message d s m j = Ok j')).
Proof.
  intros d u s x y z j s' j' Hx R Jn Nm. apply none_below in Jn. pose proof R as R'. unfold receiveUserGroup in R.
  destruct (t_is_initialized s) eqn:I; cbn [negb] in R; [|exfalso; apply Nm; congruence]. split; [reflexivity|].
  assert (E5 : getBits 5 x 0 = x) by (rewrite getBits_arith; change (2 ^ 0) with 1; rewrite N.div_1_r; apply N.mod_small; exact Hx). rewrite E5 in R.
  destruct (N.eqb_spec x 0) as [->|N0].
  { exfalso. apply Nm. do 3 unbind R. assert (y2 = j') as <- by congruence. rewrite (jset_other _ _ _ _ _ B1), (jset_other _ _ _ _ _ B0), (jset_other _ _ _ _ _ B) by reflexivity. exact Jn. }
  assert (X : In x (nseq 0 32)) by (apply nseq_In; lia).
  assert (E4 : getBool x 4 = (16 <=? x)) by (clear - X; cbv in X; repeat (destruct X as [<-|X]; [reflexivity|]); destruct X).
  rewrite E4 in R. destruct (16 <=? x) eqn:E16; [exfalso; apply Nm; rewrite (tuning_keeps _ _ _ _ _ _ _ _ R); exact Jn|].
  destruct (t_is_encrypted s && negb (t_has_encid s)) eqn:El; [exfalso; apply Nm; congruence|].
  assert (K : t_is_encrypted s = true -> t_has_encid s = true). { intros Q. rewrite Q in El. destruct (t_has_encid s); [reflexivity|discriminate El]. }
  split; [exact K|]. destruct (N.lt_ge_cases x 8) as [L8|G8].
  - right. split; [lia|]. pose proof (user_multi _ _ _ _ _ _ _ _ _ R' I K ltac:(lia)) as Q. clear R R' N0 X E4 E16 El E5. cbv zeta in Q |- *. match type of Q with (if ?c then _ else _) => destruct c end; [split; [reflexivity|exact Q]|]. exfalso. apply Nm. rewrite Q. exact Jn.
  - left. split; [lia|]. apply (user_single _ _ _ _ _ _ _ _ _ R' I K). lia.
Qed.

(* ---- encrypted locations without a key ---- *)
Definition no_key (d : TmcData) (l : list app_item) : Prop := forall t b2 b3 b4, In (AppData t b2 b3 b4) l -> b2 mod 32 = 0 -> td_key d (b3 mod 32) = None.
Definition locked (d : TmcData) (v : view) : Prop := unlocked true v /\ (v_has v = true -> td_key d (v_id v) = None).
Lemma locked_step : forall d v A i, item_ok i -> enc_is true [i] -> no_key d [i] -> locked d v -> locked d (snd (ti_do d (A, v) i)).
Proof.
  intros d v A [t a m|t b2 b3 b4] Hi He Hk [U K]; cbn [ti_do snd].
  - split; [apply (kept_step d true v (Announced t a m) Hi He U)|]. destruct (is_tmc a); [|exact K]. unfold v_system. destruct (_ =? 0); exact K.
  - destruct (to_tmc A t); [|split; assumption]. split.
    + assert (X := kept_step d true v (AppData type_8A b2 b3 b4) Hi). cbn [t_do] in X. change (GroupType_eqb type_8A type_8A) with true in X. cbv iota in X. apply X; [|exact U]. intros t' a' m' [Y|[]]. discriminate Y.
    + rewrite user_cases by (try apply Hi; apply N.mod_lt; discriminate). unfold user_kind. destruct (negb (v_init v)); [exact K|]. destruct (N.eqb_spec (b2 mod 32) 0) as [E|E].
      * cbn [v_has v_id]. intros _. apply (Hk t b2 b3 b4); [left; reflexivity|exact E].
      * destruct (_ && _); [exact K|]. destruct (_ <=? 7); exact K.
Qed.
Lemma locked_fold : forall d l A v, Forall item_ok l -> enc_is true l -> no_key d l -> locked d v -> locked d (snd (fold_left (ti_do d) l (A, v))).
Proof.
  intros d l. induction l as [|i l IH]; intros A v F He Hk L; [exact L|]. cbn [fold_left]. inversion F as [|? ? Fi F']; subst. destruct (enc_is_app true [i] l He) as [He1 He2].
  destruct (ti_do d (A, v) i) as [A' v'] eqn:Ed. apply IH; [exact F'|exact He2|intros t b2 b3 b4 X; apply (Hk t b2 b3 b4); right; exact X|].
  change v' with (snd (A', v')). rewrite <- Ed. apply locked_step; [exact Fi|exact He1|intros t b2 b3 b4 [X|[]]; apply (Hk t b2 b3 b4); left; exact X|exact L].
Qed.
Lemma apply_encrypted : forall d fs m, m_is_encrypted (fold_left (apply_field d) fs m) = m_is_encrypted m.
Proof.
  intros d fs. induction fs as [|[l v] fs IH]; intros m; [reflexivity|]. cbn [fold_left]. rewrite IH. unfold apply_field. cbv zeta.
  repeat match goal with |- context [match ?x with _ => _ end] => is_var x; destruct x; cbn [m_is_encrypted]; try reflexivity end;
  match goal with |- context [if ?b then _ else _] => destruct b end; reflexivity.
Qed.
Lemma decode_encrypted : forall d m, m_is_encrypted (decodeMulti d m) = m_is_encrypted m.
Proof. intros d m. unfold decodeMulti. cbv zeta. destruct (negb _); [reflexivity|]. destruct (part_received _); [rewrite apply_encrypted|]; reflexivity. Qed.
Lemma push_encrypted : forall d m x y z, m_is_encrypted (pushMulti d m x y z) = m_is_encrypted m.
Proof. intros. rewrite push_eq. destruct (final y); [change (m_is_encrypted (m_clear (decodeMulti d (with_part m x y z)))) with (m_is_encrypted (decodeMulti d (with_part m x y z))); rewrite decode_encrypted|]; reflexivity. Qed.
Lemma pending_encrypted : forall e m, pending e m -> m_is_encrypted m = e.
Proof. intros e m (ci & parts & -> & _). reflexivity. Qed.
Lemma hidden : forall d s m j j' k, finish_message d s m j = Ok j' -> jget ["tmc"] j = None -> m_is_encrypted m = true -> (t_is_encrypted s = true -> td_key d (t_encid s) = None) ->
  k = "location" \/ located k = true -> jget (msg k) j' = None.
Proof.
  intros d s m j j' k F Jn E Kn Hk.
  assert (N0 : jget (msg k) j = None) by (destruct j; cbn [jget msg] in *; try reflexivity; destruct (obj_find "tmc" m0); [discriminate|reflexivity]).
  destruct (m_is_complete m) eqn:C; [|rewrite (finish_none _ _ _ _ _ F (or_introl C)); exact N0].
  destruct (m_events m) eqn:Ev; [rewrite (finish_none _ _ _ _ _ F (or_intror Ev)); exact N0|].
  assert (Ev' : m_events m <> []) by (rewrite Ev; discriminate).
  destruct (finish_parts _ _ _ _ _ F C Ev') as (m' & j0 & K & Js & D). assert (m' = m) as ->. { unfold with_key in K. destruct (t_is_encrypted s); [rewrite Kn in K by reflexivity|]; congruence. }
  rewrite E in D. cbn [negb] in D. apply unlocated in D. subst j0. change (msg k) with (["tmc"; "message"] ++ [k]). rewrite (jset_inside _ _ _ _ _ Js).
  destruct Hk as [->|Hk]; [rewrite (mem_location d m C Ev'), E; reflexivity|apply mem_located; exact Hk].
Qed.

Lemma sub_groups : forall gs out, incl (items (decoded_in gs out)) (items_of gs).
Proof. intros gs out i X. unfold items in X. apply in_flat_map in X. destruct X as (b & X1 & X2). unfold items_of. apply in_flat_map. exists b. split; [exact (decoded_sub _ _ _ X1)|exact X2]. Qed.
Lemma get5 : forall b, getBits 5 b 0 = b mod 32.
Proof. intros b. rewrite getBits_arith. change (2 ^ 0) with 1. rewrite N.div_1_r. reflexivity. Qed.

Lemma never_shown : forall env o w0 gs now g w c out line k, host_ok env -> o_output_type o = OutJSON -> Forall received_group (gs ++ [(now, g, w)]) ->
  always_encrypted (items_of (gs ++ [(now, g, w)])) -> no_key (env_tmc env) (items_of (gs ++ [(now, g, w)])) ->
  run_groups env o (Channel_new o w0) (gs ++ [(now, g, w)]) = Ok (c, out ++ [Some line]) ->
  k = "location" \/ located k = true -> line_at (msg k) line = None.
Proof.
  intros env o w0 gs now g w c out line k H OJ F Ae Nk E Hk. destruct (line_at (msg k) line) as [v|] eqn:Lv; [exfalso|reflexivity]. destruct (host_env env H) as [Ee _].
  destruct (last_group (tmc_inv env) env o H OJ (tmc_new env) (tmc_new_pi env) (tmc_had env) (fun h st now c g w st' j I _ R _ D => tmc_step env o h st now c g w st' j I R D) gs now g w w0 c out line F E)
    as (old & h & st & c1 & j & D & I & So & Dd & Pj & B & _ & _).
  set (g' := prepared o now c1 g w) in *. pose proof (says_decoded env j line "tmc" ["message"; k] v H Pj ltac:(discriminate) Lv) as J.
  assert (Nm : jget ["tmc"; "message"] j <> None). { intros X. change ("tmc" :: ["message"; k]) with (["tmc"; "message"] ++ [k]) in J. rewrite jget_app, X in J. discriminate. }
  destruct (message_from env o st g' _ j Ee So B Dd Nm) as (Ht & Od & Tt & Hb & s' & Ru & Hn).
  assert (Sub : incl (items h) (items_of (gs ++ [(now, g, w)]))).
  { intros i X. apply (sub_groups _ (out ++ [Some line])). rewrite D. unfold items in *. rewrite !flat_map_app. apply in_or_app. right. apply in_or_app. left. exact X. }
  destruct I as [_ I]. assert (L : locked (env_tmc env) (view_of (st_tmc st))).
  { change (view_of (st_tmc st)) with (snd (st_oda_app_for_group st, view_of (st_tmc st))). rewrite I. apply locked_fold.
    - apply (sub_ok _ _ _ Sub). apply all_items_ok. exact F.
    - apply (sub_enc _ _ _ Sub). apply enc_always. exact Ae.
    - intros t b2 b3 b4 X. apply (Nk t b2 b3 b4). apply Sub, X.
    - split; [apply v0_unlocked|discriminate]. }
  destruct L as [[L1 L2] L3]. rewrite get5 in Ru. destruct (user_message _ _ _ _ _ _ _ _ _ (N.mod_lt _ 32 ltac:(discriminate)) Ru Hn Nm) as (In0 & Kn & Cs).
  specialize (L1 In0). change (t_is_encrypted (st_tmc st) = true) in L1. specialize (Kn L1). specialize (L3 Kn). change (v_id (view_of (st_tmc st))) with (t_encid (st_tmc st)) in L3.
  assert (Z : jget (msg k) j = None).
  { destruct Cs as [[Hx Fm]|[Hx Cs]].
    - apply (hidden _ _ _ _ _ k Fm Hn); [cbn [m_set_head m_is_encrypted Message_new]; exact L1|intros _; exact L3|exact Hk].
    - cbv zeta in Cs. destruct Cs as [_ Fm]. apply (hidden _ _ _ _ _ k Fm Hn); [|intros _; exact L3|exact Hk]. rewrite push_encrypted.
      destruct (N.eqb_spec (g_get g' BLOCK2 mod 32) (m_continuity_index (t_message (st_tmc st)))) as [Eq|]; [|exact L1]. destruct L2 as [L2|L2]; [exact (pending_encrypted _ _ L2)|].
      change (v_msg (view_of (st_tmc st))) with (t_message (st_tmc st)) in L2. rewrite L2 in Eq. cbn [Message_new m_continuity_index] in Eq. lia. }
  unfold msg in Z. rewrite Z in J. discriminate.
Qed.

(* ---- only complete messages ---- *)
Lemma says_all : forall env j line k p v, host_ok env -> print_json env j = Ok line -> k <> "debug" -> line_at (k :: p) line = Some v ->
  forall q, line_at q line = option_map (value_of (env_float env)) (jget q j).
Proof.
  intros env j line k p v H Pr Nk L q. destruct (host_env env H) as [Ee FL]. destruct (print_good env j Ee) as (j' & Pj & _ & D).
  rewrite Pj in Pr. injection Pr as <-. rewrite line_at_dump in L |- * by exact FL. destruct D as [->|[_ ->]]; [reflexivity|].
  exfalso. cbn [jget obj_find] in L. destruct (String.eqb k "debug") eqn:E; [apply String.eqb_eq in E; congruence|]. discriminate.
Qed.
Definition idle (m : Message) : Prop := forall i, part_received (part_of m i) = false.
Definition begun (q : list (N * (N * N))) (m : Message) : Prop := forall yh zh, part_of m 0 = Tmc.mkPart true yh zh ->
  32768 <= yh /\ exists a b, q = a ++ (m_continuity_index m, (yh, zh)) :: b /\ Forall (fun r => fst r = m_continuity_index m /\ ~ last_of_message (fst (snd r))) b.
Lemma idle_begun : forall q m, idle m -> begun q m.
Proof. intros q m I yh zh E. specialize (I 0%nat). rewrite E in I. discriminate I. Qed.
Lemma final_spec : forall y, y < 65536 -> final y = true <-> last_of_message y.
Proof. intros y Hy. unfold final, last_of_message. rewrite bit15 by exact Hy. rewrite gsi_of. split; [intros E; apply andb_prop in E; destruct E as [E1 E2]; apply N.eqb_eq in E2; split; [destruct (N.leb_spec 32768 y); [discriminate E1|assumption]|exact E2]|intros [E1 E2]; rewrite E2; replace (32768 <=? y) with false by lia; reflexivity]. Qed.
Lemma place_zero : forall y, y < 65536 -> place_of y = 0%nat -> 32768 <= y.
Proof.
  intros y Hy E. unfold place_of in E. rewrite bit15 in E by exact Hy. destruct (N.leb_spec 32768 y) as [L|L]; [exact L|]. destruct (getBool y 14); [discriminate|].
  assert (X : getBits 2 y 12 < 4) by (rewrite gsi_of; apply N.mod_lt; discriminate). lia.
Qed.
Lemma push_begun : forall d e q m c y z, 1 <= c <= 7 -> y < 65536 -> msg_of e m -> begun q m -> begun (q ++ [(c, (y, z))]) (msg_do d e m (c, (y, z))).
Proof.
  intros d e q m c y z Hc Hy Mo Bg. unfold msg_do. cbn [fst snd]. set (m0 := if c =? m_continuity_index m then m else Message_new e).
  assert (P0 : pending e m0).
  { unfold m0. destruct (N.eqb_spec c (m_continuity_index m)) as [Eq|]; [|apply new_pending]. destruct Mo as [P| ->]; [exact P|]. cbn [Message_new m_continuity_index] in Eq. lia. }
  destruct (m_is_complete (pushMulti d m0 c y z)); [apply idle_begun; intros i; apply new_part|].
  rewrite push_eq. destruct (final y) eqn:Fy; [apply idle_begun; intros i; apply clear_part|].
  intros yh zh E. unfold with_part in E |- *. cbn [m_set_parts m_parts m_continuity_index]. rewrite ci_of by lia.
  unfold part_of in E. cbn [m_set_parts m_parts] in E. destruct P0 as (ci0 & parts0 & Em & Ln). rewrite nth_list_set in E by (rewrite Em; cbn [m_set_parts m_parts]; rewrite Ln; apply place_lt).
  destruct (Nat.eqb_spec (place_of y) 0) as [Ep|Ep].
  - assert (yh = y /\ zh = z) as [-> ->] by (split; congruence). split; [exact (place_zero y Hy Ep)|]. exists q, []. split; [reflexivity|constructor].
  - destruct (N.eqb_spec c (m_continuity_index m)) as [Eq|Nq].
    + assert (m0 = m) as Em0 by (unfold m0; rewrite ?Eq, ?N.eqb_refl; reflexivity). rewrite Em0 in E. destruct (Bg yh zh E) as (Hh & a & b & -> & Fb). split; [exact Hh|].
      exists a, (b ++ [(c, (y, z))]). rewrite Eq. split; [rewrite <- app_assoc; reflexivity|]. apply Forall_app. split; [exact Fb|]. constructor; [|constructor]. split; [reflexivity|]. cbn [fst snd]. intros X. apply (final_spec y Hy) in X. congruence.
    + exfalso. assert (m0 = Message_new e) as Em0. { unfold m0. try (replace (c =? m_continuity_index m) with false by lia). reflexivity. } rewrite Em0 in E. change (nth 0 (m_parts (Message_new e)) MessagePart_default) with (part_of (Message_new e) 0) in E. pose proof (new_part e 0) as X. rewrite E in X. discriminate X.
Qed.
Definition in_progress (e : bool) (l : list app_item) (v : view) : Prop :=
  unlocked e v /\ begun (multi_groups l) (v_msg v) /\ (v_init v = false \/ (e = true /\ v_has v = false) -> idle (v_msg v)).
Lemma progress_step : forall d e l v i, item_ok i -> enc_is e [i] -> in_progress e l v -> in_progress e (l ++ [i]) (t_do d v i).
Proof.
  intros d e l v i Hi He (U & Bg & Id). pose proof (kept_step d e v i Hi He U) as U'. split; [exact U'|]. rewrite multi_app.
  destruct i as [t a m|t b2 b3 b4]; cbn [t_do] in *.
  - change (multi_groups [Announced t a m]) with (@nil (N * (N * N))). rewrite app_nil_r. destruct (is_tmc a); [|split; assumption]. unfold v_system in *. destruct (_ =? 0); [|split; assumption].
    cbn [v_msg v_init v_has] in *. split; [exact Bg|]. intros [X|X]; [discriminate X|]. apply Id. right. exact X.
  - unfold multi_groups at 2, user_groups. cbn [flat_map]. destruct (GroupType_eqb t type_8A); [|cbn [app flat_map]; rewrite app_nil_r; split; assumption]. cbn [app flat_map]. rewrite app_nil_r.
    destruct Hi as (H2 & H3 & H4). assert (Hx : b2 mod 32 < 32) by (apply N.mod_lt; discriminate). rewrite user_cases in * by assumption. revert Hx U'. unfold user_kind. generalize (b2 mod 32). intros x Hx U'. destruct U as [U1 U2].
    destruct (v_init v) eqn:Ei; cbn [negb] in *; [|split; [apply idle_begun, Id; left; reflexivity|rewrite Ei; exact Id]]. specialize (U1 eq_refl).
    destruct (N.eqb_spec x 0) as [->|N0].
    { cbn [N.leb N.compare andb flat_map]. rewrite app_nil_r. cbn [v_msg v_init v_has]. split; [exact Bg|]. intros [X|[_ X]]; discriminate X. }
    destruct (v_enc v && negb (v_has v)) eqn:El.
    { apply andb_prop in El. destruct El as [El1 El2]. apply negb_true_iff in El2. assert (Ie : idle (v_msg v)) by (apply Id; right; split; [congruence|exact El2]). split; [apply idle_begun; exact Ie|intros _; exact Ie]. }
    replace (1 <=? x) with true by lia. cbn [andb]. destruct (x <=? 7) eqn:E7; [|rewrite app_nil_r; split; [exact Bg|rewrite Ei; exact Id]].
    cbn [v_set_msg v_msg v_init v_has]. rewrite U1. split; [apply push_begun; [lia|exact H3|exact U2|exact Bg]|]. rewrite Ei. intros [X|[Xe Xh]]; [discriminate X|]. exfalso. rewrite U1, Xe, Xh in El. discriminate El.
Qed.
Lemma progress_fold : forall d e l, Forall item_ok l -> enc_is e l -> in_progress e l (fold_left (t_do d) l v0).
Proof.
  intros d e l. induction l as [|i l IH] using rev_ind; intros F He.
  - split; [apply v0_unlocked|]. assert (I : idle (v_msg v0)) by (intros k; apply new_part). split; [apply idle_begun, I|intros _; exact I].
  - apply Forall_app in F. destruct F as [F1 F2]. inversion F2; subst. destruct (enc_is_app _ _ _ He) as [He1 He2]. rewrite fold_left_app. cbn [fold_left]. apply progress_step; [assumption|exact He2|apply IH; assumption].
Qed.
Lemma decode_head : forall d e m yh zh, pending e m -> part_of m 0 = Tmc.mkPart true yh zh ->
  (exists r, m_events (decodeMulti d m) = getBits 11 yh 0 :: r) /\ m_is_encrypted (decodeMulti d m) = e /\ m_was_encrypted (decodeMulti d m) = e /\
  m_location (decodeMulti d m) = (if e then 0 else zh) /\ m_is_complete (decodeMulti d m) = true.
Proof.
  intros d e m yh zh P E. assert (Q : forall fs m0 ev, m_events m0 = [ev] \/ (exists r, m_events m0 = ev :: r) ->
    (exists r, m_events (fold_left (apply_field d) fs m0) = ev :: r) /\ m_is_encrypted (fold_left (apply_field d) fs m0) = m_is_encrypted m0 /\ m_was_encrypted (fold_left (apply_field d) fs m0) = m_was_encrypted m0 /\
    m_location (fold_left (apply_field d) fs m0) = m_location m0 /\ m_is_complete (fold_left (apply_field d) fs m0) = m_is_complete m0).
  { intros fs. induction fs as [|[l v] fs IH]; intros m0 ev Hev.
    - cbn [fold_left]. split; [destruct Hev as [X|X]; [exists []; exact X|exact X]|]. auto.
    - cbn [fold_left]. assert (S1 : (exists r, m_events (apply_field d m0 (l, v)) = ev :: r) /\ m_is_encrypted (apply_field d m0 (l, v)) = m_is_encrypted m0 /\ m_was_encrypted (apply_field d m0 (l, v)) = m_was_encrypted m0 /\
        m_location (apply_field d m0 (l, v)) = m_location m0 /\ m_is_complete (apply_field d m0 (l, v)) = m_is_complete m0).
      { assert (Hr : exists r, m_events m0 = ev :: r) by (destruct Hev as [X|X]; [exists []; exact X|exact X]). destruct Hr as (r & Hr). unfold apply_field. cbv zeta. rewrite Hr.
        repeat match goal with |- context [match ?x with _ => _ end] => is_var x; destruct x; cbn [m_is_encrypted m_was_encrypted m_location m_is_complete m_events];
          try (split; [eexists; first [exact Hr|reflexivity|cbn [app]; reflexivity]|repeat split; reflexivity]) end;
        match goal with |- context [if ?b then _ else _] => destruct b end; cbn [m_is_encrypted m_was_encrypted m_location m_is_complete m_events]; (split; [eexists; first [exact Hr|reflexivity|cbn [app]; reflexivity]|repeat split; reflexivity]). }
      destruct S1 as (A1 & A2 & A3 & A4 & A5). destruct (IH (apply_field d m0 (l, v)) ev (or_intror A1)) as (B1 & B2 & B3 & B4 & B5). split; [exact B1|]. repeat split; congruence. }
  destruct P as (ci & parts & -> & Ln). unfold decodeMulti. cbv zeta. unfold part_of in E. rewrite E. cbn [part_received part_d0 part_d1 negb].
  destruct (part_received _).
  - match goal with |- context [fold_left (apply_field d) ?fs ?m0] => destruct (Q fs m0 (getBits 11 yh 0) (or_introl eq_refl)) as (B1 & B2 & B3 & B4 & B5) end. split; [exact B1|]. rewrite B2, B3, B4, B5. repeat split.
  - split; [exists []; reflexivity|]. repeat split.
Qed.

Lemma only_complete : forall env o e w0 gs now g w c out line k v, host_ok env -> o_output_type o = OutJSON -> Forall received_group (gs ++ [(now, g, w)]) ->
  tmc_in_8A (items_of (gs ++ [(now, g, w)])) -> stays_tmc (items_of (gs ++ [(now, g, w)])) -> enc_is e (items_of (gs ++ [(now, g, w)])) ->
  run_groups env o (Channel_new o w0) (gs ++ [(now, g, w)]) = Ok (c, out ++ [Some line]) -> says line (msg k) v ->
  exists x y z yh zh, user_groups (app_items (g, w)) = [(x, y, z)] /\ completes (flat_map app_items (decoded_in gs out)) x y z yh zh /\
    (exists t r, says line (msg "event_codes") (VArr (VNum t :: r)) /\ numeral 10 t = Some (yh mod 2048)) /\
    (e = false -> shows_number line "location" (Some zh)).
Proof.
  intros env o e w0 gs now g w c out line k v H OJ F T8 St Hen E Lv. destruct (host_env env H) as [Ee _].
  destruct (last_group (tmc_inv env) env o H OJ (tmc_new env) (tmc_new_pi env) (tmc_had env) (fun h st now c g w st' j I _ R _ D => tmc_step env o h st now c g w st' j I R D) gs now g w w0 c out line F E)
    as (old & h & st & c1 & j & D & I & So & Dd & Pj & B & _ & _).
  set (g' := prepared o now c1 g w) in *. unfold says in Lv. pose proof (says_all env j line "tmc" ["message"; k] v H Pj ltac:(discriminate) Lv) as Sh.
  assert (Nm : jget ["tmc"; "message"] j <> None). { intros X. rewrite Sh in Lv. change (msg k) with (["tmc"; "message"] ++ [k]) in Lv. rewrite jget_app, X in Lv. discriminate. }
  destruct (message_from env o st g' _ j Ee So B Dd Nm) as (Ht & Od & Tt & Hb & s' & Ru & Hn).
  assert (Rg : received_group (now, g, w)) by (apply Forall_app in F; destruct F as [_ F2]; inversion F2; assumption).
  assert (Dg : decoded_in gs out = old ++ h).
  { rewrite decoded_in_app in D by (clear - E; destruct (run_snoc _ _ _ _ _ _ _ _ _ E) as (c1 & out1 & l1 & E1 & _ & Eo); apply app_inj_tail in Eo; destruct Eo as [<- _]; exact (run_length _ _ _ _ _ _ E1)).
    cbn [decoded_in combine flat_map app] in D. rewrite app_assoc in D. apply app_inj_tail in D. exact (proj1 D). }
  assert (Sub : incl (items h) (items_of (gs ++ [(now, g, w)]))).
  { intros i X. rewrite items_of_app. apply in_or_app. left. apply (sub_groups _ out). rewrite Dg. unfold items in *. rewrite flat_map_app. apply in_or_app. right. exact X. }
  pose proof (in_places _ T8 St) as Pl. assert (Plh : Forall in_place (items h)) by (apply (sub_ok _ _ _ Sub Pl)).
  destruct I as [_ I]. pose proof (plain_fold (env_tmc env) (items h) [] v0 settled_nil Plh) as Vs. pose proof (settled_all (env_tmc env) (items h) [] v0 settled_nil Plh) as Ss. rewrite <- I in Vs, Ss. cbn [fst snd] in Vs, Ss.
  pose proof (progress_fold (env_tmc env) e (items h) (sub_ok _ _ _ Sub (all_items_ok _ F)) (sub_enc _ _ _ Sub Hen)) as Pg. rewrite <- Vs in Pg. destruct Pg as ((L1 & L2) & Bg & _).
  rewrite Ss in Tt. apply type_eqb_eq in Tt.
  assert (Ei : user_groups (app_items (g, w)) = [(g_get g' BLOCK2 mod 32, g_get g' BLOCK3, g_get g' BLOCK4)]).
  { rewrite (items_prepared o now c1 g w Rg). cbv zeta. fold g'. rewrite Ht, Tt. cbn [negb orb gt_version gt_number type_8A Version_eqb N.eqb Pos.eqb andb]. rewrite <- !andb_assoc in *. rewrite Hb. reflexivity. }
  assert (Hy : g_get g' BLOCK3 < 65536). { destruct Rg as (_ & _ & _ & R3 & _). unfold g'. rewrite prepared_get. destruct (w =? 0); cbn; exact R3 || lia. }
  rewrite get5 in Ru. set (x := g_get g' BLOCK2 mod 32) in *. set (y := g_get g' BLOCK3) in *. set (z := g_get g' BLOCK4) in *.
  destruct (user_message _ _ _ _ _ _ _ _ _ (N.mod_lt _ 32 ltac:(discriminate)) Ru Hn Nm) as (In0 & Kn & Cs). fold x in Cs.
  specialize (L1 In0). change (t_is_encrypted (st_tmc st) = e) in L1.
  assert (Fin : forall m yh zh ev r, finish_message (env_tmc env) (st_tmc st) m (JObj (header env o st g')) = Ok j -> m_is_complete m = true -> m_events m = ev :: r -> m_is_encrypted m = e ->
     (e = false -> m_location m = zh) -> ev = getBits 11 yh 0 ->
     (exists t r, says line (msg "event_codes") (VArr (VNum t :: r)) /\ numeral 10 t = Some (yh mod 2048)) /\ (e = false -> shows_number line "location" (Some zh))).
  { intros m yh zh ev r Fm C Ev Me Ml Hev. assert (Ev' : m_events m <> []) by (rewrite Ev; discriminate).
    destruct (finish_shows _ _ _ _ _ "event_codes" Fm C Ev' eq_refl) as (m2 & K & J1). fold (with_key (env_tmc env) (st_tmc st) m) in K. destruct (with_key_same _ _ _ _ K) as [Sc _]. destruct Sc as (_ & _ & E2 & _ & _ & _ & C2 & _).
    rewrite C in C2. assert (Ev2 : m_events m2 <> []) by (rewrite E2; exact Ev'). rewrite (mem_events _ m2 C2 Ev2), E2, Ev in J1. split.
    - exists (dec_string ev), (map (value_of (env_float env)) (map JN r)). unfold says. rewrite Sh, J1. split.
      + unfold jnums, JN. cbn [map option_map value_of]. rewrite dec_string_Z_of_N. reflexivity.
      + rewrite dec_string_value, Hev, getBits_arith. change (2 ^ 0) with 1. rewrite N.div_1_r. reflexivity.
    - intros E0. destruct (finish_shows _ _ _ _ _ "location" Fm C Ev' eq_refl) as (m3 & K3 & J3). rewrite L1, E0 in K3. assert (m3 = m) as -> by congruence. rewrite (mem_location _ m C Ev'), Me, E0, (Ml E0) in J3.
      exists (dec_string zh). split; [|apply dec_string_value]. unfold says. rewrite Sh, J3. unfold JN. cbn [option_map value_of]. rewrite dec_string_Z_of_N. reflexivity. }
  destruct Cs as [[Hx Fm]|[Hx Cs]].
  - exists x, y, z, y, z. split; [exact Ei|]. split; [left; auto|]. rewrite L1 in Fm. apply (Fin _ y z (getBits 11 y 0) [] Fm); cbn [m_set_head m_is_complete m_events m_is_encrypted m_location Message_new app]; try reflexivity. intros ->. reflexivity.
  - cbv zeta in Cs. destruct Cs as [Cc Fm]. rewrite L1 in Cc, Fm. set (m0 := if x =? m_continuity_index (t_message (st_tmc st)) then t_message (st_tmc st) else Message_new e) in *.
    assert (P0 : pending e m0).
    { unfold m0. destruct (N.eqb_spec x (m_continuity_index (t_message (st_tmc st)))) as [Eq|]; [|apply new_pending]. destruct L2 as [P|P]; [exact P|]. change (t_message (st_tmc st) = Message_new false) in P. rewrite P in Eq. cbn [Message_new m_continuity_index] in Eq. lia. }
    rewrite (push_complete _ e _ _ _ _ P0) in Cc. apply andb_prop in Cc. destruct Cc as [Fy R0].
    rewrite push_eq, Fy in Fm. pose proof (with_pending e m0 x y z P0) as Pw.
    assert (Np : place_of y <> 0%nat). { intros X. apply (place_zero y Hy) in X. unfold final in Fy. rewrite bit15 in Fy by exact Hy. replace (32768 <=? y) with true in Fy by lia. discriminate Fy. }
    assert (Pe : part_of (with_part m0 x y z) 0 = part_of m0 0).
    { unfold part_of, with_part. cbn [m_set_parts m_parts]. destruct P0 as (ci0 & parts0 & -> & Ln). rewrite nth_list_set by (cbn [m_set_parts m_parts]; rewrite Ln; apply place_lt). destruct (Nat.eqb_spec (place_of y) 0); [contradiction|reflexivity]. }
    rewrite Pe in R0. destruct (part_of m0 0) as [rb yh zh] eqn:Ep. cbn [part_received] in R0. subst rb.
    assert (Eq : x = m_continuity_index (t_message (st_tmc st))).
    { destruct (N.eqb_spec x (m_continuity_index (t_message (st_tmc st)))) as [Eq|Nq]; [exact Eq|]. exfalso. unfold m0 in Ep. pose proof (new_part e 0) as X. rewrite Ep in X. discriminate X. }
    assert (Em0 : m0 = t_message (st_tmc st)) by (unfold m0; rewrite <- Eq, N.eqb_refl; reflexivity).
    rewrite Em0 in Ep. destruct (Bg yh zh Ep) as (Hh & a & b & Eg & Fb). change (v_msg (view_of (st_tmc st))) with (t_message (st_tmc st)) in Eg, Fb. rewrite <- Eq in Eg, Fb.
    exists x, y, z, yh, zh. split; [exact Ei|]. split.
    + right. split; [exact Hx|]. split; [apply (final_spec y Hy); exact Fy|]. split; [exact Hh|]. exists (multi_groups (flat_map app_items old) ++ a), b. split; [|exact Fb].
      rewrite Dg, flat_map_app, multi_app. fold (items h). rewrite Eg, app_assoc. reflexivity.
    + destruct (decode_head (env_tmc env) e (with_part m0 x y z) yh zh Pw Pe) as ((r & A1) & A2 & A3 & A4 & A5).
      apply (Fin _ yh zh (getBits 11 yh 0) r Fm); cbn [m_clear m_set_parts m_is_complete m_events m_is_encrypted m_location]; [exact A5|exact A1|exact A2| |reflexivity]. intros ->. exact A4.
Qed.
