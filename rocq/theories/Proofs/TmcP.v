(* The state of the TMC decoder of a station as a function of the groups decoded. *)
From Verif.Model Require Import Util Group Options Tables Json Freq RdsString Tmc Station Channel.
From Verif.Spec Require Import Numerals Unicode JsonText Session Identity History Quality Texts Apps Traffic.
From Verif.Proofs Require Import Tac Numerals JsonP Schema StationP TextP CleanP UpdateP SessionP LineP FrameP ChannelP LinesP HistoryP ShowP TraceP KeysP GetP FieldsP StringP PsP RtP EndP LpsP AppsP.

Local Open Scope string_scope.
Local Open Scope N_scope.
Local Open Scope list_scope.

(* The part of the state that matters for messages *)
Record view := mkView { v_init : bool; v_enc : bool; v_has : bool; v_ltn : N; v_id : N; v_msg : Message }.
Definition view_of (s : TMCService) : view :=
  mkView (t_is_initialized s) (t_is_encrypted s) (t_has_encid s) (t_ltn s) (t_encid s) (t_message s).
Definition v0 : view := view_of TMCService_init.

Definition v_system (v : view) (m : N) : view :=
  if variant m mod 4 =? 0
  then mkView true (table_number m =? 0) (v_has v) (if table_number m =? 0 then v_ltn v else table_number m) (v_id v) (v_msg v)
  else v.
Definition v_set_msg (v : view) (m : Message) : view := mkView (v_init v) (v_enc v) (v_has v) (v_ltn v) (v_id v) m.
(* the message under construction, with one more group *)
Definition v_multi (d : TmcData) (v : view) (x y z : N) : Message :=
  pushMulti d (if getBits 3 x 0 =? m_continuity_index (v_msg v) then v_msg v else Message_new (v_enc v)) x y z.
Definition v_user (d : TmcData) (v : view) (x y z : N) : view :=
  if negb (v_init v) then v
  else if getBits 5 x 0 =? 0 then mkView (v_init v) (v_enc v) true (getBits 6 z 10) (getBits 5 y 0) (v_msg v)
  else if getBool x 4 then v
  else if v_enc v && negb (v_has v) then v
  else if getBool x 3 then v
  else v_set_msg v (if m_is_complete (v_multi d v x y z) then Message_new (v_enc v) else v_multi d v x y z).

Lemma receiveSystem_view : forall s m j, m < 65536 -> keeps (fun sj => view_of (fst sj) = v_system (view_of s) m) (receiveSystemGroup s m j).
Proof.
  intros s m j Hm. unfold receiveSystemGroup, v_system. cbv zeta.
  assert (Ev : getBits 2 m 14 = variant m mod 4) by (rewrite getBits_arith; reflexivity).
  assert (Et : getBits 6 m 6 = table_number m) by (rewrite getBits_arith; reflexivity).
  rewrite Ev, Et. destruct (variant m mod 4 =? 0).
  - do 4 (eapply keeps_bind; [apply keeps_true|intros ? _]). apply keeps_ok. reflexivity.
  - kany.
    all: match goal with |- keeps _ (Ok _) => apply keeps_ok; reflexivity end.
Qed.
Ltac kview := repeat first
  [ match goal with |- keeps _ (Ok _) => apply keeps_ok; reflexivity end
  | match goal with |- keeps _ (bind ?m _) => eapply keeps_bind; [apply keeps_true|intros ? _] end
  | match goal with |- keeps _ (if ?b then _ else _) => destruct b end ].
Lemma receiveTuning_view : forall u s x y z j, keeps (fun sj => view_of (fst sj) = view_of s) (receiveTuningInfo u s x y z j).
Proof. intros u s x y z j. unfold receiveTuningInfo. cbv zeta. kview. Qed.
Lemma receiveUser_view : forall d u s x y z j, keeps (fun sj => view_of (fst sj) = v_user d (view_of s) x y z) (receiveUserGroup d u s x y z j).
Proof.
  intros d u s x y z j. unfold receiveUserGroup, v_user, v_multi. cbv zeta. cbn [view_of v_init v_enc v_has v_ltn v_id v_msg].
  destruct (t_is_initialized s) eqn:Ei; cbn [negb]; [|apply keeps_ok; reflexivity].
  destruct (getBits 5 x 0 =? 0). { do 3 (eapply keeps_bind; [apply keeps_true|intros ? _]). apply keeps_ok. unfold view_of. cbn. rewrite ?Ei. reflexivity. }
  destruct (getBool x 4). { intros sj E. rewrite <- (receiveTuning_view u s x y z j sj E). unfold view_of. rewrite ?Ei. reflexivity. }
  destruct (t_is_encrypted s && negb (t_has_encid s)) eqn:Ee. { apply keeps_ok. unfold view_of. cbn [fst]. rewrite ?Ei; reflexivity. }
  destruct (getBool x 3). { eapply keeps_bind; [apply keeps_true|intros ? _]. apply keeps_ok. unfold view_of. cbn [fst]. rewrite ?Ei; reflexivity. }
  destruct (m_is_complete _) eqn:Ec.
  - eapply keeps_bind; [apply keeps_true|intros ? _]. apply keeps_ok. unfold view_of, v_set_msg, t_set_message. cbn. rewrite ?Ei; reflexivity.
  - apply keeps_ok. unfold view_of, v_set_msg, t_set_message. cbn. rewrite ?Ei; reflexivity.
Qed.

(* One item of the application channel *)
Definition to_tmc (A : list (GroupType * N)) (t : GroupType) : bool :=
  match find_type t A with Some a => is_tmc a | None => GroupType_eqb t type_8A end.
Definition ti_do (d : TmcData) (s : list (GroupType * N) * view) (i : app_item) : list (GroupType * N) * view :=
  let '(A, v) := s in
  match i with
  | Announced t a m => ((t, a) :: A, if is_tmc a then v_system v m else v)
  | AppData t b2 b3 b4 => (A, if to_tmc A t then v_user d v (b2 mod 32) b3 b4 else v)
  end.
Definition items (h : list (Group * N)) : list app_item := flat_map app_items h.
Definition tmc_inv (env : Env) (h : list (Group * N)) (st : Station) : Prop :=
  oda_inv h st /\ (st_oda_app_for_group st, view_of (st_tmc st)) = fold_left (ti_do (env_tmc env)) (items h) ([], v0).

Lemma tmc_new : forall env w, tmc_inv env [] (Station_new w).
Proof. split; reflexivity. Qed.
Lemma tmc_new_pi : forall env w p, tmc_inv env [] (Station_new_pi w p).
Proof. split; reflexivity. Qed.
Lemma had_tmc : forall st g, st_tmc (had st g) = st_tmc st.
Proof. intros st g. unfold had. destruct (_ || _); reflexivity. Qed.
Lemma tmc_had : forall env h st g, tmc_inv env h st -> tmc_inv env h (had st g).
Proof. intros env h st g [I J]. split; [apply oda_had, I|]. rewrite had_oda, had_tmc. exact J. Qed.

(* Types that can be announced *)
Lemma announced_type : forall h t a, In (t, a) (flat_map announcement h) -> gt_number t < 16 /\ gt_version t <> VC.
Proof.
  intros h t a X. apply in_flat_map in X. destruct X as ([g w] & _ & Z). unfold announcement in Z.
  destruct (carries 3 g w); [|destruct Z]. destruct (gt_version (g_type g)); [|destruct Z|destruct Z]. destruct Z as [Z|[]].
  assert (t = announced_in (blk_data (g_b2 g))) as -> by congruence. unfold announced_in. cbn [gt_number gt_version]. split.
  - apply N.mod_lt. discriminate.
  - destruct (_ =? 0); discriminate.
Qed.
Lemma all_types : forall t, gt_number t < 16 -> gt_version t <> VC -> forall g, g_type g = t -> oda_type g = existsb (GroupType_eqb t) for_applications.
Proof.
  intros [n v] Hn Hv g E. cbn [gt_number gt_version] in *. unfold oda_type. cbv zeta. rewrite E. cbn [gt_number gt_version].
  assert (X : In n (nseq 0 16)) by (apply nseq_In; lia). cbn [nseq] in X.
  destruct v; [| |contradiction]; repeat (destruct X as [<-|X]; [reflexivity|]); destruct X.
Qed.
Lemma for_apps_small : forall t, existsb (GroupType_eqb t) for_applications = true -> In t for_applications.
Proof.
  intros t H. apply existsb_exists in H. destruct H as (x & X & E). replace t with x; [exact X|]. unfold GroupType_eqb in E. destruct t as [n v], x as [n' v'].
  cbn [gt_number gt_version] in E. apply andb_prop in E. destruct E as [E1 E2]. apply N.eqb_eq in E1. subst. f_equal. destruct v, v'; try discriminate; reflexivity.
Qed.

(* The items of a group, from the group as it is decoded *)
Lemma items_prepared : forall o now c g w, received_group (now, g, w) ->
  app_items (g, w) = let g' := prepared o now c g w in
    if negb (g_has_type g') || Version_eqb (gt_version (g_type g')) VC then []
    else if (gt_number (g_type g') =? 3) && Version_eqb (gt_version (g_type g')) VA then
      if g_has g' BLOCK3 && g_has g' BLOCK4 then [Announced (GroupType_of (getBits 5 (g_get g' BLOCK2) 0)) (g_get g' BLOCK4) (g_get g' BLOCK3)] else []
    else if existsb (GroupType_eqb (g_type g')) for_applications && g_has g' BLOCK2 && g_has g' BLOCK3 && g_has g' BLOCK4
    then [AppData (g_type g') (g_get g' BLOCK2) (g_get g' BLOCK3) (g_get g' BLOCK4)] else [].
Proof.
  intros o now c g w R. cbv zeta. unfold app_items. rewrite (announce_prepared o now c g w R). cbv zeta.
  set (g' := prepared o now c g w).
  assert (T : g_has_type g' = (if w =? 0 then g_has_type g else true)) by (unfold g'; rewrite prepared_has_type; destruct (w =? 0); reflexivity).
  assert (Ty : g_type g' = if w =? 0 then g_type g else g_type g') by (unfold g'; rewrite prepared_type; destruct (w =? 0); reflexivity).
  assert (Vc : w =? 0 = false -> Version_eqb (gt_version (g_type g')) VC = true) by (intros Ew; unfold g'; rewrite prepared_type, Ew; reflexivity).
  assert (Hb : forall b, g_has g' b = blk_is_received (g_block g b)) by (intros b; unfold g', g_has; rewrite prepared_block; reflexivity).
  assert (Gb : forall b, g_get g' b = blk_data (g_block g b)) by (intros b; unfold g'; rewrite prepared_get; reflexivity).
  destruct (w =? 0) eqn:Ew; cbn [andb].
  - rewrite <- T, <- Ty. rewrite !Hb, !Gb. cbn [g_block]. destruct (g_has_type g'); cbn [negb andb orb]; [|reflexivity].
    destruct (Version_eqb (gt_version (g_type g')) VC) eqn:Hv; cbn [negb andb orb map app].
    + assert (X : existsb (GroupType_eqb (g_type g')) for_applications = false); [|rewrite X; reflexivity].
      destruct (existsb _ _) eqn:X; [|reflexivity]. apply for_apps_small in X. exfalso. clear - X Hv. repeat (destruct X as [X|X]; [rewrite <- X in Hv; discriminate|]). destruct X.
    + destruct ((gt_number (g_type g') =? 3) && Version_eqb (gt_version (g_type g')) VA) eqn:E3.
      * apply andb_prop in E3. destruct E3 as [E3 Ea]. rewrite E3, Ea. cbn [andb]. rewrite andb_true_r.
        assert (X : existsb (GroupType_eqb (g_type g')) for_applications = false); [|rewrite X; cbn [andb]; destruct (_ && _); reflexivity].
        destruct (existsb _ _) eqn:X; [|reflexivity]. apply for_apps_small in X. exfalso. clear - X Ea E3. repeat (destruct X as [X|X]; [rewrite <- X in Ea, E3; discriminate|]). destruct X.
      * assert (X : (gt_number (g_type g') =? 3) && (blk_is_received (g_b3 g) && blk_is_received (g_b4 g) && Version_eqb (gt_version (g_type g')) VA) = false)
          by (rewrite (andb_comm _ (Version_eqb _ _)), andb_assoc, E3; reflexivity). rewrite X. reflexivity.
  - rewrite (Vc eq_refl). rewrite orb_true_r. cbn [negb]. rewrite andb_false_r. reflexivity.
Qed.

Lemma receiveTMC_step : forall env st g j, keeps (fun sj => view_of (st_tmc (fst sj)) =
  if g_has g BLOCK2 && g_has g BLOCK3 && g_has g BLOCK4
  then v_user (env_tmc env) (view_of (st_tmc st)) (g_get g BLOCK2 mod 32) (g_get g BLOCK3) (g_get g BLOCK4) else view_of (st_tmc st)) (receiveTMC env st g j).
Proof.
  intros env st g j. unfold receiveTMC. destruct (_ && _ && _); [|apply keeps_ok; reflexivity].
  replace (getBits 5 (g_get g BLOCK2) 0) with (g_get g BLOCK2 mod 32) by (rewrite getBits_arith; change (2 ^ 0) with 1; rewrite N.div_1_r; reflexivity).
  eapply keeps_bind; [apply receiveUser_view|]. intros [t j1] E. apply keeps_ok. exact E.
Qed.
Lemma decodeType3A_tmc : forall st g j, g_get g BLOCK3 < 65536 -> keeps (fun sj => view_of (st_tmc (fst sj)) =
  if g_has g BLOCK3 && g_has g BLOCK4 && Version_eqb (gt_version (g_type g)) VA && is_tmc (g_get g BLOCK4)
  then v_system (view_of (st_tmc st)) (g_get g BLOCK3) else view_of (st_tmc st)) (decodeType3A st g j).
Proof.
  intros st g j H3. unfold decodeType3A, is_tmc. cbv zeta. destruct (g_has g BLOCK3 && g_has g BLOCK4); cbn [negb andb]; [|apply keeps_ok; reflexivity].
  destruct (Version_eqb _ VA); cbn [negb andb]; [|apply keeps_ok; reflexivity].
  do 2 (eapply keeps_bind; [apply keeps_true|intros ? _]).
  destruct (N.eqb_spec (g_get g BLOCK4) 0x0093) as [->|_]; [apply keeps_ok; reflexivity|].
  destruct (N.eqb_spec (g_get g BLOCK4) 0x4BD7) as [->|_]; [apply keeps_ok; reflexivity|].
  destruct (N.eqb_spec (g_get g BLOCK4) 0x4BD8) as [->|_]; [apply keeps_ok; reflexivity|].
  destruct (N.eqb_spec (g_get g BLOCK4) 0x6552) as [->|_]; [apply keeps_ok; reflexivity|].
  destruct (_ || _).
  - eapply keeps_bind; [apply receiveSystem_view, H3|]. intros [t j1] E. apply keeps_ok. exact E.
  - do 2 (eapply keeps_bind; [apply keeps_true|intros ? _]). apply keeps_ok. reflexivity.
Qed.

(* How a group that applications may use reaches the TMC decoder *)
Lemma dispatch_tmc : forall env o st g j, oda_type g = true -> to_tmc (st_oda_app_for_group st) (g_type g) = true ->
  decodeByType env o st g j = receiveTMC env st g j.
Proof.
  intros env o st g j Od T. unfold to_tmc in T. destruct (find_type (g_type g) (st_oda_app_for_group st)) as [a|] eqn:Ef.
  - rewrite (oda_dispatch env o st g j a Od Ef). unfold decodeODAGroup. rewrite Ef. unfold is_tmc in T.
    assert (X : a = 0xCD46 \/ a = 0xCD47) by (apply orb_prop in T; destruct T as [T|T]; apply N.eqb_eq in T; auto). destruct X as [-> | ->]; reflexivity.
  - assert (Et : g_type g = type_8A) by (apply for_apps_small with (t := g_type g) || idtac; unfold GroupType_eqb in T; apply andb_prop in T; destruct T as [T1 T2]; apply N.eqb_eq in T1; destruct (g_type g) as [n v]; cbn [gt_number gt_version] in *; subst; destruct v; [reflexivity|discriminate|discriminate]).
    unfold decodeByType. rewrite Ef, Et. reflexivity.
Qed.
Lemma no_tmc_fields : forall st g, oda_type g = true -> to_tmc (st_oda_app_for_group st) (g_type g) = false -> off (group_fields st g) Ftmc.
Proof.
  intros st g Od T. unfold off, group_fields. cbv zeta. rewrite Od. unfold oda_type in Od. cbv zeta in Od.
  apply andb_prop in Od. destruct Od as [Od _]. apply andb_prop in Od. destruct Od as [Od _]. apply andb_prop in Od. destruct Od as [H1 H2]. apply negb_true_iff in H1, H2. rewrite H1.
  apply orb_false_elim in H2. destruct H2 as [H2 _]. apply orb_false_elim in H2. destruct H2 as [H2 N2]. apply orb_false_elim in H2. destruct H2 as [N0' N1]. rewrite N0', N1, N2.
  unfold to_tmc in T. destruct (find_type _ _) as [a|].
  - unfold app_fields. unfold is_tmc in T. rewrite T. destruct (a =? 0x4BD7); [reflexivity|]. destruct ((a =? 0x4BD8) || (a =? 0x6552)); reflexivity.
  - unfold GroupType_eqb in T. cbn [type_8A gt_number gt_version] in T. destruct (gt_number (g_type g) =? 5); [reflexivity|]. rewrite T. destruct ((gt_number (g_type g) =? 15) && _); reflexivity.
Qed.

Lemma tmc_step : forall env o h st now c g w st' j, tmc_inv env h st -> received_group (now, g, w) ->
  decoded env o st (prepared o now c g w) = Ok (st', j) -> tmc_inv env (h ++ [(g, w)]) st'.
Proof.
  intros env o h st now c g w st' j [I J] R D. pose proof (oda_step env o h st now c g w st' j I R D) as I'. split; [exact I'|].
  unfold items. rewrite flat_map_app, fold_left_app. fold (items h). rewrite <- J. cbn [flat_map]. rewrite app_nil_r.
  assert (Eo : st_oda_app_for_group st' = rev (announcement (g, w)) ++ st_oda_app_for_group st).
  { unfold oda_inv in I, I'. rewrite I', I, flat_map_app, rev_app_distr. cbn [flat_map]. rewrite app_nil_r. reflexivity. }
  assert (Sn : forall n v, GroupType_eqb (mkGroupType n v) (mkGroupType n v) = true) by (intros n v; apply eqb_type).
  pose proof (announce_prepared o now c g w R) as An. rewrite An in Eo. clear An. rewrite (items_prepared o now c g w R). cbv zeta in *. set (g' := prepared o now c g w) in *.
  assert (H3 : g_get g' BLOCK3 < 65536) by (unfold g'; rewrite prepared_get; apply R).
  pose proof (decoded_frame env o st g' _ D) as Fr. cbn [fst] in Fr. destruct Fr as (_ & _ & _ & _ & _ & _ & _ & _ & _ & _ & _ & _ & _ & Ft & _). rewrite had_tmc in Ft.
  unfold decoded in D. destruct (g_has_type g') eqn:Ht; cbn [negb orb andb] in *.
  2:{ cbn [fold_left]. rewrite Eo. cbn [rev app]. rewrite Ft by reflexivity. reflexivity. }
  destruct (Version_eqb (gt_version (g_type g')) VC) eqn:Hv; cbn [negb andb] in *.
  { cbn [fold_left]. rewrite Eo. cbn [rev app]. rewrite Ft; [reflexivity|]. unfold group_fields. cbv zeta. rewrite Hv. reflexivity. }
  destruct ((gt_number (g_type g') =? 3) && Version_eqb (gt_version (g_type g')) VA) eqn:E3.
  - apply andb_prop in E3. destruct E3 as [E3 Ea]. rewrite E3, Ea in Eo. cbn [andb] in Eo. rewrite andb_true_r in Eo.
    unfold decodeByType in D. cbv zeta in D. apply N.eqb_eq in E3. rewrite Hv, E3, Ea in D. cbn [N.eqb Pos.eqb andb] in D.
    pose proof (decodeType3A_tmc _ _ _ H3 _ D) as X. cbn [fst] in X. rewrite Ea, had_tmc, andb_true_r in X. rewrite Eo, X.
    destruct (g_has g' BLOCK3 && g_has g' BLOCK4); reflexivity.
  - assert (X : (gt_number (g_type g') =? 3) && (g_has g' BLOCK3 && g_has g' BLOCK4 && Version_eqb (gt_version (g_type g')) VA) = false)
      by (rewrite (andb_comm _ (Version_eqb _ _)), andb_assoc, E3; reflexivity). rewrite X in Eo. cbn [rev app] in Eo. rewrite Eo. clear X.
    destruct (oda_type g') eqn:Od.
    + destruct (existsb (GroupType_eqb (g_type g')) for_applications) eqn:Ex.
      * destruct (to_tmc (st_oda_app_for_group st) (g_type g')) eqn:T.
        -- rewrite (dispatch_tmc env o (had st g') g') in D by (rewrite ?had_oda; assumption). pose proof (receiveTMC_step _ _ _ _ _ D) as X. cbn [fst] in X. rewrite had_tmc in X. rewrite X. cbn [andb].
           destruct (_ && _ && _); cbn [fold_left ti_do]; [rewrite T|]; reflexivity.
        -- pose proof (no_tmc_fields (had st g') g' Od) as O. rewrite had_oda in O. rewrite Ft by (apply O, T). destruct (_ && _ && _); cbn [fold_left ti_do]; [rewrite T|]; reflexivity.
      * cbn [andb fold_left]. rewrite Ft; [reflexivity|]. apply no_tmc_fields; [exact Od|]. rewrite had_oda. unfold to_tmc.
        destruct (find_type (g_type g') (st_oda_app_for_group st)) as [a|] eqn:Ef.
        -- exfalso. unfold oda_inv in I. rewrite I in Ef. apply find_rev in Ef. apply announced_type in Ef. destruct Ef as [E1 E2]. rewrite (all_types _ E1 E2 g' eq_refl), Ex in Od. discriminate.
        -- destruct (GroupType_eqb (g_type g') type_8A) eqn:E8; [|reflexivity]. exfalso. unfold GroupType_eqb in E8. apply andb_prop in E8. destruct E8 as [Z1 Z2]. cbn [type_8A gt_number gt_version] in Z1, Z2.
           apply N.eqb_eq in Z1. destruct (g_type g') as [n v]. cbn [gt_number gt_version] in *. subst. destruct v; discriminate.
    + assert (Ex : existsb (GroupType_eqb (g_type g')) for_applications = false).
      { destruct (existsb _ _) eqn:Ex; [|reflexivity]. apply for_apps_small in Ex. rewrite (for_apps g' Ex) in Od. discriminate. }
      rewrite Ex. cbn [andb fold_left]. rewrite Ft; [reflexivity|]. unfold off, group_fields. cbv zeta. rewrite Hv, Od.
      destruct (gt_number (g_type g') =? 3) eqn:Z3; [|by_cases].
      cbn [andb] in E3. apply N.eqb_eq in Z3. unfold oda_type in Od. cbv zeta in Od. rewrite Hv, Z3, E3 in Od. cbn in Od. rewrite andb_false_r in Od. discriminate.
Qed.
