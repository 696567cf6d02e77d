(* Administration and tuning information of a traffic message service (C83). *)
From Coq Require Import SpecFloat.
From Verif.Model Require Import Util Group Options Tables Json Freq RdsString Tmc Station Channel.
From Verif.Spec Require Import Numerals Unicode JsonText Session Identity History Quality Texts Apps Fields Frequencies Traffic Labels Service.
From Verif.Proofs Require Import Tac Numerals FreqP JsonP Schema StationP TextP CleanP UpdateP SessionP LineP FrameP ChannelP LinesP HistoryP ShowP TraceP KeysP GetP FieldsP StringP PsP RtP EndP LpsP AppsP AfP LabelsP TmcP TmcMsgP TmcLineP TmcHistP TmcEndP TmcRunP TmcOnlyP.

Local Open Scope string_scope.
Local Open Scope N_scope.
Local Open Scope list_scope.

#[local] Strategy 1000 [set_all s_set s_isComplete s_str s_last_complete_string header].

(* How a group changes the state of the TMC decoder *)
Lemma tmc_state_step : forall env o h st now c g w st' j, oda_inv h st -> received_group (now, g, w) ->
  decoded env o st (prepared o now c g w) = Ok (st', j) ->
  match app_items (g, w) with
  | [Announced t a m] => if is_tmc a then exists j0 j1, receiveSystemGroup (st_tmc st) m j0 = Ok (st_tmc st', j1) else st_tmc st' = st_tmc st
  | [AppData t b2 b3 b4] => if to_tmc (st_oda_app_for_group st) t then exists j0 j1, receiveUserGroup (env_tmc env) (env_ucs2 env) (st_tmc st) (b2 mod 32) b3 b4 j0 = Ok (st_tmc st', j1) else st_tmc st' = st_tmc st
  | _ => st_tmc st' = st_tmc st
  end.
Proof.
  intros env o h st now c g w st' j I R D. rewrite (items_prepared o now c g w R). cbv zeta. set (g' := prepared o now c g w) in *.
  pose proof (decoded_frame env o st g' _ D) as Fr. cbn [fst] in Fr. destruct Fr as (_ & _ & _ & _ & _ & _ & _ & _ & _ & _ & _ & _ & _ & Ft & _). rewrite had_tmc in Ft.
  unfold decoded in D. destruct (g_has_type g') eqn:Ht; cbn [negb orb andb] in *; [|apply Ft; reflexivity].
  destruct (Version_eqb (gt_version (g_type g')) VC) eqn:Hv; cbn [negb andb] in *; [apply Ft; unfold group_fields; cbv zeta; rewrite Hv; reflexivity|].
  destruct ((gt_number (g_type g') =? 3) && Version_eqb (gt_version (g_type g')) VA) eqn:E3.
  - apply andb_prop in E3. destruct E3 as [E3 Ea]. unfold decodeByType in D. cbv zeta in D. apply N.eqb_eq in E3. rewrite Hv, E3, Ea in D. cbn [N.eqb Pos.eqb andb] in D.
    unfold decodeType3A in D. cbv zeta in D. rewrite Ea in D. cbn [negb] in D.
    destruct (g_has g' BLOCK3 && g_has g' BLOCK4); cbn [negb] in D; [|injection D as <- _; apply had_tmc].
    unbind D. unbind D. remember (st_tmc st) as s eqn:Es. unfold is_tmc.
    destruct (N.eqb_spec (g_get g' BLOCK4) 0x0093) as [->|_]; [injection D as <- _; rewrite Es; apply had_tmc|].
    destruct (N.eqb_spec (g_get g' BLOCK4) 0x4BD7) as [->|_]; [injection D as <- _; rewrite Es; apply had_tmc|].
    destruct (N.eqb_spec (g_get g' BLOCK4) 0x4BD8) as [->|_]; [injection D as <- _; rewrite Es; apply had_tmc|].
    destruct (N.eqb_spec (g_get g' BLOCK4) 0x6552) as [->|_]; [injection D as <- _; rewrite Es; apply had_tmc|].
    destruct (_ || _).
    + unbind D. destruct y1 as [s1 j1]. exists y0, j1. injection D as <- _. cbn [st_tmc]. rewrite Es, <- (had_tmc st g'). exact B1.
    + unbind D. unbind D. injection D as <- _. rewrite Es. apply had_tmc.
  - destruct (oda_type g') eqn:Od.
    + destruct (existsb (GroupType_eqb (g_type g')) for_applications) eqn:Ex.
      * destruct (to_tmc (st_oda_app_for_group st) (g_type g')) eqn:T.
        -- rewrite (dispatch_tmc env o (had st g') g') in D by (rewrite ?had_oda; assumption). unfold receiveTMC in D. cbn [andb].
           destruct (_ && _ && _); [|injection D as <- _; apply had_tmc]. rewrite T. unbind D. destruct y as [s1 j1]. injection D as <- _. eexists. exists j1.
           rewrite had_tmc in B. replace (g_get g' BLOCK2 mod 32) with (getBits 5 (g_get g' BLOCK2) 0) by (rewrite getBits_arith; change (2 ^ 0) with 1; rewrite N.div_1_r; reflexivity). exact B.
        -- pose proof (no_tmc_fields (had st g') g' Od) as O. rewrite had_oda in O. rewrite Ft by (apply O, T). destruct (_ && _ && _); [rewrite T|]; reflexivity.
      * cbn [andb]. apply Ft. apply no_tmc_fields; [exact Od|]. rewrite had_oda. unfold to_tmc.
        destruct (find_type (g_type g') (st_oda_app_for_group st)) as [a|] eqn:Ef.
        -- exfalso. unfold oda_inv in I. rewrite I in Ef. apply find_rev in Ef. apply announced_type in Ef. destruct Ef as [E1 E2]. rewrite (all_types _ E1 E2 g' eq_refl), Ex in Od. discriminate.
        -- destruct (GroupType_eqb (g_type g') type_8A) eqn:E8; [|reflexivity]. exfalso. unfold GroupType_eqb in E8. apply andb_prop in E8. destruct E8 as [Z1 Z2]. cbn [type_8A gt_number gt_version] in Z1, Z2.
           apply N.eqb_eq in Z1. destruct (g_type g') as [n v]. cbn [gt_number gt_version] in *. subst. destruct v; discriminate.
    + assert (Ex : existsb (GroupType_eqb (g_type g')) for_applications = false).
      { destruct (existsb _ _) eqn:Ex; [|reflexivity]. apply for_apps_small in Ex. rewrite (for_apps g' Ex) in Od. discriminate. }
      rewrite Ex. cbn [andb]. apply Ft. unfold off, group_fields. cbv zeta. rewrite Hv, Od.
      destruct (gt_number (g_type g') =? 3) eqn:Z3; [|by_cases].
      cbn [andb] in E3. apply N.eqb_eq in Z3. unfold oda_type in Od. cbv zeta in Od. rewrite Hv, Z3, E3 in Od. cbn in Od. rewrite andb_false_r in Od. discriminate.
Qed.

Lemma system_rest : forall s m j s' j', receiveSystemGroup s m j = Ok (s', j') -> t_ps s' = t_ps s /\ t_other_network_freqs s' = t_other_network_freqs s.
Proof.
  intros s m j s' j' E. unfold receiveSystemGroup in E. cbv zeta in E.
  destruct (_ =? 0); [unbind E; unbind E; unbind E; unbind E; injection E as <- _; split; reflexivity|].
  destruct (_ =? 1); [unbind E; unbind E; unbind E; injection E as <- _; split; reflexivity|].
  destruct (_ =? 2); [|injection E as <- _; split; reflexivity]. destruct (0 <? _); [|injection E as <- _; split; reflexivity]. unbind E. destruct (0 <? _); [unbind E; unbind E|]; injection E as <- _; split; reflexivity.
Qed.
Lemma user_bits : forall x, x < 32 -> getBits 5 x 0 = x /\ getBool x 4 = (16 <=? x) /\ getBits 4 x 0 = x mod 16.
Proof.
  intros x Hx. assert (X : In x (nseq 0 32)) by (apply nseq_In; lia). split; [rewrite getBits_arith; change (2 ^ 0) with 1; rewrite N.div_1_r; apply N.mod_small; exact Hx|].
  split; [clear - X; cbv in X; repeat (destruct X as [<-|X]; [reflexivity|]); destruct X|]. rewrite getBits_arith. change (2 ^ 0) with 1. rewrite N.div_1_r. reflexivity.
Qed.
Lemma set_place : forall u s pos a b c d,
  s_set u (s_set u (s_set u (s_set u s (pos + 0) a) (pos + 1) b) (pos + 2) c) (pos + 3) d = set_all u s (place pos [a; b; c; d]).
Proof.
  intros u s pos a b c d. cbn [place]. unfold set_all. cbn [fold_left fst snd].
  replace (pos + 1 + 1) with (pos + 2) by lia. replace (pos + 2 + 1) with (pos + 3) by lia. rewrite N.add_0_r. reflexivity.
Qed.
Lemma provider_set : forall u s x y z, y < 65536 -> z < 65536 -> x = 20 \/ x = 21 ->
  s_set u (s_set u (s_set u (s_set u s (4 * (x mod 16 - 4) + 0) (getUint8 y 8)) (4 * (x mod 16 - 4) + 1) (getUint8 y 0)) (4 * (x mod 16 - 4) + 2) (getUint8 z 8)) (4 * (x mod 16 - 4) + 3) (getUint8 z 0) =
  set_all u s (provider_part (x, y, z)).
Proof.
  intros u s x y z Hy Hz Hv. destruct (hi_bits y Hy) as [-> _]. destruct (lo_bits y) as [-> _]. destruct (hi_bits z Hz) as [-> _]. destruct (lo_bits z) as [-> _].
  rewrite set_place. unfold provider_part. replace (4 * (x mod 16 - 4)) with (4 * (x - 20)) by (destruct Hv as [-> | ->]; reflexivity).
  replace ((x =? 20) || (x =? 21)) with true by (destruct Hv as [-> | ->]; reflexivity). reflexivity.
Qed.
Lemma user_rest : forall d u s x y z j s' j', x < 32 -> y < 65536 -> z < 65536 -> receiveUserGroup d u s x y z j = Ok (s', j') ->
  t_ps s' = set_all u (t_ps s) (if t_is_initialized s then provider_part (x, y, z) else []) /\ (t_other_network_freqs s = [] -> t_other_network_freqs s' = []).
Proof.
  intros d u s x y z j s' j' Hx Hy Hz E. unfold receiveUserGroup in E. destruct (t_is_initialized s) eqn:Ei; cbn [negb] in E; [|assert (s' = s) as -> by congruence; split; [reflexivity|auto]].
  destruct (user_bits x Hx) as (B5 & B4 & Bv). rewrite B5, B4 in E.
  assert (Np : x <> 20 /\ x <> 21 -> provider_part (x, y, z) = []) by (intros [N1 N2]; unfold provider_part; replace (x =? 20) with false by lia; replace (x =? 21) with false by lia; reflexivity).
  destruct (N.eqb_spec x 0) as [->|N0]; [unbind E; unbind E; unbind E; injection E as <- _; split; [reflexivity|auto]|].
  destruct (16 <=? x) eqn:E16.
  - unfold receiveTuningInfo in E. cbv zeta in E. rewrite Bv in E.
    destruct ((x mod 16 =? 4) || (x mod 16 =? 5)) eqn:Ev.
    + assert (Hv : x = 20 \/ x = 21) by lia. unbind E. injection E as <- _. cbn [t_ps t_other_network_freqs]. split; [apply provider_set; assumption|auto].
    + rewrite Np by lia. cbn [set_all fold_left].
      destruct (x mod 16 =? 6); [unbind E; unbind E; unbind E; unbind E; unbind E; injection E as <- _; split; reflexivity|].
      clear Ev. destruct (x mod 16 =? 8); [destruct ((y =? 0) || (z =? 0) || (y =? z)); [unbind E|unbind E; unbind E]; injection E as <- _; split; auto|].
      destruct (x mod 16 =? 9); [unbind E; unbind E; unbind E; unbind E; injection E as <- _; split; auto|]. unbind E. injection E as <- _; split; auto.
  - rewrite Np by lia. cbn [set_all fold_left].
    destruct (_ && _); [assert (s' = s) as -> by congruence; split; auto|]. destruct (getBool x 3); [unbind E; assert (s' = s) as -> by congruence; split; auto|].
    destruct (m_is_complete _); [unbind E|]; injection E as <- _; split; auto.
Qed.

(* The name of the service provider over a history *)
Definition ps_part (i : app_item) : Texts.writes := match i with AppData _ b2 b3 b4 => provider_part (b2 mod 32, b3, b4) | Announced _ _ _ => [] end.
Definition ps_do (d : TmcData) (s : list (GroupType * N) * view * Texts.writes) (i : app_item) : list (GroupType * N) * view * Texts.writes :=
  let '(A, v, ws) := s in
  (ti_do d (A, v) i, ws ++ match i with AppData t _ _ _ => if to_tmc A t && v_init v then ps_part i else [] | Announced _ _ _ => [] end).
Definition prov_inv (env : Env) (h : list (Group * N)) (st : Station) : Prop :=
  tmc_inv env h st /\ Forall (fun x => received_group (0%Z, fst x, snd x)) h /\ t_other_network_freqs (st_tmc st) = [] /\
  t_ps (st_tmc st) = set_all (env_ucs2 env) (RDSString_new 8) (snd (fold_left (ps_do (env_tmc env)) (items h) ([], v0, []))).
Lemma ps_fst : forall d l s ws, fst (fold_left (ps_do d) l (s, ws)) = fold_left (ti_do d) l s.
Proof. intros d. induction l as [|i l IH]; intros [A v] ws; [reflexivity|]. cbn [fold_left ps_do]. rewrite IH. reflexivity. Qed.
Lemma prov_new : forall env w, prov_inv env [] (Station_new w).
Proof. intros env w. split; [apply tmc_new|]. split; [constructor|]. split; reflexivity. Qed.
Lemma prov_new_pi : forall env w p, prov_inv env [] (Station_new_pi w p).
Proof. intros env w p. split; [apply tmc_new_pi|]. split; [constructor|]. split; reflexivity. Qed.
Lemma prov_had : forall env h st g, prov_inv env h st -> prov_inv env h (had st g).
Proof. intros env h st g (I & F & A & B). split; [apply tmc_had, I|]. rewrite had_tmc. auto. Qed.
Lemma prov_step : forall env o h st now c g w st' j, prov_inv env h st -> received_group (now, g, w) ->
  decoded env o st (prepared o now c g w) = Ok (st', j) -> prov_inv env (h ++ [(g, w)]) st'.
Proof.
  intros env o h st now c g w st' j (I & F & Fr & Ps) R D. split; [exact (tmc_step env o h st now c g w st' j I R D)|].
  split; [apply Forall_app; split; [exact F|constructor; [exact R|constructor]]|].
  pose proof (tmc_state_step env o h st now c g w st' j (proj1 I) R D) as S. pose proof (items_ok now g w R) as Ok_.
  unfold items. rewrite flat_map_app, fold_left_app. fold (items h). cbn [flat_map]. rewrite app_nil_r.
  destruct I as [_ J]. assert (Fs : fst (fold_left (ps_do (env_tmc env)) (items h) ([], v0, [])) = (st_oda_app_for_group st, view_of (st_tmc st))) by (rewrite J; apply ps_fst).
  destruct (fold_left (ps_do (env_tmc env)) (items h) ([], v0, [])) as [[A v] ws]. cbn [fst snd] in *. injection Fs as EA Ev.
  assert (L : exists i, app_items (g, w) = [i] \/ app_items (g, w) = []).
  { rewrite (items_prepared o now c g w R). cbv zeta. set (g' := prepared o now c g w). destruct (_ || _); [eexists (Announced type_8A 0 0); right; reflexivity|].
    destruct (_ && _); [destruct (_ && _); eexists; [left; reflexivity|right; reflexivity]|]. destruct (_ && _); eexists; [left; reflexivity|right; reflexivity]. Unshelve. all: exact (Announced type_8A 0 0). }
  destruct L as [i [L|L]]; rewrite L in S, Ok_ |- *; [|rewrite S; auto]. cbn [fold_left ps_do snd]. apply Forall_cons_iff in Ok_. destruct Ok_ as [Oi _].
  destruct i as [t a m|t b2 b3 b4].
  - rewrite app_nil_r. destruct (is_tmc a); [|rewrite S; auto]. destruct S as (j0 & j1 & S). destruct (system_rest _ _ _ _ _ S) as [-> ->]. auto.
  - rewrite <- EA in S. destruct (to_tmc A t); cbn [andb]; [|rewrite app_nil_r, S; auto]. destruct S as (j0 & j1 & S). destruct Oi as (_ & O3 & O4).
    destruct (user_rest _ _ _ _ _ _ _ _ _ (N.mod_lt b2 32 ltac:(discriminate)) O3 O4 S) as [E1 E2]. split; [exact (E2 Fr)|]. rewrite E1, set_all_app, Ps. f_equal. rewrite Ev. reflexivity.
Qed.

(* TMC in groups 8A and only there: the writes are those since the service began *)
Definition pp_do (d : TmcData) (s : view * Texts.writes) (i : app_item) : view * Texts.writes :=
  let '(v, ws) := s in (t_do d v i, ws ++ if v_init v then provider_writes [i] else []).
Lemma pp_fold : forall d l A v ws, settled A -> Forall in_place l ->
  snd (fold_left (ps_do d) l (A, v, ws)) = snd (fold_left (pp_do d) l (v, ws)).
Proof.
  intros d l. induction l as [|i l IH]; intros A v ws S F; [reflexivity|]. cbn [fold_left ps_do pp_do]. apply Forall_cons_iff in F. destruct F as [Fi F].
  destruct i as [t a m|t b2 b3 b4]; cbn [ti_do t_do].
  - rewrite IH; [|apply settled_cons; [exact S|apply Fi|apply Fi]|exact F]. destruct (v_init v); reflexivity.
  - rewrite S. rewrite IH; [|exact S|exact F]. do 4 f_equal. unfold provider_writes, user_groups. cbn [flat_map]. destruct (GroupType_eqb t type_8A); cbn [andb app]; [|destruct (v_init v); reflexivity].
    destruct (v_init v); [|reflexivity]. cbn [flat_map ps_part]. rewrite app_nil_r. reflexivity.
Qed.
Lemma provider_app : forall a b, provider_writes (a ++ b) = provider_writes a ++ provider_writes b.
Proof. intros a b. unfold provider_writes, user_groups. rewrite !flat_map_app. reflexivity. Qed.
Lemma pp_init : forall d l v ws, v_init v = true -> snd (fold_left (pp_do d) l (v, ws)) = ws ++ provider_writes l.
Proof.
  intros d l. induction l as [|i l IH]; intros v ws I; [symmetry; apply app_nil_r|]. cbn [fold_left pp_do]. rewrite IH by (apply init_step, I). rewrite I, <- app_assoc.
  change (i :: l) with ([i] ++ l). rewrite provider_app. reflexivity.
Qed.
Lemma pp_suffix : forall d l v, exists pre, provider_writes l = pre ++ snd (fold_left (pp_do d) l (v, [])).
Proof.
  intros d l. induction l as [|i l IH]; intros v; [exists []; reflexivity|]. change (i :: l) with ([i] ++ l). rewrite provider_app. cbn [fold_left app pp_do].
  destruct (v_init v) eqn:Ei.
  - exists []. rewrite pp_init by (apply init_step, Ei). reflexivity.
  - destruct (IH (t_do d v i)) as [pre E]. exists (provider_writes [i] ++ pre). rewrite <- app_assoc, <- E. reflexivity.
Qed.
Lemma pp_fst : forall d l v ws, fst (fold_left (pp_do d) l (v, ws)) = fold_left (t_do d) l v.
Proof. intros d. induction l as [|i l IH]; intros v ws; [reflexivity|]. cbn [fold_left pp_do]. apply IH. Qed.
Lemma provider_ok : forall l, Forall item_ok l -> Forall (fun pb => fst pb < 8 /\ snd pb < 256) (provider_writes l).
Proof.
  intros l F. unfold provider_writes. apply Forall_flat_map. unfold user_groups. apply Forall_flat_map. eapply Forall_impl; [|exact F]. intros [t a m|t b2 b3 b4] Oi; [constructor|].
  destruct (GroupType_eqb t type_8A); [|constructor]. constructor; [|constructor]. unfold provider_part. destruct ((_ =? 20) || (_ =? 21)) eqn:E; [|constructor]. destruct Oi as (_ & O3 & O4).
  destruct (hi_bits _ O3) as [_ X1]. destruct (lo_bits b3) as [_ X2]. destruct (hi_bits _ O4) as [_ X3]. destruct (lo_bits b4) as [_ X4].
  apply place_ok; [cbn [length]; lia|]. repeat constructor; assumption.
Qed.

(* ---- one group ---- *)
Lemma other_freqs : forall y l1 l2 raw, y < 65536 -> af_insert af_init (getUint8 y 8) = Ok l1 -> af_insert l1 (getUint8 y 0) = Ok l2 -> af_getRawList l2 = Ok raw ->
  raw = if (225 <=? hi y) && (hi y <=? 249) && ((1 <=? lo y) && (lo y <=? 204)) then [87500 + 100 * lo y] else [].
Proof.
  intros y l1 l2 raw Hy E1 E2 E3. destruct (hi_bits y Hy) as [Hh _]. rewrite Hh in E1. clear Hh. destruct (lo_bits y) as [L Ll]. rewrite L in E2.
  remember (hi y) as a eqn:Ea. remember (lo y) as b eqn:Eb. clear Ea Eb L.
  assert (L1 : exists e f, l1 = mkAF (repeat 0 25) e 0 f /\ e = (if (225 <=? a) && (a <=? 249) then a - 224 else 0) /\ (0 < e -> f = false)).
  { unfold af_insert in E1. cbn [af_init lf_mf_follows num_expected num_received alt_freqs] in E1. change (0 <? 0) with false in E1. rewrite andb_false_r in E1.
    destruct ((a =? 205) || (a =? 224)) eqn:X1; [injection E1 as <-; exists 0, false; split; [reflexivity|split; [|intros; reflexivity]]; replace ((225 <=? a) && (a <=? 249)) with false by lia; reflexivity|].
    destruct ((225 <=? a) && (a <=? 249)) eqn:X2; [injection E1 as <-; exists (a - 224), false; split; [reflexivity|split; [reflexivity|intros; reflexivity]]|].
    destruct (a =? 250) eqn:X3; injection E1 as <-; [exists 0, true|exists 0, false]; (split; [reflexivity|split; [reflexivity|intros; try lia; reflexivity]]). }
  destruct L1 as (e & f & -> & Ee & Ef). clear E1. unfold af_insert in E2. cbn [lf_mf_follows num_expected num_received alt_freqs] in E2.
  destruct ((225 <=? a) && (a <=? 249)) eqn:Xa; cbn [andb].
  - assert (0 < e) by lia. rewrite (Ef H) in E2. replace (0 <? e) with true in E2 by lia. rewrite andb_true_r in E2. cbn [cf_isValid cf_band cf_code] in E2.
    destruct ((1 <=? b) && (b <=? 204)) eqn:Xb.
    + assert (K : cf_kHz (mkFreq b FM) = 87500 + 100 * b) by (unfold cf_kHz; cbn [cf_isValid cf_band cf_code]; rewrite Xb; reflexivity). rewrite K in E2.
      remember (87500 + 100 * b) as k eqn:Ek. clear K Ek Xb Xa Ee Ef H. cbv in E2. apply (f_equal (fun r : res AltFreqList => match r with Ok v => v | _ => l2 end)) in E2. cbv beta iota in E2. subst l2. cbv in E3. apply (f_equal (fun r : res (list N) => match r with Ok v => v | _ => raw end)) in E3. cbv beta iota in E3. symmetry. exact E3.
    + destruct ((b =? 205) || (b =? 224)); [injection E2 as <-; cbn in E3; congruence|]. destruct ((225 <=? b) && (b <=? 249)); [injection E2 as <-; cbn in E3; congruence|]. destruct (b =? 250); injection E2 as <-; cbn in E3; congruence.
  - subst e. change (0 <? 0) with false in E2. rewrite andb_false_r in E2.
    destruct ((b =? 205) || (b =? 224)); [injection E2 as <-; cbn in E3; congruence|]. destruct ((225 <=? b) && (b <=? 249)); [injection E2 as <-; cbn in E3; congruence|]. destruct (b =? 250); injection E2 as <-; cbn in E3; congruence.
Qed.

Lemma admin_shown : forall env d u s y z j0 s' j line, t_is_initialized s = true -> y < 65536 -> z < 65536 ->
  (forall q, line_at q line = option_map (value_of (env_float env)) (jget q j)) ->
  receiveUserGroup d u s 0 y z j0 = Ok (s', j) -> administration_shown line y z.
Proof.
  intros env d u s y z j0 s' j line I Hy Hz L E. unfold receiveUserGroup in E. rewrite I in E. cbn [negb] in E. change (getBits 5 0 0 =? 0) with true in E. cbv iota zeta in E.
  unbind E. unbind E. unbind E. assert (y2 = j) as -> by congruence. rewrite !getBits_arith in *. change (2 ^ 6) with 64 in *. change (2 ^ 5) with 32 in *. change (2 ^ 0) with 1 in *. change (2 ^ 10) with 1024 in *. rewrite N.div_1_r in *.
  rewrite (N.mod_small (z / 1024)) in * by (apply N.div_lt_upper_bound; lia).
  split; [|split]; apply (says_n_JN env); rewrite L; unfold sysinfo in *; got.
Qed.

Lemma tuning_shown : forall env d u s x y z j0 s' j line, t_is_initialized s = true -> t_other_network_freqs s = [] -> jget ["tmc"] j0 = None -> 16 <= x < 32 -> y < 65536 -> z < 65536 ->
  (forall q, line_at q line = option_map (value_of (env_float env)) (jget q j)) ->
  receiveUserGroup d u s x y z j0 = Ok (s', j) -> network_shown line x y z.
Proof.
  intros env d u s x y z j0 s' j line I Fr J0 Hx Hy Hz L E. unfold receiveUserGroup in E. rewrite I in E. cbn [negb] in E.
  destruct (user_bits x) as (B5 & B4 & Bv); [lia|]. rewrite B5, B4 in E. replace (x =? 0) with false in E by lia. replace (16 <=? x) with true in E by lia.
  unfold receiveTuningInfo in E. cbv zeta in E. rewrite Bv, Fr in E.
  assert (Z : forall k, jget (othernet k) j0 = None) by (intros k; apply jget_deeper; exact J0). unfold othernet in *.
  assert (Vx : x = 16 + x mod 16) by lia. remember (x mod 16) as v eqn:Ev. subst x. clear Ev Bv B4 B5.
  unfold network_shown. cbv zeta. unfold if_value. rewrite !L.
  replace (16 + v =? 22) with (v =? 6) by lia. replace (16 + v =? 24) with (v =? 8) by lia. replace (16 + v =? 25) with (v =? 9) by lia.
  assert (Nn : forall k n, jget ["tmc"; "other_network"; k] j = Some (JN n) -> says_n line ["tmc"; "other_network"; k] n) by (intros k n G; apply (says_n_JN env); rewrite L, G; reflexivity).
  assert (Nx : forall k n, n < 65536 -> jget ["tmc"; "other_network"; k] j = Some (JStr (getPrefixedHexString 4 n)) -> says_x 4 line ["tmc"; "other_network"; k] n).
  { intros k n Hn G. exists (getPrefixedHexString 4 n). split; [unfold says; rewrite L, G; reflexivity|]. apply prefixed_hex. exact Hn. }
  Ltac none Z L := rewrite ?L; repeat first [ erewrite jset_other; [|eassumption|reflexivity] | erewrite jpush_other; [|eassumption|reflexivity] | erewrite push_other; [|eassumption|reflexivity] ]; rewrite Z; reflexivity.
  Ltac some := repeat first [ erewrite jset_same; [|eassumption]; reflexivity | erewrite jset_other; [|eassumption|reflexivity] | erewrite jpush_other; [|eassumption|reflexivity] | erewrite push_other; [|eassumption|reflexivity] ].
  destruct ((v =? 4) || (v =? 5)) eqn:V45.
  { replace (v =? 6) with false by lia. replace (v =? 8) with false by lia. replace (v =? 9) with false by lia. cbn [andb orb if_x if_n].
    unbind E. assert (y0 = j) as -> by congruence. destruct (s_isComplete _); [|assert (j = j0) as -> by congruence]; repeat split; none Z L. }
  destruct (N.eqb_spec v 6) as [->|N6].
  { cbn [N.eqb Pos.eqb andb orb if_x if_n]. change (find_code z []) with (@None AltFreqList) in E. do 5 unbind E. assert (y4 = j) as -> by congruence.
    pose proof (other_freqs y _ _ _ Hy B B0 B2) as Raw. unfold if_x.
    split; [apply Nx; [exact Hz|some]|]. split; [none Z L|]. split; [none Z L|]. split; [none Z L|]. split; [none Z L|].
    assert (G : jget ["tmc"; "other_network"; "frequencies_khz"] j = match map JN y3 with [] => None | _ => Some (JArr (map JN y3)) end).
    { apply (push_absent _ _ _ _ B3). erewrite jset_other; [|eassumption|reflexivity]. apply Z. }
    destruct ((225 <=? hi y) && (hi y <=? 249) && ((1 <=? lo y) && (lo y <=? 204))); rewrite Raw in G; cbn [map] in G; [|rewrite G; reflexivity].
    exists [dec_string (87500 + 100 * lo y)]. split; [|constructor; [apply dec_string_value|constructor]]. unfold says. rewrite L, G. cbn [option_map value_of map]. unfold JN. cbn [value_of]. rewrite dec_string_Z_of_N. reflexivity. }
  destruct (N.eqb_spec v 8) as [->|N8].
  { cbn [N.eqb Pos.eqb andb orb if_x if_n]. unfold one_network. destruct ((y =? 0) || (z =? 0) || (y =? z)) eqn:One; cbn [negb].
    - unbind E. assert (y0 = j) as -> by congruence. unfold if_x. split; [apply Nx; [exact Hy|some]|]. repeat (split; [none Z L|]). none Z L.
    - do 2 unbind E. assert (y1 = j) as -> by congruence. unfold if_x. split; [none Z L|].
      split; [|repeat (split; [none Z L|]); none Z L].
      exists (getPrefixedHexString 4 y), (getPrefixedHexString 4 z). split; [|split; apply prefixed_hex; assumption].
      unfold says. rewrite L. assert (P : jpush_all ["tmc"; "other_network"; "pi_codes"] [JStr (getPrefixedHexString 4 y); JStr (getPrefixedHexString 4 z)] j0 = Ok j).
      { cbn [jpush_all]. rewrite B. cbn [bind]. rewrite B0. reflexivity. }
      rewrite (push_absent _ _ _ _ P (Z "pi_codes")). reflexivity. }
  destruct (N.eqb_spec v 9) as [->|N9].
  { cbn [N.eqb Pos.eqb andb orb if_x if_n]. do 4 unbind E. assert (y3 = j) as -> by congruence. rewrite !getBits_arith in *. change (2 ^ 6) with 64 in *. change (2 ^ 4) with 16 in *. change (2 ^ 10) with 1024 in *. change (2 ^ 0) with 1 in *. rewrite N.div_1_r in *.
    rewrite (N.mod_small (y / 1024)) in * by (apply N.div_lt_upper_bound; lia). unfold if_x, if_n.
    split; [apply Nx; [exact Hz|some]|]. split; [none Z L|]. split; [apply Nn; some|]. split; [apply Nn; some|]. split; [|none Z L].
    assert (G : jget ["tmc"; "other_network"; "scope"] j = match map JStr (getScopeStrings ((y / 64) mod 16)) with [] => None | _ => Some (JArr (map JStr (getScopeStrings ((y / 64) mod 16)))) end).
    { apply (push_absent _ _ _ _ B2). some. apply Z. }
    rewrite G. clear. assert (M : (y / 64) mod 16 < 16) by (apply N.mod_lt; lia).
    assert (Sn : scope_names (y / 64) = scope_names ((y / 64) mod 16)). { unfold scope_names. change 16 with (2 ^ 4). rewrite !N.mod_pow2_bits_low by lia. reflexivity. }
    rewrite Sn. revert M. generalize ((y / 64) mod 16). intros n M. assert (X : In n (nseq 0 16)) by (apply nseq_In; lia). cbn in X. repeat (destruct X as [<-|X]; [reflexivity|]). destruct X. }
  unbind E. assert (y0 = j) as -> by congruence. cbn [andb orb if_x if_n]. repeat (split; [none Z L|]). none Z L.
Qed.

(* ---- the name of the provider on the line ---- *)
Lemma message_elsewhere : forall d s m j j', finish_message d s m j = Ok j' -> jget ["tmc"; "service_provider"] j' = jget ["tmc"; "service_provider"] j.
Proof.
  intros d s m j j' E. unfold finish_message in E. unbind E. clear B. destruct (jempty _); [congruence|]. unbind E. rewrite <- (jset_other _ ["tmc"; "service_provider"] _ _ _ B eq_refl). clear B.
  unfold decodeLocation in E. destruct (_ || _ || _); [congruence|].
  destruct (db_points _ _) as [pt|]; [|congruence]. cbv zeta in E. unbind E. rewrite <- (jset_other _ ["tmc"; "service_provider"] _ _ _ B eq_refl). clear B.
  unbind E. assert (E2 : jget ["tmc"; "service_provider"] y2 = jget ["tmc"; "service_provider"] y1).
  { destruct (walk _ _ _ _) as [|p0 [|p1 r]]; [congruence|congruence|]. destruct (pt_name1 p0); [congruence|]. destruct (pt_name1 (List.last _ _)); [congruence|].
    unbind B. rewrite (jset_other _ ["tmc"; "service_provider"] _ _ _ B eq_refl). exact (jset_other _ ["tmc"; "service_provider"] _ _ _ B0 eq_refl). }
  rewrite <- E2. clear B E2. destruct (db_roads _ _) as [road|]; [|congruence]. unbind E.
  assert (E3 : jget ["tmc"; "service_provider"] y3 = jget ["tmc"; "service_provider"] y2). { destruct (road_number road); [congruence|]. exact (jset_other _ ["tmc"; "service_provider"] _ _ _ B eq_refl). }
  rewrite <- E3. destruct (road_name road); [destruct (pt_road_name pt); [congruence|]|]; exact (jset_other _ ["tmc"; "service_provider"] _ _ _ E eq_refl).
Qed.
Lemma provider_field : forall d u s x y z j s' j', x < 32 -> y < 65536 -> z < 65536 -> receiveUserGroup d u s x y z j = Ok (s', j') -> jget ["tmc"] j = None ->
  jget ["tmc"; "service_provider"] j' = if t_is_initialized s && ((x =? 20) || (x =? 21)) && s_isComplete (set_all u (t_ps s) (provider_part (x, y, z)))
                                         then Some (JStr (s_last_complete_string (set_all u (t_ps s) (provider_part (x, y, z))))) else None.
Proof.
  intros d u s x y z j s' j' Hx Hy Hz E J0. assert (Z : jget ["tmc"; "service_provider"] j = None) by (apply jget_deeper; exact J0).
  assert (K : (x =? 20) || (x =? 21) = false -> jget ["tmc"; "service_provider"] j' = None).
  2: { destruct ((x =? 20) || (x =? 21)) eqn:Ex; [|rewrite andb_false_r; apply K; reflexivity]. clear K. rewrite andb_true_r. unfold receiveUserGroup in E.
    destruct (t_is_initialized s) eqn:I; cbn [negb andb] in *; [|congruence]. destruct (user_bits x Hx) as (B5 & B4 & Bv). rewrite B5, B4 in E. replace (x =? 0) with false in E by lia. replace (16 <=? x) with true in E by lia.
    unfold receiveTuningInfo in E. cbv zeta in E. rewrite Bv in E. replace ((x mod 16 =? 4) || (x mod 16 =? 5)) with true in E by (symmetry; assert (x = 20 \/ x = 21) as [-> | ->] by lia; reflexivity).
    rewrite (provider_set u (t_ps s) x y z Hy Hz) in E by lia. unbind E. assert (y0 = j') as -> by congruence. clear E.
    destruct (s_isComplete _); [|congruence]. exact (jset_same _ _ _ _ B). }
  intros Ex. unfold receiveUserGroup in E. destruct (t_is_initialized s) eqn:I; cbn [negb] in E; [|congruence].
  destruct (user_bits x Hx) as (B5 & B4 & Bv). rewrite B5, B4 in E. rewrite <- Z.
  destruct (x =? 0); [unbind E; unbind E; unbind E; assert (y2 = j') as <- by congruence; rewrite (jset_other _ ["tmc"; "service_provider"] _ _ _ B1 eq_refl), (jset_other _ ["tmc"; "service_provider"] _ _ _ B0 eq_refl); exact (jset_other _ ["tmc"; "service_provider"] _ _ _ B eq_refl)|].
  destruct (16 <=? x) eqn:E16.
  - unfold receiveTuningInfo in E. cbv zeta in E. rewrite Bv in E. replace ((x mod 16 =? 4) || (x mod 16 =? 5)) with false in E by lia.
    destruct (x mod 16 =? 6); [do 5 unbind E; assert (y4 = j') as <- by congruence; rewrite (push_other _ ["tmc"; "service_provider"] _ _ _ B3 eq_refl); exact (jset_other _ ["tmc"; "service_provider"] _ _ _ B1 eq_refl)|].
    destruct (x mod 16 =? 8).
    { destruct ((y =? 0) || (z =? 0) || (y =? z)); [unbind E; assert (y0 = j') as <- by congruence; exact (jset_other _ ["tmc"; "service_provider"] _ _ _ B eq_refl)|].
      do 2 unbind E. assert (y1 = j') as <- by congruence. rewrite (jpush_other _ ["tmc"; "service_provider"] _ _ _ B0 eq_refl). exact (jpush_other _ ["tmc"; "service_provider"] _ _ _ B eq_refl). }
    destruct (x mod 16 =? 9).
    { do 4 unbind E. assert (y3 = j') as <- by congruence. rewrite (push_other _ ["tmc"; "service_provider"] _ _ _ B2 eq_refl), (jset_other _ ["tmc"; "service_provider"] _ _ _ B1 eq_refl), (jset_other _ ["tmc"; "service_provider"] _ _ _ B0 eq_refl). exact (jset_other _ ["tmc"; "service_provider"] _ _ _ B eq_refl). }
    unbind E. assert (y0 = j') as <- by congruence. exact (jpush_other _ ["tmc"; "service_provider"] _ _ _ B eq_refl).
  - destruct (_ && _); [congruence|]. destruct (getBool x 3); [unbind E; assert (y0 = j') as <- by congruence; exact (message_elsewhere _ _ _ _ _ B)|].
    destruct (m_is_complete _); [unbind E; assert (y0 = j') as <- by congruence; exact (message_elsewhere _ _ _ _ _ B)|congruence].
Qed.

Section Run2.
  Variables (env : Env) (o : Options).
  Hypothesis H : host_ok env.
  Hypothesis HT : host_text env.
  Hypothesis OJ : o_output_type o = OutJSON.
  Let d := env_tmc env.

  Lemma service_line : forall w0 gs0 gs1 now g w c out p x y z, traffic_from p gs0 (gs1 ++ [(now, g, w)]) ->
    user_groups (app_items (g, w)) = [(x, y, z)] ->
    run_groups env o (Channel_new o w0) (gs0 ++ gs1 ++ [(now, g, w)]) = Ok (c, out) ->
    exists out' ln h0 s j0 s' j, out = out' ++ [Some ln] /\ (forall q, line_at q ln = option_map (value_of (env_float env)) (jget q j)) /\
      receiveUserGroup d (env_ucs2 env) s x y z j0 = Ok (s', j) /\ jget ["tmc"] j0 = None /\
      incl h0 (items_of gs0) /\ view_of s = fold_left (t_do d) (items_of gs1) (fold_left (t_do d) h0 v0) /\
      t_other_network_freqs s = [] /\ t_ps s = set_all (env_ucs2 env) (RDSString_new 8) (snd (fold_left (pp_do d) (h0 ++ items_of gs1) (v0, []))) /\
      x < 32 /\ y < 65536 /\ z < 65536.
  Proof.
    intros w0 gs0 gs1 now g w c out p x y z (F & Np & T3 & S & P & T8 & St) U E.
    destruct (user_group_of _ _ _ _ _ U) as (Ei & -> & Ht & Ty & Ex & Ey & Ez & R2 & R3 & R4).
    assert (Pg : carried_pi (now, g, 0) = Some p).
    { rewrite Forall_forall in P. apply (P (now, g, 0)); [apply in_or_app; right; left; reflexivity|]. cbn [fst snd]. rewrite Ei. discriminate. }
    assert (Rg : received_group (now, g, 0)). { rewrite Forall_forall in F. apply F. apply in_or_app. right. apply in_or_app. right. left. reflexivity. }
    destruct (last_shown (prov_inv env) env o H HT OJ (prov_new env) (prov_new_pi env) (prov_had env) (fun h st now c g w st' j I _ R _ D => prov_step env o h st now c g w st' j I R D) w0 gs0 gs1 now g 0 c out p F Np T3 S Pg E)
      as (old & h0 & out0 & out1 & ln & c1 & st & j & D0 & -> & L0 & L1 & I & So & B & _ & Dd & Sh & Pj & Ad).
    set (g' := prepared o now c1 g 0) in *.
    assert (Ty' : g_type g' = type_8A) by (unfold g'; rewrite prepared_type; exact Ty).
    assert (Ht' : g_has_type g' = true) by (unfold g'; rewrite prepared_has_type, Ht; reflexivity).
    assert (Od : oda_type g' = true) by (unfold oda_type; rewrite Ty'; reflexivity).
    specialize (Ad _ app_items P). rewrite (decoded_in_app gs1 [(now, g, 0)] out1 [Some ln] L1) in Ad. unfold groups_of in Ad. rewrite map_app, !flat_map_app in Ad.
    cbn [decoded_in combine flat_map app map fst snd] in Ad. rewrite ?app_nil_r in Ad. apply app_inv_tail in Ad. fold (groups_of gs1) in Ad. change (flat_map app_items (groups_of gs1)) with (items_of gs1) in Ad.
    assert (Ih : incl (items h0) (items_of gs0)).
    { intros i X. unfold items in X. apply in_flat_map in X. destruct X as (b & X1 & X2). unfold items_of. apply in_flat_map. exists b. split; [|exact X2]. apply (decoded_sub gs0 out0). rewrite D0. apply in_or_app. right. exact X1. }
    assert (Pl : Forall in_place (items h0) /\ Forall in_place (items_of gs1)).
    { pose proof (in_places _ T8 St) as Q. rewrite !items_of_app in Q. apply Forall_app in Q. destruct Q as [Q0 Q]. apply Forall_app in Q. destruct Q as [Q1 _]. split; [|exact Q1].
      rewrite Forall_forall in *. intros i X. apply Q0, Ih, X. }
    destruct I as ((_ & I) & _ & If & Ip0). unfold items in I, Ip0. rewrite flat_map_app, Ad in I, Ip0. fold (items h0) in I, Ip0. rewrite fold_left_app in I. destruct Pl as [Pl0 Pl1].
    assert (Ip1 : t_ps (st_tmc st) = set_all (env_ucs2 env) (RDSString_new 8) (snd (fold_left (pp_do d) (items h0 ++ items_of gs1) (v0, [])))) by exact (eq_trans Ip0 (f_equal _ (pp_fold (env_tmc env) (items h0 ++ items_of gs1) [] v0 [] settled_nil (proj2 (Forall_app _ _ _) (conj Pl0 Pl1))))).
    destruct (fold_left (ti_do (env_tmc env)) (items h0) ([], v0)) as [A0 v1] eqn:E0.
    assert (S0 : settled A0) by (change A0 with (fst (A0, v1)); rewrite <- E0; apply settled_all; [apply settled_nil|exact Pl0]).
    assert (V1 : v1 = fold_left (t_do (env_tmc env)) (items h0) v0) by (change v1 with (snd (A0, v1)); rewrite <- E0; apply plain_fold; [apply settled_nil|exact Pl0]).
    pose proof (plain_fold (env_tmc env) (items_of gs1) A0 v1 S0 Pl1) as V2. pose proof (settled_all (env_tmc env) (items_of gs1) A0 v1 S0 Pl1) as S2. rewrite <- I in V2, S2. cbn [fst snd] in V2, S2.
    assert (Tt : to_tmc (st_oda_app_for_group st) (g_type g') = true) by (rewrite S2, Ty'; reflexivity).
    unfold decoded in Dd. rewrite Ht', (dispatch_tmc env o (had st g') g' _ Od ltac:(rewrite had_oda; exact Tt)) in Dd. unfold receiveTMC in Dd.
    pose proof (items_prepared o now c1 g 0 Rg) as Ip. cbv zeta in Ip. fold g' in Ip. rewrite Ei, Ht', Ty' in Ip. cbn [negb orb gt_version gt_number type_8A Version_eqb N.eqb Pos.eqb andb] in Ip.
    destruct (g_has g' BLOCK2 && g_has g' BLOCK3 && g_has g' BLOCK4) eqn:Hb.
    2: { exfalso. rewrite <- !andb_assoc in Ip. rewrite <- andb_assoc in Hb. rewrite Hb, andb_false_r in Ip. discriminate Ip. }
    unbind Dd. destruct y0 as [s' j']. assert (j' = j) as -> by congruence.
    assert (G2 : g_get g' BLOCK2 = blk_data (g_b2 g)) by (unfold g'; rewrite prepared_get; reflexivity).
    assert (G3 : g_get g' BLOCK3 = blk_data (g_b3 g)) by (unfold g'; rewrite prepared_get; reflexivity).
    assert (G4 : g_get g' BLOCK4 = blk_data (g_b4 g)) by (unfold g'; rewrite prepared_get; reflexivity).
    rewrite G2, G3, G4, had_tmc in B0. assert (X5 : getBits 5 (blk_data (g_b2 g)) 0 = x) by (rewrite getBits_arith; change (2 ^ 0) with 1; rewrite N.div_1_r; change (2 ^ 5) with 32; congruence). rewrite X5, <- Ey, <- Ez in B0.
    assert (Rw : raw_group st g' = false).
    { unfold raw_group. cbv zeta. rewrite Ty'. unfold to_tmc in Tt. rewrite Ty' in Tt. destruct (find_type type_8A (st_oda_app_for_group st)) as [a|]; [|reflexivity].
      unfold is_tmc in Tt. apply orb_prop in Tt. destruct Tt as [Tt|Tt]; apply N.eqb_eq in Tt; subst a; reflexivity. }
    exists (out0 ++ out1), ln, (items h0), (st_tmc st), (JObj (header env o st g')), s', j. split; [apply app_assoc|]. split; [exact (Sh (or_introl Rw))|]. split; [exact B0|].
    split; [cbn [jget]; rewrite (header_no env o st g' "tmc" B eq_refl); reflexivity|]. split; [exact Ih|]. split; [rewrite V2, V1; reflexivity|]. split; [exact If|]. split; [exact Ip1|].
    destruct Rg as (_ & _ & _ & Q3 & Q4). split; [rewrite Ex; apply N.mod_lt; discriminate|]. rewrite Ey, Ez. split; assumption.
  Qed.

  Lemma administration_line : forall w0 gs0 gs1 now g w c out p y z, traffic_from p gs0 (gs1 ++ [(now, g, w)]) ->
    tmc_started (items_of gs1) -> user_groups (app_items (g, w)) = [(0, y, z)] ->
    run_groups env o (Channel_new o w0) (gs0 ++ gs1 ++ [(now, g, w)]) = Ok (c, out) ->
    exists out' line, out = out' ++ [Some line] /\ administration_shown line y z.
  Proof.
    intros w0 gs0 gs1 now g w c out p y z T St U E. destruct (service_line _ _ _ _ _ _ _ _ _ _ _ _ T U E) as (out' & ln & h0 & s & j0 & s' & j & -> & L & R & J0 & _ & V & Fr & _ & Hx & Hy & Hz).
    exists out', ln. split; [reflexivity|]. apply (admin_shown env d (env_ucs2 env) s y z j0 s' j ln); try assumption. change (t_is_initialized s) with (v_init (view_of s)). rewrite V. apply started. exact St.
  Qed.
  Lemma network_line : forall w0 gs0 gs1 now g w c out p x y z, traffic_from p gs0 (gs1 ++ [(now, g, w)]) ->
    tmc_started (items_of gs1) -> user_groups (app_items (g, w)) = [(x, y, z)] -> 16 <= x ->
    run_groups env o (Channel_new o w0) (gs0 ++ gs1 ++ [(now, g, w)]) = Ok (c, out) ->
    exists out' line, out = out' ++ [Some line] /\ network_shown line x y z.
  Proof.
    intros w0 gs0 gs1 now g w c out p x y z T St U X E. destruct (service_line _ _ _ _ _ _ _ _ _ _ _ _ T U E) as (out' & ln & h0 & s & j0 & s' & j & -> & L & R & J0 & _ & V & Fr & _ & Hx & Hy & Hz).
    exists out', ln. split; [reflexivity|]. apply (tuning_shown env d (env_ucs2 env) s x y z j0 s' j ln); try assumption; [|split; assumption]. change (t_is_initialized s) with (v_init (view_of s)). rewrite V. apply started. exact St.
  Qed.
  Lemma provider_line : forall w0 gs0 gs1 now g w c out p x y z l1 l2 earlier l, traffic_from p gs0 (gs1 ++ [(now, g, w)]) ->
    items_of (gs1 ++ [(now, g, w)]) = l1 ++ l2 -> tmc_started l1 -> user_groups (app_items (g, w)) = [(x, y, z)] -> x = 20 \/ x = 21 ->
    provider_writes l2 = earlier ++ place 0 l -> length l = 8%nat -> ~ In end_of_text l ->
    run_groups env o (Channel_new o w0) (gs0 ++ gs1 ++ [(now, g, w)]) = Ok (c, out) ->
    exists out' line, out = out' ++ [Some line] /\ says line ["tmc"; "service_provider"] (VStr (rds_text l)).
  Proof.
    intros w0 gs0 gs1 now g w c out p x y z l1 l2 earlier l T El St U X W Ln Ne E. destruct (service_line _ _ _ _ _ _ _ _ _ _ _ _ T U E) as (out' & ln & h0 & s & j0 & s' & j & -> & L & R & J0 & Ih & V & Fr & Ps & Hx & Hy & Hz).
    exists out', ln. split; [reflexivity|]. unfold says. rewrite L, (provider_field _ _ _ _ _ _ _ _ _ Hx Hy Hz R J0), Ps.
    assert (F : Forall item_ok (items_of gs0 ++ items_of (gs1 ++ [(now, g, w)]))). { rewrite <- items_of_app. apply all_items_ok. apply T. }
    apply Forall_app in F. destruct F as [F0 F1].
    destruct (user_group_of _ _ _ _ _ U) as (Ei & _).
    assert (Lst : exists r, l2 = r ++ app_items (g, w) /\ items_of gs1 = l1 ++ r).
    { rewrite items_of_app in El. unfold items_of in El at 2. cbn [groups_of map flat_map fst snd] in El. rewrite app_nil_r, Ei in El.
      destruct l2 as [|i l2'] using rev_ind; [exfalso; cbn in W; destruct l as [|a l]; [discriminate Ln|destruct earlier; discriminate W]|].
      rewrite app_assoc in El. apply app_inj_tail in El. destruct El as [El <-]. exists l2'. rewrite Ei. split; [reflexivity|exact El]. }
    destruct Lst as (r & -> & Eg). rewrite provider_app in W.
    assert (Pw : provider_writes (app_items (g, w)) = provider_part (x, y, z)). { unfold provider_writes. rewrite U. cbn [flat_map]. apply app_nil_r. } rewrite Pw in W.
    assert (I : v_init (view_of s) = true). { rewrite V, Eg, fold_left_app. apply init_fold, started, St. } change (v_init (view_of s)) with (t_is_initialized s) in I. rewrite I.
    replace ((x =? 20) || (x =? 21)) with true by lia. cbn [andb].
    assert (Ws : exists ws0, Forall (fun pb => fst pb < 8 /\ snd pb < 256) ws0 /\ snd (fold_left (pp_do d) (h0 ++ items_of gs1) (v0, [])) = ws0 ++ provider_writes r).
    { rewrite Eg, app_assoc, fold_left_app. remember (fold_left (pp_do d) (h0 ++ l1) (v0, [])) as q eqn:Eq. destruct q as [vq wq]. exists wq.
      split; [|apply pp_init; change vq with (fst (vq, wq)); rewrite Eq, pp_fst, fold_left_app; apply started, St].
      change wq with (snd (vq, wq)). rewrite Eq. destruct (pp_suffix d (h0 ++ l1) v0) as [pre Q].
      assert (Fo : Forall item_ok (h0 ++ l1)).
      { apply Forall_app. split; [rewrite Forall_forall in F0 |- *; intros i Xi; apply F0, Ih, Xi|]. rewrite El in F1. apply Forall_app in F1. exact (proj1 F1). }
      pose proof (provider_ok _ Fo) as Q2. rewrite Q in Q2. apply Forall_app in Q2. exact (proj2 Q2). }
    destruct Ws as (ws0 & Fw & ->). rewrite <- set_all_app, <- app_assoc, W, app_assoc, set_all_app.
    assert (Fl : Forall (fun pb => fst pb < 8 /\ snd pb < 256) (earlier ++ place 0 l)).
    { rewrite <- W, <- Pw, <- provider_app. apply provider_ok. rewrite El in F1. apply Forall_app in F1. exact (proj2 F1). }
    apply Forall_app in Fl. destruct Fl as [Fe Fp].
    assert (Fb : Forall (fun b => b < 256) l). { clear - Fp. revert Fp. generalize 0. induction l as [|b l IH]; intros n Fp; constructor; cbn [place] in Fp; apply Forall_cons_iff in Fp; destruct Fp as [A B]; [apply A|exact (IH _ B)]. }
    destruct (run_full (env_ucs2 env) 8 (set_all (env_ucs2 env) (RDSString_new 8) (ws0 ++ earlier)) l) as [C1 C2]; try assumption.
    - eapply tracks_sized. apply (set_all_tracks (env_ucs2 env) 8 _ (RDSString_new 8) []); [apply new_tracks|]. apply Forall_app. split; assumption.
    - rewrite set_all_encoding. reflexivity.
    - lia.
    - rewrite Ln. reflexivity.
    - rewrite C1, C2. reflexivity.
  Qed.
End Run2.

(* A name that is shown is complete *)
Lemma provider_complete : forall env o w0 gs now g w c out line v, host_ok env -> o_output_type o = OutJSON -> Forall received_group (gs ++ [(now, g, w)]) ->
  tmc_in_8A (items_of (gs ++ [(now, g, w)])) -> stays_tmc (items_of (gs ++ [(now, g, w)])) ->
  run_groups env o (Channel_new o w0) (gs ++ [(now, g, w)]) = Ok (c, out ++ [Some line]) -> says line ["tmc"; "service_provider"] v ->
  exists l, complete_text 8 (provider_writes (flat_map app_items (decoded_in (gs ++ [(now, g, w)]) (out ++ [Some line])))) l /\ v = VStr (rds_text l).
Proof.
  intros env o w0 gs now g w c out line v H OJ F T8 St E Lv. destruct (host_env env H) as [Ee _].
  destruct (last_group (prov_inv env) env o H OJ (prov_new env) (prov_new_pi env) (prov_had env) (fun h st now c g w st' j I _ R _ D => prov_step env o h st now c g w st' j I R D) gs now g w w0 c out line F E)
    as (old & h & st & c1 & j & D & I & So & Dd & Pj & B & _ & _).
  set (g' := prepared o now c1 g w) in *. unfold says in Lv. pose proof (says_all env j line "tmc" ["service_provider"] v H Pj ltac:(discriminate) Lv) as Sh.
  assert (Nm : jget ["tmc"; "service_provider"] j <> None). { intros X. rewrite Sh, X in Lv. discriminate. }
  destruct (member_from "service_provider" eq_refl env o st g' _ j Ee So B Dd Nm) as (Ht & Od & Tt & Hb & s' & Ru & Hn).
  assert (Rg : received_group (now, g, w)) by (apply Forall_app in F; destruct F as [_ F2]; inversion F2; assumption).
  assert (Sub : incl (items (h ++ [(g, w)])) (items_of (gs ++ [(now, g, w)]))).
  { intros i X. apply (sub_groups _ (out ++ [Some line])). rewrite D. unfold items in *. rewrite flat_map_app. apply in_or_app. right. exact X. }
  assert (Sub' : incl (items h) (items_of (gs ++ [(now, g, w)]))). { intros i X. apply Sub. unfold items. rewrite flat_map_app. apply in_or_app. left. exact X. }
  pose proof (in_places _ T8 St) as Pl. assert (Plh : Forall in_place (items h)) by (apply (sub_ok _ _ _ Sub' Pl)).
  destruct I as ((_ & I) & _ & If & Ip). pose proof (settled_all (env_tmc env) (items h) [] v0 settled_nil Plh) as Ss. rewrite <- I in Ss. cbn [fst snd] in Ss.
  assert (Ip1 : t_ps (st_tmc st) = set_all (env_ucs2 env) (RDSString_new 8) (snd (fold_left (pp_do (env_tmc env)) (items h) (v0, [])))) by exact (eq_trans Ip (f_equal _ (pp_fold (env_tmc env) (items h) [] v0 [] settled_nil Plh))). clear Ip. rename Ip1 into Ip.
  rewrite Ss in Tt. apply type_eqb_eq in Tt.
  assert (Ei : user_groups (app_items (g, w)) = [(g_get g' BLOCK2 mod 32, g_get g' BLOCK3, g_get g' BLOCK4)]).
  { rewrite (items_prepared o now c1 g w Rg). cbv zeta. fold g'. rewrite Ht, Tt. cbn [negb orb gt_version gt_number type_8A Version_eqb N.eqb Pos.eqb andb]. rewrite <- !andb_assoc in *. rewrite Hb. reflexivity. }
  assert (Hy : g_get g' BLOCK3 < 65536). { destruct Rg as (_ & _ & _ & R3 & _). unfold g'. rewrite prepared_get. destruct (w =? 0); cbn; exact R3 || lia. }
  assert (Hz : g_get g' BLOCK4 < 65536). { destruct Rg as (_ & _ & _ & _ & R4). unfold g'. rewrite prepared_get. destruct (w =? 0); cbn; exact R4 || lia. }
  rewrite get5 in Ru. pose proof (provider_field _ _ _ _ _ _ _ _ _ (N.mod_lt _ 32 ltac:(discriminate)) Hy Hz Ru Hn) as Pf.
  assert (Pw : provider_writes (app_items (g, w)) = provider_part (g_get g' BLOCK2 mod 32, g_get g' BLOCK3, g_get g' BLOCK4)). { unfold provider_writes. rewrite Ei. cbn [flat_map]. apply app_nil_r. }
  rewrite <- Pw in Pf. rewrite Ip in Pf.
  destruct (pp_suffix (env_tmc env) (items h) v0) as [pre Sf]. remember (snd (fold_left (pp_do (env_tmc env)) (items h) (v0, []))) as ws eqn:Ews.
  assert (Wok : Forall (fun pb => fst pb < 8 /\ snd pb < 256) (ws ++ provider_writes (app_items (g, w)))).
  { pose proof (provider_ok _ (sub_ok _ _ _ Sub (all_items_ok _ F))) as Q. unfold items in Q. rewrite flat_map_app, provider_app in Q. fold (items h) in Q. rewrite Sf in Q. cbn [flat_map] in Q. rewrite app_nil_r in Q.
    apply Forall_app in Q. destruct Q as [Q1 Q2]. apply Forall_app in Q1. apply Forall_app. split; [apply Q1|exact Q2]. }
  pose proof (set_all_tracks (env_ucs2 env) 8 _ (RDSString_new 8) [] (new_tracks 8) Wok) as T. cbn [app] in T.
  pose proof Wok as Wok'. apply Forall_app in Wok'. destruct Wok' as [W1 W2].
  pose proof (set_all_tracks (env_ucs2 env) 8 _ (RDSString_new 8) [] (new_tracks 8) W1) as T1.
  rewrite <- set_all_app in Pf. remember (set_all (env_ucs2 env) (RDSString_new 8) (ws ++ provider_writes (app_items (g, w)))) as s2 eqn:Es.
  destruct (t_is_initialized (st_tmc st) && _ && s_isComplete s2) eqn:Cd; [|congruence]. apply andb_prop in Cd. destruct Cd as [Cd Cp]. apply andb_prop in Cd. destruct Cd as [_ Cx].
  exists (shown_bytes s2). split.
  - rewrite D, flat_map_app, provider_app. apply complete_earlier. rewrite flat_map_app, provider_app. fold (items h). rewrite Sf. cbn [flat_map]. rewrite app_nil_r, <- app_assoc. apply complete_earlier. apply complete_spec; [exact T|lia|exact Cp].
  - rewrite Sh, Pf in Lv. cbn [option_map value_of] in Lv. pose proof (complete_str (env_ucs2 env) s2 (proj2 (tracks_sized _ _ _ T)) Cp) as X.
    assert (En : s_encoding s2 = EncBasic) by (rewrite Es, set_all_encoding; reflexivity). rewrite En in X.
    assert (Y : s_str (env_ucs2 env) s2 = Some (s_last_complete_string s2)).
    { rewrite Es, set_all_app in Cp |- *. eapply (set_all_last _ 8); [|lia| |exact W2|exact Cp]; [eapply tracks_sized; exact T1|]. rewrite Pw. unfold provider_part. rewrite Cx. discriminate. }
    rewrite Y in X. assert (s_last_complete_string s2 = rds_text (shown_bytes s2)) as Z by congruence. rewrite Z in Lv. congruence.
Qed.
