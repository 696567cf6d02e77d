(* The whole transparent data channel (C81). *)
From Verif.Model Require Import Util Group Options Tables Json RdsString Tmc Station Channel.
From Verif.Spec Require Import Unicode JsonText Session Identity History Quality Texts Labels Transparent.
From Verif.Proofs Require Import Tac Numerals JsonP Utf8P Schema StationP TextP CleanP UpdateP SessionP LineP FrameP ChannelP LinesP HistoryP ShowP TraceP KeysP GetP StringP PsP RtP EndP LpsP DataP EonP.

Local Open Scope string_scope.
Local Open Scope N_scope.
Local Open Scope list_scope.

#[local] Strategy 1000 [set_all s_set s_isComplete s_str s_last_complete_string header].

Definition t5A : GroupType := mkGroupType 5 VA.
Definition tdc_is (g : Group) : bool :=
  g_has_type g && (gt_number (g_type g) =? 5) && Version_eqb (gt_version (g_type g)) VA.
Lemma tdc_type : forall g, tdc_is g = true -> g_type g = t5A.
Proof.
  intros g H. unfold tdc_is in H. apply andb_prop in H. destruct H as [H Hv]. apply andb_prop in H. destruct H as [_ Hn]. apply N.eqb_eq in Hn.
  destruct (g_type g) as [n []]; try discriminate Hv. cbn [gt_number] in Hn. subst. reflexivity.
Qed.
Definition tdc_seg (g : Group) : Texts.writes :=
  place (4 * getBits 5 (g_get g BLOCK2) 0) [getUint8 (g_get g BLOCK3) 8; getUint8 (g_get g BLOCK3) 0; getUint8 (g_get g BLOCK4) 8; getUint8 (g_get g BLOCK4) 0].
Lemma tdc_prepared : forall o now c g w, received_group (now, g, w) -> let g' := prepared o now c g w in
  data_segment (g, w) = if tdc_is g' then tdc_seg g' else [].
Proof.
  intros o now c g w (_ & R1 & R2 & R3 & R4) g'. unfold data_segment, tdc_is, tdc_seg, g'.
  rewrite !prepared_type, !prepared_has_type, !prepared_get. destruct (w =? 0) eqn:Ew; cbn [andb].
  2: { cbn [gt_number gt_version Version_eqb N.eqb]. rewrite ?andb_false_r. reflexivity. }
  destruct (g_has_type g && (gt_number (g_type g) =? 5) && Version_eqb (gt_version (g_type g)) VA); [|reflexivity].
  unfold g_get. cbn [g_block].
  destruct (hi_bits _ R4) as [-> _]. destruct (lo_bits (blk_data (g_b4 g))) as [-> _]. destruct (hi_bits _ R3) as [-> _]. destruct (lo_bits (blk_data (g_b3 g))) as [-> _].
  rewrite getBits_arith. change (2 ^ 0) with 1. change (2 ^ 5) with 32. rewrite N.div_1_r. reflexivity.
Qed.
Lemma tdc_ok : forall h, Forall (fun x => received_group (0%Z, fst x, snd x)) h -> Forall (fun pb => fst pb < 128 /\ snd pb < 256) (flat_map data_segment h).
Proof.
  intros h F. apply Forall_flat_map. eapply Forall_impl; [|exact F]. intros [g w] (_ & R1 & R2 & R3 & R4). cbn [fst snd] in *. unfold data_segment.
  destruct ((w =? 0) && _ && _ && _); [|constructor]. pose proof (N.mod_lt (blk_data (g_b2 g)) 32 ltac:(discriminate)).
  destruct (hi_bits _ R4) as [_ X1]. destruct (lo_bits (blk_data (g_b4 g))) as [_ X2]. destruct (hi_bits _ R3) as [_ X3]. destruct (lo_bits (blk_data (g_b3 g))) as [_ X4].
  apply place_ok; [cbn [length]; lia|]. repeat constructor; assumption.
Qed.

Lemma type5_full : forall env st g j0 st' j, decodeType5 env st g j0 = Ok (st', j) -> gt_version (g_type g) = VA ->
  s_encoding (st_full_tdc st) = EncBasic -> (forall k, jget (tdata k) j0 = None) ->
  let full := set_all (env_ucs2 env) (st_full_tdc st) (tdc_seg g) in
  st_full_tdc st' = full /\
  jget (tdata "full_text") j = (if s_isComplete full then option_map JStr (s_str (env_ucs2 env) full) else None) /\
  jget (tdata "full_raw") j = (if s_isComplete full then Some (JStr (join (map (getHexString 2) (s_getData full)) [32])) else None).
Proof.
  intros env st g j0 st' j D V En Ab full. unfold decodeType5 in D. cbv zeta in D. rewrite V in D. cbn [Version_eqb] in D.
  remember (getUint8 (g_get g BLOCK3) 8) as a eqn:Ea. remember (getUint8 (g_get g BLOCK3) 0) as b eqn:Eb. remember (getUint8 (g_get g BLOCK4) 8) as c eqn:Ec. remember (getUint8 (g_get g BLOCK4) 0) as d eqn:Ed.
  remember (getBits 5 (g_get g BLOCK2) 0) as ad eqn:Ead.
  assert (Fu : s_set2 (env_ucs2 env) (s_set2 (env_ucs2 env) (st_full_tdc st) (ad * 4) a b) (ad * 4 + 2) c d = full).
  { unfold full, tdc_seg, set_all, s_set2. rewrite <- Ea, <- Eb, <- Ec, <- Ed, <- Ead. cbn [place fold_left fst snd].
    rewrite (N.mul_comm 4 ad). replace (ad * 4 + 2 + 1) with (ad * 4 + 1 + 1 + 1) by lia. replace (ad * 4 + 2) with (ad * 4 + 1 + 1) by lia. reflexivity. }
  rewrite Fu in D. assert (Ef : s_encoding full = EncBasic) by (unfold full; rewrite set_all_encoding; exact En). clearbody full. clear Fu.
  remember (s_set2 _ (s_set2 _ (RDSString_new 4) _ _ _) _ _ _) as dec eqn:Xd in D. clear Xd.
  unbind D. unbind D. unbind D. unbind D. unbind D. assert (y3 = j) as -> by congruence.
  split; [assert (st' = set_full_tdc st full) as -> by congruence; reflexivity|]. clear D.
  assert (N0 : forall k, In k ["full_text"; "full_raw"] -> jget (tdata k) y0 = None).
  { intros k K. destruct K as [<-|[<-|[]]].
    - rewrite (jset_other _ _ _ _ _ B0) by reflexivity. rewrite (jset_other _ _ _ _ _ B) by reflexivity. apply Ab.
    - rewrite (jset_other _ _ _ _ _ B0) by reflexivity. rewrite (jset_other _ _ _ _ _ B) by reflexivity. apply Ab. }
  rewrite !(jset_other _ _ _ _ _ B3) by reflexivity.
  destruct (s_isComplete full).
  2: { assert (y1 = y0) as -> by congruence. split; apply N0; cbn; tauto. }
  unbind B1. unbind B1. unfold str_basic in B4. destruct (s_str (env_ucs2 env) full) as [t|]; [|discriminate]. assert (y3 = t) as -> by congruence.
  split; [rewrite (jset_other _ _ _ _ _ B1) by reflexivity; exact (jset_same _ _ _ _ B5)|exact (jset_same _ _ _ _ B1)].
Qed.

Lemma full_absent : forall j0 k, jget ["transparent_data"] j0 = None -> jget (tdata k) j0 = None.
Proof. intros j0 k. unfold tdata. cbn [jget]. destruct j0; try discriminate; intros X; try reflexivity. destruct (obj_find "transparent_data" m) as [x|]; [discriminate|reflexivity]. Qed.
Lemma type5_B_same : forall env st g j0 st' j, decodeType5 env st g j0 = Ok (st', j) -> gt_version (g_type g) <> VA ->
  st' = st /\ exists y0 y1 x0 x1 x2, jset (tdata "address") x0 j0 = Ok y0 /\ jset (tdata "raw") x1 y0 = Ok y1 /\ jset (tdata "as_text") x2 y1 = Ok j.
Proof.
  intros env st g j0 st' j D V. unfold decodeType5 in D. cbv zeta in D.
  replace (Version_eqb (gt_version (g_type g)) VA) with false in D by (destruct (gt_version (g_type g)); [exfalso; apply V; reflexivity|reflexivity|reflexivity]).
  unbind D. unbind D. unbind D. unbind D. assert (y2 = j) as -> by congruence. split; [congruence|]. do 5 eexists. split; [exact B|]. split; [exact B0|exact B2].
Qed.
Lemma type5_B_full : forall env st g j0 st' j, decodeType5 env st g j0 = Ok (st', j) -> gt_version (g_type g) <> VA ->
  (forall k, jget (tdata k) j0 = None) -> jget (tdata "full_text") j = None /\ jget (tdata "full_raw") j = None.
Proof.
  intros env st g j0 st' j D V Ab. apply type5_B_same in D; [|exact V]. destruct D as (_ & y0 & y1 & x0 & x1 & x2 & B & B0 & B2).
  split; (rewrite (jset_other _ _ _ _ _ B2) by reflexivity; rewrite (jset_other _ _ _ _ _ B0) by reflexivity; rewrite (jset_other _ _ _ _ _ B) by reflexivity; apply Ab).
Qed.

Lemma type5_cases : forall env o st g st' j, decoded env o st g = Ok (st', j) ->
  (tdc_is g = true /\ find_type t5A (st_oda_app_for_group st) = None /\ decodeType5 env (had st g) g (JObj (header env o st g)) = Ok (st', j)) \/
  ((tdc_is g = false \/ find_type t5A (st_oda_app_for_group st) <> None) /\ st_full_tdc st' = st_full_tdc st /\
   ((g_has_type g = true -> existsb (String.eqb "transparent_data") (type_keys o st g) = false) \/
    gt_version (g_type g) <> VA /\ decodeType5 env (had st g) g (JObj (header env o st g)) = Ok (st', j))).
Proof.
  intros env o st g st' j D. pose proof (decoded_frame env o st g _ D) as Fr. cbn [fst] in Fr. destruct Fr as (_ & _ & _ & _ & _ & _ & _ & Fp & _).
  assert (Hp : st_full_tdc (had st g) = st_full_tdc st) by (unfold had; destruct (_ || _); reflexivity).
  destruct (g_has_type g) eqn:Ht.
  2: { right. unfold tdc_is. rewrite Ht. split; [left; reflexivity|split; [rewrite Fp by reflexivity; exact Hp|left; discriminate]]. }
  assert (Hf : (tdc_is g = true /\ find_type t5A (st_oda_app_for_group st) = None) \/ (tdc_is g = false \/ find_type t5A (st_oda_app_for_group st) <> None)).
  { destruct (tdc_is g); [|right; left; reflexivity]. destruct (find_type _ _) as [a|]; [right; right; discriminate|left; auto]. }
  destruct Hf as [[Is Fi]|No].
  - left. split; [exact Is|]. split; [exact Fi|]. pose proof (tdc_type g Is) as Ty. unfold decoded in D. rewrite Ht in D. unfold decodeByType in D. cbv zeta in D.
    rewrite had_oda, Ty in D. change (gt_number t5A) with 5 in D. change (gt_version t5A) with VA in D. cbn [N.eqb Pos.eqb Version_eqb andb] in D. rewrite Fi in D. exact D.
  - right. split; [exact No|].
    assert (No' : (gt_number (g_type g) =? 5) && Version_eqb (gt_version (g_type g)) VA = false \/ g_type g = t5A /\ find_type t5A (st_oda_app_for_group st) <> None).
    { destruct No as [No|No]; [left; unfold tdc_is in No; rewrite Ht in No; exact No|]. destruct (_ && _) eqn:Is; [|left; reflexivity]. right. split; [|exact No]. apply tdc_type. unfold tdc_is. rewrite Ht. exact Is. }
    destruct No' as [No'|[Ty Nf]].
    + destruct (gt_number (g_type g) =? 5) eqn:N5; cbn [andb] in No'.
      * apply N.eqb_eq in N5. destruct (find_type (g_type g) (st_oda_app_for_group st)) as [a|] eqn:Fi.
        -- split; [rewrite Fp; [exact Hp|]; unfold off, group_fields, app_fields; cbv zeta; rewrite had_oda, Fi, N5; by_cases|].
           left. intros _. unfold type_keys, app_keys. cbv zeta. rewrite Fi, N5. by_cases.
        -- destruct (gt_version (g_type g)) eqn:Ev; [discriminate| |].
           ++ assert (D0 : decodeType5 env (had st g) g (JObj (header env o st g)) = Ok (st', j)).
              { unfold decoded in D. rewrite Ht in D. unfold decodeByType in D. cbv zeta in D. rewrite had_oda, Ev, N5 in D. cbn [N.eqb Pos.eqb Version_eqb andb] in D. rewrite Fi in D. exact D. }
              split; [destruct (type5_B_same _ _ _ _ _ _ D0) as [-> _]; [rewrite Ev; discriminate|exact Hp]|]. right. split; [discriminate|exact D0].
           ++ split; [rewrite Fp; [exact Hp|]; unfold off, group_fields, app_fields; cbv zeta; rewrite Ev; reflexivity|].
              left. intros _. unfold type_keys. cbv zeta. rewrite Ev. reflexivity.
      * split; [rewrite Fp; [exact Hp|]; unfold off, group_fields, app_fields; cbv zeta; rewrite N5; by_cases|].
        left. intros _. unfold type_keys, app_keys. cbv zeta. rewrite N5. by_cases.
    + split.
      * rewrite Fp; [exact Hp|]. unfold off, group_fields, app_fields. cbv zeta. rewrite had_oda, Ty. destruct (find_type t5A _) as [a|]; [|congruence]. change (gt_number t5A) with 5. change (gt_version t5A) with VA. cbn [Version_eqb N.eqb Pos.eqb]. by_cases.
      * left. intros _. unfold type_keys, app_keys. cbv zeta. rewrite Ty. destruct (find_type t5A _) as [a|]; [|congruence]. change (gt_number t5A) with 5. change (gt_version t5A) with VA. cbn [Version_eqb N.eqb Pos.eqb andb]. by_cases.
Qed.

Lemma had_tdc : forall st g, st_full_tdc (had st g) = st_full_tdc st.
Proof. intros st g. unfold had. destruct (_ || _); reflexivity. Qed.
Definition tdc_writes (h : list (Group * N)) : Texts.writes := flat_map data_segment h.
Definition tdc_inv (u : bytes -> option bytes) (h : list (Group * N)) (st : Station) : Prop :=
  Forall (fun x => received_group (0%Z, fst x, snd x)) h /\ oda_inv h st /\
  (not_announced t5A h -> st_full_tdc st = set_all u (RDSString_new 128) (tdc_writes h)).

Lemma td_absent : forall env o st g k, bler_ok g -> jget (tdata k) (JObj (header env o st g)) = None.
Proof. intros env o st g k B. apply full_absent. exact (conf_get _ _ _ "transparent_data" (header_absent env o st g "transparent_data" B eq_refl) eq_refl). Qed.
Lemma tdc_full : forall env o st g st' j, st_ok st -> bler_ok g -> tdc_is g = true ->
  decodeType5 env (had st g) g (JObj (header env o st g)) = Ok (st', j) ->
  let full := set_all (env_ucs2 env) (st_full_tdc st) (tdc_seg g) in
  st_full_tdc st' = full /\
  jget (tdata "full_text") j = (if s_isComplete full then option_map JStr (s_str (env_ucs2 env) full) else None) /\
  jget (tdata "full_raw") j = (if s_isComplete full then Some (JStr (join (map (getHexString 2) (s_getData full)) [32])) else None).
Proof.
  intros env o st g st' j So B Is D. rewrite <- (had_tdc st g). apply (type5_full env (had st g) g _ st' j D).
  - rewrite (tdc_type g Is). reflexivity.
  - rewrite had_tdc. apply So.
  - intros k. apply td_absent. exact B.
Qed.

Lemma tdc_step : forall env o h st now c g w st' j, tdc_inv (env_ucs2 env) h st -> st_ok st -> received_group (now, g, w) ->
  bler_ok (prepared o now c g w) -> decoded env o st (prepared o now c g w) = Ok (st', j) -> tdc_inv (env_ucs2 env) (h ++ [(g, w)]) st'.
Proof.
  intros env o h st now c g w st' j (F & Io & I) So R B D. pose proof (oda_step env o h st now c g w st' j Io R D) as Io'. set (g' := prepared o now c g w) in *.
  split; [apply Forall_app; split; [exact F|constructor; [exact R|constructor]]|]. split; [exact Io'|].
  intros Na. apply not_announced_app in Na. destruct Na as [Na _].
  assert (P : tdc_writes (h ++ [(g, w)]) = tdc_writes h ++ data_segment (g, w)) by (unfold tdc_writes; rewrite flat_map_app; cbn [flat_map]; rewrite app_nil_r; reflexivity).
  rewrite P, set_all_app, <- (I Na), (tdc_prepared o now c g w R). cbv zeta. fold g'.
  destruct (type5_cases env o st g' st' j D) as [(Is & _ & D0)|(No & Ps & _)].
  - rewrite Is. exact (proj1 (tdc_full env o st g' st' j So B Is D0)).
  - rewrite Ps. destruct No as [->|No]; [reflexivity|]. exfalso. apply No. apply (proj1 (not_announced_none t5A h st Io) Na).
Qed.
Lemma tdc_new : forall u w, tdc_inv u [] (Station_new w).
Proof. intros u w. split; [constructor|]. split; [reflexivity|]. intros _. reflexivity. Qed.
Lemma tdc_new_pi : forall u w p, tdc_inv u [] (Station_new_pi w p).
Proof. intros u w p. split; [constructor|]. split; [reflexivity|]. intros _. reflexivity. Qed.
Lemma tdc_had : forall u h st g, tdc_inv u h st -> tdc_inv u h (had st g).
Proof. intros u h st g (F & Io & I). split; [exact F|]. split; [unfold oda_inv in *; rewrite had_oda; exact Io|]. intros Na. rewrite had_tdc. exact (I Na). Qed.

Lemma tdc_complete : forall env o w0 gs now g w c out line, host_ok env -> o_output_type o = OutJSON -> Forall received_group (gs ++ [(now, g, w)]) ->
  run_groups env o (Channel_new o w0) (gs ++ [(now, g, w)]) = Ok (c, out ++ [Some line]) ->
  line_at ["transparent_data"; "full_text"] line = None /\ line_at ["transparent_data"; "full_raw"] line = None \/
  exists l t, complete_text 128 (flat_map data_segment (decoded_in (gs ++ [(now, g, w)]) (out ++ [Some line]))) l /\ data_segment (g, w) <> [] /\
    hex_bytes (map visible l) t /\
    (forall v, says line ["transparent_data"; "full_text"] v -> v = VStr (rds_text l)) /\ (forall v, says line ["transparent_data"; "full_raw"] v -> v = VStr t).
Proof.
  intros env o w0 gs now g w c out line H OJ F E. destruct (host_env env H) as [Ee _].
  destruct (last_group (tdc_inv (env_ucs2 env)) env o H OJ (tdc_new _) (tdc_new_pi _) (tdc_had _) (fun h st now c g w st' j => tdc_step env o h st now c g w st' j) gs now g w w0 c out line F E)
    as (old & h & st & c1 & j & D & I & So & Dd & Pj & B & Hc & _).
  set (g' := prepared o now c1 g w) in *.
  assert (Sd : forall k v, says line (tdata k) v -> option_map (value_of (env_float env)) (jget (tdata k) j) = Some v) by (intros k v S; apply (says_decoded env j line "transparent_data" [k] v H Pj ltac:(discriminate) S)).
  assert (R : received_group (now, g, w)) by (apply Forall_app in F; destruct F as [_ F2]; inversion F2; assumption).
  change ["transparent_data"; "full_text"] with (tdata "full_text"). change ["transparent_data"; "full_raw"] with (tdata "full_raw").
  assert (Non : jget (tdata "full_text") j = None /\ jget (tdata "full_raw") j = None -> line_at (tdata "full_text") line = None /\ line_at (tdata "full_raw") line = None).
  { intros [X Y]. split.
    - destruct (line_at (tdata "full_text") line) as [v|] eqn:S; [|reflexivity]. apply Sd in S. rewrite X in S. discriminate.
    - destruct (line_at (tdata "full_raw") line) as [v|] eqn:S; [|reflexivity]. apply Sd in S. rewrite Y in S. discriminate. }
  destruct (type5_cases env o st g' _ j Dd) as [(Is & Fi & D0)|(_ & _ & [No|[Vn D0]])].
  2: { left. apply Non. pose proof (decoded_absent env o st g' _ j "transparent_data" Ee So B Dd eq_refl No) as Ab. split; apply full_absent; exact Ab. }
  2: { left. apply Non. apply (type5_B_full _ _ _ _ _ _ D0 Vn). intros k. apply td_absent. exact B. }
  destruct I as (Fh & Io & I). specialize (I (proj2 (not_announced_none t5A h st Io) Fi)).
  destruct (tdc_full env o st g' _ j So B Is D0) as (_ & J1 & J2).
  pose proof (tdc_prepared o now c1 g w R) as Sg. cbv zeta in Sg. fold g' in Sg. rewrite Is in Sg. rewrite <- Sg, I in J1, J2.
  assert (Fd : Forall (fun x => received_group (0%Z, fst x, snd x)) (h ++ [(g, w)])) by (apply Forall_app; split; [exact Fh|constructor; [exact R|constructor]]).
  pose proof (tdc_ok _ Fd) as Wok. rewrite flat_map_app in Wok. cbn [flat_map] in Wok. rewrite app_nil_r in Wok. fold (tdc_writes h) in Wok.
  pose proof (set_all_tracks (env_ucs2 env) 128 _ _ [] (new_tracks 128) Wok) as T. cbn [app] in T. rewrite set_all_app in T.
  remember (set_all (env_ucs2 env) (RDSString_new 128) (tdc_writes h)) as s0 eqn:Es0.
  remember (set_all (env_ucs2 env) s0 (data_segment (g, w))) as s' eqn:Es'.
  destruct (s_isComplete s') eqn:Cp; [|left; apply Non; auto]. right.
  assert (En : s_encoding s' = EncBasic) by (rewrite Es', set_all_encoding, Es0, set_all_encoding; reflexivity).
  pose proof (proj2 (tracks_sized _ _ _ T)) as Fb.
  pose proof (complete_str (env_ucs2 env) s' Fb Cp) as X. rewrite En in X. rewrite X in J1. rewrite (complete_data s' Cp) in J2. cbn [option_map] in J1.
  exists (shown_bytes s'), (join (map (getHexString 2) (map visible (shown_bytes s'))) [32]). split; [|split; [|split; [|split]]].
  - rewrite D, flat_map_app. apply complete_earlier. rewrite flat_map_app. cbn [flat_map]. rewrite app_nil_r. apply complete_spec; [exact T|lia|exact Cp].
  - rewrite Sg. discriminate.
  - apply hex_bytes_join. apply Forall_map. eapply Forall_impl; [|exact (shown_byte s' Fb)]. intros b Hb. unfold visible. destruct (_ || _); [lia|exact Hb].
  - intros v S. apply Sd in S. rewrite J1 in S. cbn [option_map value_of] in S. congruence.
  - intros v S. apply Sd in S. rewrite J2 in S. cbn [option_map value_of] in S. congruence.
Qed.

Lemma tdc_round_trip : forall env o w0 gs0 gs1 now g w c out p l t earlier,
  host_ok env -> host_text env -> o_output_type o = OutJSON ->
  let gs := gs1 ++ [(now, g, w)] in
  Forall received_group (gs0 ++ gs) -> p <> 0 -> three p (pis gs0) -> Forall (stays p) gs ->
  Forall (fun x => data_segment (snd (fst x), snd x) <> [] -> carried_pi x = Some p) gs ->
  data_segment (g, w) <> [] -> not_announced t5A (groups_of (gs0 ++ gs)) ->
  flat_map data_segment (groups_of gs) = earlier ++ place 0 l ->
  (length l = 128%nat /\ ~ In end_of_text l /\ t = l) \/ (exists t0 r, l = t0 ++ end_of_text :: r /\ ~ In end_of_text t0 /\ t = t0 ++ [end_of_text]) ->
  run_groups env o (Channel_new o w0) (gs0 ++ gs) = Ok (c, out) ->
  exists out' line x, out = out' ++ [Some line] /\ says line ["transparent_data"; "full_text"] (VStr (rds_text t)) /\
    says line ["transparent_data"; "full_raw"] (VStr x) /\ hex_bytes (map visible t) x.
Proof.
  intros env o w0 gs0 gs1 now g w c out p l t earlier H HT OJ gs F Np T3 S P Pl Na Sg Hl E.
  pose proof P as P'. apply Forall_app in P'. destruct P' as [_ P2]. inversion P2 as [|? ? Pg _]; subst. cbn [fst snd] in Pg. specialize (Pg Pl).
  destruct (last_shown (tdc_inv (env_ucs2 env)) env o H HT OJ (tdc_new _) (tdc_new_pi _) (tdc_had _) (fun h st now c g w st' j => tdc_step env o h st now c g w st' j) w0 gs0 gs1 now g w c out p F Np T3 S Pg E)
    as (old & h0 & out0 & out1 & ln & c1 & st & j & D0 & -> & L0 & L1 & I & So & B & _ & Dd & Sh & _ & Ad).
  exists (out0 ++ out1), ln. set (g' := prepared o now c1 g w) in *.
  specialize (Ad _ data_segment P). fold gs in Ad. rewrite Sg in Ad.
  assert (R : received_group (now, g, w)) by (apply Forall_app in F; destruct F as [_ F2]; apply Forall_app in F2; destruct F2 as [_ F2]; inversion F2; assumption).
  pose proof (tdc_prepared o now c1 g w R) as Sp. cbv zeta in Sp. fold g' in Sp.
  destruct (tdc_is g') eqn:Is; [|congruence].
  destruct I as (Fh & Io & I).
  assert (Na1 : not_announced t5A (h0 ++ decoded_in gs1 out1)).
  { intros a X. apply (Na a). apply in_flat_map in X. destruct X as (y & Y1 & Y2). apply in_flat_map. exists y. split; [|exact Y2].
    unfold groups_of. rewrite map_app. apply in_or_app. apply in_app_or in Y1. destruct Y1 as [Y1|Y1].
    - left. apply (decoded_sub gs0 out0). rewrite D0. apply in_or_app. right. exact Y1.
    - right. unfold gs. rewrite map_app. apply in_or_app. left. exact (decoded_sub _ _ _ Y1). }
  specialize (I Na1). pose proof (proj1 (not_announced_none t5A _ st Io) Na1) as Fi.
  assert (Rw : raw_group st g' = false) by (unfold raw_group; cbv zeta; rewrite (tdc_type g' Is), Fi; reflexivity).
  specialize (Sh (or_introl Rw)).
  destruct (type5_cases env o st g' _ j Dd) as [(_ & _ & D1)|([X|X] & _)]; [|congruence|contradiction].
  destruct (tdc_full env o st g' _ j So B Is D1) as (_ & J1 & J2). rewrite I, <- Sp in J1, J2.
  assert (Wr : set_all (env_ucs2 env) (set_all (env_ucs2 env) (RDSString_new 128) (tdc_writes (h0 ++ decoded_in gs1 out1))) (data_segment (g, w)) =
    set_all (env_ucs2 env) (set_all (env_ucs2 env) (RDSString_new 128) (tdc_writes h0 ++ earlier)) (place 0 l)).
  { rewrite <- !set_all_app. f_equal. unfold tdc_writes. rewrite flat_map_app, <- !app_assoc. f_equal. rewrite <- Ad. unfold gs.
    rewrite (decoded_in_app gs1 [(now, g, w)] out1 [Some ln] L1), flat_map_app. cbn [decoded_in combine flat_map app]. rewrite app_nil_r. reflexivity. }
  rewrite Wr in J1, J2.
  assert (Wok : Forall (fun pb => fst pb < 128 /\ snd pb < 256) ((tdc_writes h0 ++ earlier) ++ place 0 l)).
  { rewrite <- app_assoc, <- Ad. unfold tdc_writes. rewrite <- flat_map_app. apply tdc_ok. apply Forall_app in Fh. destruct Fh as [Fh0 _]. apply Forall_app. split; [exact Fh0|].
    apply decoded_received. apply Forall_app in F. apply F. }
  apply Forall_app in Wok. destruct Wok as [W0 W1].
  pose proof (tracks_sized _ _ _ (set_all_tracks (env_ucs2 env) 128 _ _ [] (new_tracks 128) W0)) as Z0.
  assert (En0 : s_encoding (set_all (env_ucs2 env) (RDSString_new 128) (tdc_writes h0 ++ earlier)) = EncBasic) by (rewrite set_all_encoding; reflexivity).
  remember (set_all (env_ucs2 env) (RDSString_new 128) (tdc_writes h0 ++ earlier)) as s0 eqn:Es0. clear Es0.
  assert (Fl : Forall (fun b => b < 256) l).
  { clear - W1. revert W1. generalize 0. induction l as [|b l IH]; intros i W; [constructor|]. cbn [place] in W. inversion W; subst. constructor; [tauto|]. eapply IH; eassumption. }
  assert (Ll : N.of_nat (length l) <= 128).
  { clear - W1. destruct (snoc_cases _ l) as [->|(a & x & ->)]; [cbn; lia|]. rewrite place_app in W1. apply Forall_app in W1. destruct W1 as [_ W]. cbn [place] in W. inversion W as [|? ? [X _] _]; subst. cbn [fst] in X. rewrite app_length. cbn [length]. lia. }
  assert (Cs : let s' := set_all (env_ucs2 env) s0 (place 0 l) in s_isComplete s' = true /\ shown_bytes s' = t /\ Forall (fun b => b < 256) (s_data s')).
  { destruct Hl as [(Hn & Nt & ->)|(t0 & r & Hl & Nt & ->)].
    - destruct (full_bytes (env_ucs2 env) 128 s0 l Z0 ltac:(congruence) ltac:(lia) Fl ltac:(lia) Nt) as (C1 & S1 & B1 & F1). auto.
    - destruct (run_bytes (env_ucs2 env) 128 s0 l t0 r Z0 ltac:(congruence) ltac:(lia) Fl Hl Ll Nt) as (C1 & S1 & B1 & F1). auto. }
  destruct Cs as (C1 & B1 & F1).
  assert (En1 : s_encoding (set_all (env_ucs2 env) s0 (place 0 l)) = EncBasic) by (rewrite set_all_encoding; exact En0).
  remember (set_all (env_ucs2 env) s0 (place 0 l)) as s' eqn:Es'.
  rewrite C1 in J1, J2. pose proof (complete_str (env_ucs2 env) s' F1 C1) as X. rewrite En1 in X. rewrite X, B1 in J1. rewrite (complete_data s' C1), B1 in J2. cbn [option_map] in J1.
  exists (join (map (getHexString 2) (map visible t)) [32]). split; [rewrite app_assoc; reflexivity|].
  change ["transparent_data"; "full_text"] with (tdata "full_text"). change ["transparent_data"; "full_raw"] with (tdata "full_raw").
  unfold says. rewrite !Sh, J1, J2. split; [reflexivity|]. split; [reflexivity|].
  apply hex_bytes_join. apply Forall_map. rewrite <- B1. eapply Forall_impl; [|exact (shown_byte s' F1)]. intros b Hb. unfold visible. destruct (_ || _); [lia|exact Hb].
Qed.
