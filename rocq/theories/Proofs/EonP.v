(* Names and frequency lists of other networks. *)
From Verif.Model Require Import Util Group Options Tables Json Freq RdsString Tmc Station Channel.
From Verif.Spec Require Import Numerals Frequencies Unicode JsonText Session Identity History Quality Texts Networks.
From Verif.Proofs Require Import Tac Numerals FreqP JsonP Schema StationP TextP CleanP UpdateP SessionP LineP FrameP ChannelP LinesP HistoryP ShowP TraceP KeysP GetP FieldsP StringP PsP EndP AfP AfSoundP.

Local Open Scope string_scope.
Local Open Scope N_scope.
Local Open Scope list_scope.

Definition net_ps (st : Station) (net : N) : RDSString := match find_code net (st_eon_ps_names st) with Some p => p | None => RDSString_new 8 end.
Definition net_af (st : Station) (net : N) : AltFreqList := match find_code net (st_eon_alt_freqs st) with Some l => l | None => af_init end.

Definition eon_inv (u : bytes -> option bytes) (h : list (Group * N)) (st : Station) : Prop :=
  forall net, net_ps st net = set_all u (RDSString_new 8) (flat_map (name_of net) h) /\
              net_af st net = fold_left af_do (flat_map (frequencies_of net) h) af_init.

Lemma had_eon : forall st g, st_eon_ps_names (had st g) = st_eon_ps_names st /\ st_eon_alt_freqs (had st g) = st_eon_alt_freqs st.
Proof. intros st g. unfold had. destruct (_ || _); split; reflexivity. Qed.
Lemma had_net : forall st g net, net_ps (had st g) net = net_ps st net /\ net_af (had st g) net = net_af st net.
Proof. intros st g net. unfold net_ps, net_af. destruct (had_eon st g) as [-> ->]. split; reflexivity. Qed.

Lemma item_prepared : forall o now c g w, received_group (now, g, w) -> let g' := prepared o now c g w in
  network_item (g, w) =
  if g_has_type g' && (gt_number (g_type g') =? 14) && Version_eqb (gt_version (g_type g')) VA && g_has g' BLOCK3 && g_has g' BLOCK4
  then [(g_get g' BLOCK4, getBits 4 (g_get g' BLOCK2) 0, g_get g' BLOCK3)] else [].
Proof.
  intros o now c g w R g'. unfold network_item, g_has, g'. rewrite prepared_type, prepared_has_type, !prepared_block, !prepared_get.
  unfold g_get. cbn [g_block]. rewrite getBits_arith. change (2 ^ 0) with 1. change (2 ^ 4) with 16. rewrite N.div_1_r.
  destruct (w =? 0); cbn [andb gt_number gt_version Version_eqb]; [reflexivity|]. rewrite andb_false_r. reflexivity.
Qed.

(* Either the group is decoded by this decoder, or nothing changes *)
Lemma type14_cases : forall env o st g st' j, decoded env o st g = Ok (st', j) ->
  (g_has_type g = true /\ Version_eqb (gt_version (g_type g)) VC = false /\ gt_number (g_type g) = 14 /\
   decodeType14 env o (had st g) g (JObj (header env o st g)) = Ok (st', j)) \/
  ((g_has_type g = false \/ Version_eqb (gt_version (g_type g)) VC = true \/ gt_number (g_type g) <> 14) /\
   st_eon_ps_names st' = st_eon_ps_names st /\ st_eon_alt_freqs st' = st_eon_alt_freqs st /\
   (g_has_type g = true -> existsb (String.eqb "other_network") (type_keys o st g) = false)).
Proof.
  intros env o st g st' j D. pose proof (decoded_frame env o st g _ D) as Fr. cbn [fst] in Fr.
  destruct Fr as (_ & _ & _ & _ & _ & _ & _ & _ & _ & _ & Fp & Fa & _). destruct (had_eon st g) as [Hp Ha].
  destruct (g_has_type g) eqn:Ht; [|right; split; [auto|split; [rewrite Fp by reflexivity; exact Hp|split; [rewrite Fa by reflexivity; exact Ha|discriminate]]]].
  destruct (Version_eqb (gt_version (g_type g)) VC) eqn:Hv.
  { right. split; [auto|]. assert (X : forall f, f = Feonps \/ f = Feonaf -> off (group_fields (had st g) g) f) by (intros f [->| ->]; unfold off, group_fields; cbv zeta; rewrite Hv; reflexivity).
    split; [rewrite Fp; [exact Hp|apply X; auto]|]. split; [rewrite Fa; [exact Ha|apply X; auto]|].
    intros _; unfold type_keys; cbv zeta; rewrite Hv; reflexivity. }
  destruct (N.eq_dec (gt_number (g_type g)) 14) as [Hn|Hn].
  - left. repeat split; try assumption. unfold decoded in D. rewrite Ht in D. unfold decodeByType in D. cbv zeta in D. rewrite Hv, Hn in D. exact D.
  - right. apply N.eqb_neq in Hn. split; [right; right; apply N.eqb_neq; exact Hn|].
    assert (X : forall f, f = Feonps \/ f = Feonaf -> off (group_fields (had st g) g) f) by (intros f [->| ->]; unfold off, group_fields, app_fields; cbv zeta; rewrite Hv, Hn; by_cases).
    split; [rewrite Fp; [exact Hp|apply X; auto]|]. split; [rewrite Fa; [exact Ha|apply X; auto]|].
    intros _. unfold type_keys, app_keys. cbv zeta. rewrite Hv, Hn. by_cases.
Qed.

Definition item_of (g : Group) : list (N * N * N) :=
  if Version_eqb (gt_version (g_type g)) VA && g_has g BLOCK3 && g_has g BLOCK4
  then [(g_get g BLOCK4, getBits 4 (g_get g BLOCK2) 0, g_get g BLOCK3)] else [].
Definition name_part (net : N) (it : N * N * N) : Texts.writes :=
  let '(n, k, d) := it in if (n =? net) && (k <? 4) then [(2 * k, hi d); (2 * k + 1, lo d)] else [].
Definition freq_part (net : N) (it : N * N * N) : list af_event :=
  let '(n, k, d) := it in if (n =? net) && (k =? 4) then [AfCodes (hi d) (lo d)] else [].
Lemma apart_on : forall x k, x <> k -> apart (on x) (on k) = true.
Proof. intros x k Ne. unfold on, apart. rewrite String.eqb_refl. destruct (String.eqb_spec x k); [congruence|reflexivity]. Qed.

(* What a group of type 14 does *)
Lemma decodeType14_net : forall env o st g j st' j', decodeType14 env o st g j = Ok (st', j') ->
  (forall k, jget (on k) j = None) -> g_get g BLOCK3 < 2 ^ 16 -> Version_eqb (gt_version (g_type g)) VC = false ->
  (forall net, net_ps st' net = set_all (env_ucs2 env) (net_ps st net) (flat_map (name_part net) (item_of g)) /\
               net_af st' net = fold_left af_do (flat_map (freq_part net) (item_of g)) (net_af st net)) /\
  jget (on "ps") j' = match item_of g with
    | [(n, k, d)] => if (k <? 4) && s_isComplete (net_ps st' n) then Some (JStr (s_last_complete_string (net_ps st' n))) else None
    | _ => None end /\
  match item_of g with
  | [(n, k, d)] => if k =? 4 then exists l', insert_all (net_af st n) [hi d; lo d] = Ok l' /\
        (if af_isComplete l' then exists raw, af_getRawList l' = Ok raw /\ jget (on "alt_frequencies") j' = match map JN raw with [] => None | _ => Some (JArr (map JN raw)) end
         else jget (on "alt_frequencies") j' = None)
      else jget (on "alt_frequencies") j' = None
  | _ => jget (on "alt_frequencies") j' = None end.
Proof.
  intros env o st g j st' j' D Ab R3 Hv. unfold decodeType14 in D. unfold item_of.
  destruct (g_has g BLOCK4); cbn [negb] in D.
  2: { rewrite !andb_false_r. cbn [flat_map set_all fold_left]. assert (st' = st) as -> by congruence. assert (j' = j) as -> by congruence. repeat split; apply Ab. }
  rewrite andb_true_r. cbv zeta in D. unbind D. unbind D.
  assert (Ab0 : forall k, k <> "pi" -> k <> "tp" -> jget (on k) y0 = None).
  { intros k N1 N2. rewrite (jset_other _ _ _ _ _ B0) by (apply apart_on; congruence). rewrite (jset_other _ _ _ _ _ B) by (apply apart_on; congruence). apply Ab. }
  assert (P0 : jget (on "ps") y0 = None) by (apply Ab0; discriminate). assert (A0 : jget (on "alt_frequencies") y0 = None) by (apply Ab0; discriminate).
  destruct (gt_version (g_type g)) eqn:V; cbn [Version_eqb andb] in D |- *; [| |discriminate Hv].
  2: { cbn [flat_map set_all fold_left]. unbind D. assert (st' = st) as -> by congruence. assert (j' = y1) as -> by congruence.
    rewrite !(jset_other _ _ _ _ _ B1) by (apply apart_on; discriminate). repeat split; assumption. }
  destruct (g_has g BLOCK3); cbn [negb] in D.
  2: { cbn [flat_map set_all fold_left]. assert (st' = st) as -> by congruence. assert (j' = y0) as -> by congruence. repeat split; assumption. }
  remember (getBits 4 (g_get g BLOCK2) 0) as k eqn:Ek. clear Ek. remember (g_get g BLOCK4) as n eqn:En. clear En. remember (g_get g BLOCK3) as d eqn:Ed. clear Ed.
  destruct (hi_bits _ R3) as [Eh _]. destruct (lo_bits d) as [El _]. rewrite Eh, El in D.
  cbn [flat_map]. unfold name_part, freq_part.
  destruct (N.leb_spec k 3) as [K|K].
  - assert (k <? 4 = true) as K4 by (apply N.ltb_lt; lia). assert (k =? 4 = false) as K5 by (apply N.eqb_neq; lia). rewrite K4, K5. cbn [andb].
    fold (net_ps st n) in D. remember (s_set (env_ucs2 env) (s_set (env_ucs2 env) (net_ps st n) (2 * k) (hi d)) (2 * k + 1) (lo d)) as s1 eqn:Es.
    assert (St : st' = set_eon_ps st ((n, s1) :: st_eon_ps_names st)) by (destruct (s_isComplete s1); [unbind D|]; congruence).
    assert (Nn : net_ps st' n = s1) by (rewrite St; unfold net_ps; cbn [set_eon_ps st_eon_ps_names find_code]; rewrite N.eqb_refl; reflexivity).
    split; [|split].
    + intros net. rewrite !app_nil_r. rewrite andb_true_r, andb_false_r. split; [|rewrite St; reflexivity].
      destruct (N.eqb_spec n net) as [<-|Ne]; [rewrite Nn, Es; reflexivity|]. rewrite St. unfold net_ps. cbn [set_eon_ps st_eon_ps_names find_code].
      assert (n =? net = false) as E by (apply N.eqb_neq; exact Ne). try rewrite E. assert (net =? n = false) as E' by (apply N.eqb_neq; congruence). try rewrite E'. reflexivity.
    + rewrite Nn. destruct (s_isComplete s1); [|assert (j' = y0) as -> by congruence; exact P0]. unbind D. assert (j' = y1) as -> by congruence. exact (jset_same _ _ _ _ B1).
    + destruct (s_isComplete s1); [|assert (j' = y0) as -> by congruence; exact A0]. unbind D. assert (j' = y1) as -> by congruence. rewrite (jset_other _ _ _ _ _ B1) by reflexivity. exact A0.
  - assert (k <? 4 = false) as K4 by (apply N.ltb_ge; lia). rewrite K4. cbn [andb].
    destruct (k =? 4) eqn:K5.
    + fold (net_af st n) in D. unbind D. unbind D.
      assert (In_ : insert_all (net_af st n) [hi d; lo d] = Ok y2) by (cbn [insert_all]; rewrite B1; cbn [bind]; rewrite B2; reflexivity).
      assert (St : st' = set_eon_af st ((n, if af_isComplete y2 then af_clear y2 else y2) :: st_eon_alt_freqs st)) by (destruct (af_isComplete y2); [unbind D; unbind D|]; congruence).
      split; [|split].
      * intros net. rewrite !app_nil_r. rewrite andb_false_r, andb_true_r. split; [rewrite St; reflexivity|].
        rewrite St. unfold net_af at 1. cbn [set_eon_af st_eon_alt_freqs find_code]. destruct (N.eqb_spec n net) as [<-|Ne].
        -- rewrite ?N.eqb_refl. cbn [fold_left af_do]. rewrite In_. reflexivity.
        -- assert (n =? net = false) as E by (apply N.eqb_neq; exact Ne). try rewrite E. assert (net =? n = false) as E' by (apply N.eqb_neq; congruence). try rewrite E'. reflexivity.
      * destruct (af_isComplete y2); [|assert (j' = y0) as -> by congruence; exact P0]. unbind D. unbind D. assert (j' = y4) as -> by congruence. rewrite (push_other _ _ _ _ _ B4) by reflexivity. exact P0.
      * exists y2. split; [exact In_|]. destruct (af_isComplete y2); [|assert (j' = y0) as -> by congruence; exact A0]. unbind D. unbind D. assert (j' = y4) as -> by congruence.
        exists y3. split; [first [exact B3|reflexivity]|]. exact (push_absent _ _ _ _ B4 A0).
    + assert (X : st' = st /\ jget (on "ps") j' = jget (on "ps") y0 /\ jget (on "alt_frequencies") j' = jget (on "alt_frequencies") y0).
      { assert (Js : forall x w a b, jset (on x) w a = Ok b -> x <> "ps" -> x <> "alt_frequencies" -> jget (on "ps") b = jget (on "ps") a /\ jget (on "alt_frequencies") b = jget (on "alt_frequencies") a).
        { intros x w a b U N1 N2. split; eapply jset_other; try exact U; apply apart_on; assumption. }
        destruct (k <=? 9).
        { destruct (cf_isValid _); [|split; [congruence|split; congruence]]. unbind D. assert (j' = y1) as -> by congruence. split; [congruence|]. eapply Js; [exact B1|discriminate|discriminate]. }
        destruct (k =? 12).
        { unbind D. destruct (Js _ _ _ _ B1) as [J1 J2]; [discriminate|discriminate|]. rewrite <- J1, <- J2. destruct (_ && _); [|split; [congruence|split; congruence]].
          unbind D. assert (j' = y2) as -> by congruence. split; [congruence|]. eapply Js; [exact B2|discriminate|discriminate]. }
        destruct (k =? 13).
        { unbind D. destruct (Js _ _ _ _ B1) as [J1 J2]; [discriminate|discriminate|]. rewrite <- J1, <- J2.
          unbind D. assert (j' = y2) as -> by congruence. split; [congruence|]. eapply Js; [exact B2|discriminate|discriminate]. }
        destruct (k =? 14).
        { destruct (d =? 0); [split; [congruence|split; congruence]|]. destruct (decodePIN _ _ _) as [[ok j1]| |] eqn:Dp; cbn [bind] in D; try discriminate D. assert (j' = j1) as -> by congruence. split; [congruence|].
          unfold decodePIN in Dp. cbn [app] in Dp. destruct (_ && _); [|split; congruence].
          destruct (jset ["other_network"; "prog_item_number"] _ _) as [ja| |] eqn:Ja; cbn [bind] in Dp; try discriminate Dp.
          destruct (jset ["other_network"; "prog_item_started"; "day"] _ _) as [jb| |] eqn:Jb; cbn [bind] in Dp; try discriminate Dp.
          destruct (jset ["other_network"; "prog_item_started"; "time"] _ _) as [jc| |] eqn:Jc; cbn [bind] in Dp; try discriminate Dp. assert (j1 = jc) as -> by congruence.
          split; got; reflexivity. }
        destruct (k =? 15).
        { unbind D. assert (j' = y1) as -> by congruence. split; [congruence|]. eapply Js; [exact B1|discriminate|discriminate]. }
        unbind D. assert (j' = y1) as -> by congruence. split; [congruence|]. split; (eapply jpush_other; [exact B1|reflexivity]). }
      destruct X as (-> & X1 & X2). rewrite X1, X2. split; [|split; assumption]. intros net. rewrite !app_nil_r. rewrite !andb_false_r. split; reflexivity.
Qed.

Lemma item_is : forall o now c g w, received_group (now, g, w) -> let g' := prepared o now c g w in
  network_item (g, w) = if g_has_type g' && (gt_number (g_type g') =? 14) then item_of g' else [].
Proof.
  intros o now c g w R g'. pose proof (item_prepared o now c g w R) as X. cbv zeta in X. fold g' in X. rewrite X. unfold item_of.
  destruct (g_has_type g'), (gt_number (g_type g') =? 14); reflexivity.
Qed.
Lemma name_items : forall net x, name_of net x = flat_map (name_part net) (network_item x).
Proof. reflexivity. Qed.
Lemma freq_items : forall net x, frequencies_of net x = flat_map (freq_part net) (network_item x).
Proof. reflexivity. Qed.
Lemma header_on : forall env o st g k, bler_ok g -> jget (on k) (JObj (header env o st g)) = None.
Proof. intros env o st g k B. cbn [on jget]. rewrite header_no by (try exact B; reflexivity). reflexivity. Qed.
Lemma got_b3 : forall o now c g w, received_group (now, g, w) -> g_get (prepared o now c g w) BLOCK3 < 2 ^ 16.
Proof. intros o now c g w R. rewrite prepared_get. apply R. Qed.

Lemma eon_step : forall env o h st now c g w st' j, eon_inv (env_ucs2 env) h st -> st_ok st -> received_group (now, g, w) ->
  bler_ok (prepared o now c g w) -> decoded env o st (prepared o now c g w) = Ok (st', j) -> eon_inv (env_ucs2 env) (h ++ [(g, w)]) st'.
Proof.
  intros env o h st now c g w st' j I So R B D. pose proof (item_is o now c g w R) as It. cbv zeta in It. remember (prepared o now c g w) as g' eqn:Eg.
  intros net. rewrite !flat_map_app, set_all_app, fold_left_app. cbn [flat_map]. rewrite !app_nil_r, name_items, freq_items, It. destruct (I net) as [<- <-].
  destruct (type14_cases env o st g' st' j D) as [(Ht & Hv & Hn & D0)|(No & Ps & Af & _)].
  - destruct (decodeType14_net _ _ _ _ _ _ _ D0 (fun k => header_on env o st g' k B)) as [X _]; [subst g'; apply (got_b3 o now c g w R)|exact Hv|].
    rewrite Ht, Hn. cbn [andb N.eqb Pos.eqb]. destruct (X net) as [-> ->]. destruct (had_net st g' net) as [-> ->]. split; reflexivity.
  - assert (Z : (if g_has_type g' && (gt_number (g_type g') =? 14) then item_of g' else []) = []).
    { destruct No as [->|[Hv|No]]; [reflexivity| |apply N.eqb_neq in No; rewrite No, andb_false_r; reflexivity].
      unfold item_of. destruct (gt_version (g_type g')); try discriminate Hv. cbn [Version_eqb andb]. destruct (_ && _); reflexivity. }
    rewrite Z. unfold net_ps, net_af. rewrite Ps, Af. split; reflexivity.
Qed.
Lemma eon_new : forall u w, eon_inv u [] (Station_new w).
Proof. intros u w net. split; reflexivity. Qed.
Lemma eon_new_pi : forall u w p, eon_inv u [] (Station_new_pi w p).
Proof. intros u w p net. split; reflexivity. Qed.
Lemma eon_had : forall u h st g, eon_inv u h st -> eon_inv u h (had st g).
Proof. intros u h st g I net. destruct (had_net st g net) as [-> ->]. apply I. Qed.

Lemma name_ok : forall net h, Forall (fun x => received_group (0%Z, fst x, snd x)) h -> Forall (fun pb => fst pb < 8 /\ snd pb < 256) (flat_map (name_of net) h).
Proof.
  intros net h F. apply Forall_flat_map. eapply Forall_impl; [|exact F]. intros [g w] (_ & R1 & R2 & R3 & R4). cbn [fst snd] in *. unfold name_of. apply Forall_flat_map.
  unfold network_item. destruct (_ && _); constructor; [|constructor]. destruct (_ && _) eqn:E; [|constructor]. apply andb_prop in E. destruct E as [_ E]. apply N.ltb_lt in E.
  destruct (hi_bits _ R3) as [_ H1]. destruct (lo_bits (blk_data (g_b3 g))) as [_ H2]. repeat constructor; cbn [fst snd]; try lia; assumption.
Qed.

Lemma eon_name_complete : forall env o w0 gs now g w c out line v, host_ok env -> o_output_type o = OutJSON -> Forall received_group (gs ++ [(now, g, w)]) ->
  run_groups env o (Channel_new o w0) (gs ++ [(now, g, w)]) = Ok (c, out ++ [Some line]) -> says line ["other_network"; "ps"] v ->
  exists net l, name_of net (g, w) <> [] /\ complete_text 8 (flat_map (name_of net) (decoded_in (gs ++ [(now, g, w)]) (out ++ [Some line]))) l /\ v = VStr (rds_text l).
Proof.
  intros env o w0 gs now g w c out line v H OJ F E S. destruct (host_env env H) as [Ee _].
  destruct (last_group (eon_inv (env_ucs2 env)) env o H OJ (eon_new _) (eon_new_pi _) (eon_had _) (fun h st now c g w st' j => eon_step env o h st now c g w st' j) gs now g w w0 c out line F E)
    as (old & h & st & c1 & j & D & I & So & Dd & Pj & B & Hc & _).
  pose proof (says_decoded env j line "other_network" ["ps"] v H Pj ltac:(discriminate) S) as J.
  assert (R : received_group (now, g, w)) by (apply Forall_app in F; destruct F as [_ F2]; inversion F2; assumption).
  pose proof (decoded_received _ (out ++ [Some line]) F) as Fd. rewrite D in Fd. apply Forall_app in Fd. destruct Fd as [_ Fd].
  pose proof (eon_step env o h st now c1 g w (ch_station c) j I So R B Dd) as I'.
  pose proof (item_is o now c1 g w R) as It. cbv zeta in It. pose proof (got_b3 o now c1 g w R) as R3. remember (prepared o now c1 g w) as g' eqn:Eg.
  destruct (type14_cases env o st g' _ j Dd) as [(Ht & Hv & Hn & D0)|(No & _ & _ & Nk)].
  - destruct (decodeType14_net _ _ _ _ _ _ _ D0 (fun k => header_on env o st g' k B) R3 Hv) as (_ & J1 & _). rewrite Ht, Hn in It. cbn [andb N.eqb Pos.eqb] in It.
    change ["other_network"; "ps"] with (on "ps") in J. rewrite J1 in J. rewrite <- It in J. destruct (network_item (g, w)) as [|[[n k] d] [|]] eqn:En; try discriminate J.
    destruct (k <? 4) eqn:K; cbn [andb] in J; [|discriminate]. destruct (s_isComplete (net_ps (ch_station c) n)) eqn:Cp; [|discriminate]. cbn [option_map value_of] in J.
    assert (v = VStr (s_last_complete_string (net_ps (ch_station c) n))) as -> by congruence. clear J.
    assert (Nm : name_of n (g, w) = [(2 * k, hi d); (2 * k + 1, lo d)]) by (rewrite name_items, En; cbn [flat_map name_part app]; rewrite N.eqb_refl, K; reflexivity).
    exists n, (shown_bytes (net_ps (ch_station c) n)). split; [rewrite Nm; discriminate|].
    destruct (I' n) as [Ip _]. pose proof (name_ok n _ Fd) as Wok.
    pose proof (set_all_tracks (env_ucs2 env) 8 _ (RDSString_new 8) [] (new_tracks 8) Wok) as T. cbn [app] in T. rewrite <- Ip in T.
    assert (En' : s_encoding (net_ps (ch_station c) n) = EncBasic) by (rewrite Ip, set_all_encoding; reflexivity).
    split; [rewrite D, flat_map_app; apply complete_earlier, complete_spec; [exact T|lia|exact Cp]|].
    f_equal. pose proof (complete_str (env_ucs2 env) _ (proj2 (tracks_sized _ _ _ T)) Cp) as X. rewrite En' in X.
    assert (Some (s_last_complete_string (net_ps (ch_station c) n)) = Some (rds_text (shown_bytes (net_ps (ch_station c) n)))) as Y; [|injection Y; auto].
    rewrite <- X. rewrite flat_map_app in Ip, Wok. cbn [flat_map] in Ip, Wok. rewrite app_nil_r in Ip, Wok. rewrite set_all_app in Ip. rewrite Ip in Cp |- *. symmetry.
    apply Forall_app in Wok. destruct Wok as [W1 W2].
    eapply (set_all_last _ 8); [eapply tracks_sized; apply (set_all_tracks (env_ucs2 env) 8 _ (RDSString_new 8) [] (new_tracks 8) W1)|lia| |exact W2|exact Cp].
    rewrite Nm. discriminate.
  - assert (A := decoded_absent env o st g' _ j "other_network" Ee So B Dd eq_refl Nk). exfalso. cbn [jget] in A, J. destruct j; try discriminate J. destruct (obj_find "other_network" m); [discriminate A|discriminate J].
Qed.

Lemma eon_freqs_sound : forall env o w0 gs now g w c out line v, host_ok env -> o_output_type o = OutJSON -> Forall received_group (gs ++ [(now, g, w)]) ->
  run_groups env o (Channel_new o w0) (gs ++ [(now, g, w)]) = Ok (c, out ++ [Some line]) -> says line ["other_network"; "alt_frequencies"] v ->
  exists net freqs, frequencies_of net (g, w) <> [] /\ numbers v freqs /\
    since_count (codes_of (flat_map (frequencies_of net) (decoded_in (gs ++ [(now, g, w)]) (out ++ [Some line])))) (N.of_nat (length freqs)) freqs.
Proof.
  intros env o w0 gs now g w c out line v H OJ F E S. destruct (host_env env H) as [Ee _].
  destruct (last_group (eon_inv (env_ucs2 env)) env o H OJ (eon_new _) (eon_new_pi _) (eon_had _) (fun h st now c g w st' j => eon_step env o h st now c g w st' j) gs now g w w0 c out line F E)
    as (old & h & st & c1 & j & D & I & So & Dd & Pj & B & Hc & _).
  pose proof (says_decoded env j line "other_network" ["alt_frequencies"] v H Pj ltac:(discriminate) S) as J.
  assert (R : received_group (now, g, w)) by (apply Forall_app in F; destruct F as [_ F2]; inversion F2; assumption).
  pose proof (item_is o now c1 g w R) as It. cbv zeta in It. pose proof (got_b3 o now c1 g w R) as R3. remember (prepared o now c1 g w) as g' eqn:Eg.
  change ["other_network"; "alt_frequencies"] with (on "alt_frequencies") in J.
  destruct (type14_cases env o st g' _ j Dd) as [(Ht & Hv & Hn & D0)|(No & _ & _ & Nk)].
  - destruct (decodeType14_net _ _ _ _ _ _ _ D0 (fun k => header_on env o st g' k B) R3 Hv) as (_ & _ & J1). rewrite Ht, Hn in It. cbn [andb N.eqb Pos.eqb] in It.
    rewrite <- It in J1. destruct (network_item (g, w)) as [|[[n k] d] [|]] eqn:En; try (rewrite J1 in J; discriminate J).
    destruct (k =? 4) eqn:K; [|rewrite J1 in J; discriminate J].
    destruct J1 as (l' & I1 & J1). destruct (af_isComplete l') eqn:Cp; [|rewrite J1 in J; discriminate J]. destruct J1 as (raw & Rw & J1).
    destruct (had_net st g' n) as [_ Hn']. rewrite Hn' in I1. clear Hn'. destruct (I n) as [_ Ia].
    assert (Kp : kept (net_af st n) (codes_of (flat_map (frequencies_of n) old) ++ codes_of (flat_map (frequencies_of n) h))).
    { rewrite Ia. apply kept_dos. split; [apply af_init_wf|]. cbn [af_init num_expected]. lia. }
    cbn [insert_all] in I1. unbind I1. unbind I1. assert (y0 = l') by congruence. subst y0.
    pose proof (kept_insert _ _ _ _ (kept_insert _ _ _ _ Kp B0) B1) as K2. rewrite <- !app_assoc in K2. cbn [app] in K2.
    pose proof Cp as Cp'. apply andb_prop in Cp'. destruct Cp' as [Ce Cz]. apply N.eqb_eq in Ce. apply N.ltb_lt in Cz.
    destruct (kept_since _ _ K2 Cz) as (raw' & Rw' & Sc & Ln & _). assert (raw' = raw) by congruence. subst raw'. rewrite Ce, <- Ln in Sc.
    assert (Nm : frequencies_of n (g, w) = [AfCodes (hi d) (lo d)]) by (rewrite freq_items, En; cbn [flat_map freq_part app]; rewrite N.eqb_refl, K; reflexivity).
    exists n, raw. split; [rewrite Nm; discriminate|]. rewrite J1 in J. split.
    + destruct raw as [|r0 raw]; [discriminate J|]. cbn [map option_map] in J. assert (v = value_of (env_float env) (JArr (map JN (r0 :: raw)))) as -> by (cbn [map]; congruence). apply numbers_shown.
    + rewrite D, !flat_map_app, !codes_app. cbn [flat_map]. rewrite Nm. exact Sc.
  - assert (A := decoded_absent env o st g' _ j "other_network" Ee So B Dd eq_refl Nk). exfalso. cbn [on jget] in A, J. destruct j; try discriminate J. destruct (obj_find "other_network" m); [discriminate A|discriminate J].
Qed.

Lemma type14_raw : forall st g, gt_number (g_type g) = 14 -> raw_group st g = false.
Proof.
  intros st g Hn. unfold raw_group. rewrite Hn. cbv zeta. destruct (find_type _ _) as [a|]; [|rewrite andb_false_r; reflexivity].
  cbn [N.eqb Pos.eqb orb negb]. rewrite andb_false_r. reflexivity.
Qed.

Lemma place_bytes : forall l n p, Forall (fun pb => fst pb < n /\ snd pb < 256) (place p l) -> Forall (fun b => b < 256) l.
Proof. induction l as [|b l IH]; intros n p W; [constructor|]. cbn [place] in W. apply Forall_cons_iff in W. destruct W as [[_ W1] W2]. constructor; [exact W1|exact (IH _ _ W2)]. Qed.

Lemma eon_name_shown : forall env o w0 gs0 gs1 now g w c out p net l earlier,
  host_ok env -> host_text env -> o_output_type o = OutJSON ->
  let gs := gs1 ++ [(now, g, w)] in
  Forall received_group (gs0 ++ gs) -> p <> 0 -> three p (pis gs0) -> Forall (stays p) gs ->
  Forall (fun x => name_of net (grp x) <> [] -> carried_pi x = Some p) gs ->
  name_of net (g, w) <> [] ->
  flat_map (name_of net) (groups_of gs) = earlier ++ place 0 l -> length l = 8%nat -> ~ In end_of_text l ->
  run_groups env o (Channel_new o w0) (gs0 ++ gs) = Ok (c, out) ->
  exists out' line, out = out' ++ [Some line] /\ says line ["other_network"; "ps"] (VStr (rds_text l)).
Proof.
  intros env o w0 gs0 gs1 now g w c out p net l earlier H HT OJ gs F Np T3 S P Pl Sg L8 Nt E.
  pose proof P as P'. apply Forall_app in P'. destruct P' as [_ P2]. apply Forall_cons_iff in P2. destruct P2 as [Pg _]. specialize (Pg Pl).
  destruct (last_shown (eon_inv (env_ucs2 env)) env o H HT OJ (eon_new _) (eon_new_pi _) (eon_had _) (fun h st now c g w st' j => eon_step env o h st now c g w st' j) w0 gs0 gs1 now g w c out p F Np T3 S Pg E)
    as (old & h0 & out0 & out1 & ln & c1 & st & j & D0 & -> & L0 & L1 & I & So & B & _ & Dd & Lj & _ & Ad).
  exists (out0 ++ out1), ln. split; [rewrite app_assoc; reflexivity|].
  specialize (Ad _ (name_of net) P). fold gs in Ad. rewrite Sg in Ad.
  assert (R : received_group (now, g, w)) by (apply Forall_app in F; destruct F as [_ F2]; apply Forall_app in F2; destruct F2 as [_ F2]; inversion F2; assumption).
  pose proof (eon_step env o _ st now c1 g w (ch_station c) j I So R B Dd net) as [I' _].
  pose proof (item_is o now c1 g w R) as It. cbv zeta in It. pose proof (got_b3 o now c1 g w R) as R3. remember (prepared o now c1 g w) as g' eqn:Eg.
  unfold gs in Ad. rewrite (decoded_in_app gs1 [(now, g, w)] out1 [Some ln] L1) in Ad. change (decoded_in [(now, g, w)] [Some ln]) with [(g, w)] in Ad.
  rewrite <- app_assoc, flat_map_app, Ad, app_assoc, set_all_app in I'.
  assert (Wok : Forall (fun pb => fst pb < 8 /\ snd pb < 256) ((flat_map (name_of net) h0 ++ earlier) ++ place 0 l)).
  { rewrite <- app_assoc, <- Ad, <- flat_map_app. apply name_ok. apply Forall_app in F. destruct F as [F0 F1].
    apply Forall_app. split; [pose proof (decoded_received gs0 out0 F0) as X; rewrite D0 in X; apply Forall_app in X; apply X|].
    change [(g, w)] with (decoded_in [(now, g, w)] [Some ln]). rewrite <- (decoded_in_app gs1 [(now, g, w)] out1 [Some ln] L1). apply decoded_received. exact F1. }
  apply Forall_app in Wok. destruct Wok as [W0 W1].
  pose proof (tracks_sized _ _ _ (set_all_tracks (env_ucs2 env) 8 _ (RDSString_new 8) [] (new_tracks 8) W0)) as Z0.
  assert (En0 : s_encoding (set_all (env_ucs2 env) (RDSString_new 8) (flat_map (name_of net) h0 ++ earlier)) = EncBasic) by (rewrite set_all_encoding; reflexivity).
  remember (set_all (env_ucs2 env) (RDSString_new 8) (flat_map (name_of net) h0 ++ earlier)) as s0 eqn:Es0. clear Es0.
  destruct (full_bytes (env_ucs2 env) 8 s0 l Z0 ltac:(congruence) ltac:(lia) (place_bytes _ _ _ W1) ltac:(lia) Nt) as (C1 & S1 & B1 & F1).
  pose proof (complete_str (env_ucs2 env) _ F1 C1) as X. rewrite S1 in X. rewrite set_all_encoding, En0, B1 in X. rewrite <- I' in C1, X.
  destruct (network_item (g, w)) as [|[[n k] d] r] eqn:En; [rewrite name_items, En in Pl; exfalso; apply Pl; reflexivity|].
  destruct (g_has_type g') eqn:Ht; cbn [andb] in It; [|discriminate]. destruct (gt_number (g_type g') =? 14) eqn:Hn; cbn [andb] in It; [|discriminate]. apply N.eqb_eq in Hn.
  assert (r = []). { unfold item_of in It. destruct (_ && _); congruence. } subst r.
  assert (Hk : n = net /\ (k <? 4) = true).
  { rewrite name_items, En in Pl. cbn [flat_map name_part app] in Pl. destruct (N.eqb_spec n net), (k <? 4); cbn [andb app] in Pl; try (exfalso; apply Pl; reflexivity). split; [assumption|reflexivity]. }
  destruct Hk as [-> K].
  destruct (type14_cases env o st g' _ j Dd) as [(_ & Hv & _ & D1)|([Y|[Y|Y]] & _)]; [|congruence| |contradiction].
  2: { exfalso. unfold item_of in It. destruct (gt_version (g_type g')); try discriminate Y. cbn [Version_eqb andb] in It. discriminate. }
  destruct (decodeType14_net _ _ _ _ _ _ _ D1 (fun k => header_on env o st g' k B) R3 Hv) as (_ & J1 & _). rewrite <- It, K, C1 in J1. cbn [andb] in J1.
  unfold says. rewrite (Lj (or_introl (type14_raw st g' Hn))). change ["other_network"; "ps"] with (on "ps"). rewrite J1. cbn [option_map value_of]. congruence.
Qed.

Lemma no_missed : forall net h, ~ In AfMissed (flat_map (frequencies_of net) h).
Proof.
  intros net h X. apply in_flat_map in X. destruct X as (x & _ & X). unfold frequencies_of in X. apply in_flat_map in X. destruct X as ([[n k] d] & _ & X).
  destruct (_ && _) in X; [destruct X as [X|[]]; discriminate X|destruct X].
Qed.
Lemma eon_freqs_shown : forall env o w0 gs0 gs1 now g w c out p net earlier evs c1 c2 fs,
  host_ok env -> host_text env -> o_output_type o = OutJSON ->
  let gs := gs1 ++ [(now, g, w)] in
  Forall received_group (gs0 ++ gs) -> p <> 0 -> three p (pis gs0) -> Forall (stays p) gs ->
  Forall (fun x => frequencies_of net (grp x) <> [] -> carried_pi x = Some p) gs ->
  frequencies_of net (g, w) <> [] ->
  flat_map (frequencies_of net) (groups_of gs) = earlier ++ evs ++ [AfCodes c1 c2] ->
  af_transmission fs (codes_of (evs ++ [AfCodes c1 c2])) -> c1 <> filler \/ c2 <> filler ->
  run_groups env o (Channel_new o w0) (gs0 ++ gs) = Ok (c, out) ->
  exists out' line, out = out' ++ [Some line] /\ shows_numbers line ["other_network"; "alt_frequencies"] (map freq_kHz fs).
Proof.
  intros env o w0 gs0 gs1 now g w c out p net earlier evs c1 c2 fs H HT OJ gs F Np T3 S P Pl Sg T Nf E.
  pose proof P as P'. apply Forall_app in P'. destruct P' as [_ P2]. apply Forall_cons_iff in P2. destruct P2 as [Pg _]. specialize (Pg Pl).
  destruct (last_shown (eon_inv (env_ucs2 env)) env o H HT OJ (eon_new _) (eon_new_pi _) (eon_had _) (fun h st now c g w st' j => eon_step env o h st now c g w st' j) w0 gs0 gs1 now g w c out p F Np T3 S Pg E)
    as (old & h0 & out0 & out1 & ln & c0 & st & j & D0 & -> & L0 & L1 & I & So & B & _ & Dd & Lj & _ & Ad).
  exists (out0 ++ out1), ln. split; [rewrite app_assoc; reflexivity|].
  specialize (Ad _ (frequencies_of net) P). fold gs in Ad. rewrite Sg in Ad.
  assert (R : received_group (now, g, w)) by (apply Forall_app in F; destruct F as [_ F2]; apply Forall_app in F2; destruct F2 as [_ F2]; inversion F2; assumption).
  destruct (I net) as [_ Ia].
  pose proof (item_is o now c0 g w R) as It. cbv zeta in It. pose proof (got_b3 o now c0 g w R) as R3. remember (prepared o now c0 g w) as g' eqn:Eg.
  unfold gs in Ad. rewrite (decoded_in_app gs1 [(now, g, w)] out1 [Some ln] L1), flat_map_app in Ad. change (decoded_in [(now, g, w)] [Some ln]) with [(g, w)] in Ad. cbn [flat_map] in Ad. rewrite app_nil_r in Ad.
  destruct (network_item (g, w)) as [|[[n k] d] r] eqn:En; [rewrite freq_items, En in Pl; exfalso; apply Pl; reflexivity|].
  destruct (g_has_type g') eqn:Ht; cbn [andb] in It; [|discriminate]. destruct (gt_number (g_type g') =? 14) eqn:Hn; cbn [andb] in It; [|discriminate]. apply N.eqb_eq in Hn.
  assert (r = []). { unfold item_of in It. destruct (_ && _); congruence. } subst r.
  assert (Hk : n = net /\ (k =? 4) = true).
  { rewrite freq_items, En in Pl. cbn [flat_map freq_part app] in Pl. destruct (N.eqb_spec n net), (k =? 4); cbn [andb app] in Pl; try (exfalso; apply Pl; reflexivity). split; [assumption|reflexivity]. }
  destruct Hk as [-> K].
  assert (Nm : frequencies_of net (g, w) = [AfCodes (hi d) (lo d)]) by (rewrite freq_items, En; cbn [flat_map freq_part app]; rewrite N.eqb_refl, K; reflexivity).
  rewrite Nm, app_assoc in Ad. apply app_inj_tail in Ad. destruct Ad as [Ad Ec]. assert (hi d = c1) as E1 by congruence. assert (lo d = c2) as E2 by congruence.
  assert (Nm' : ~ In AfMissed evs). { intros X. apply (no_missed net (groups_of gs)). rewrite Sg. apply in_or_app. right. apply in_or_app. left. exact X. }
  rewrite flat_map_app, Ad, app_assoc, fold_left_app in Ia.
  destruct (af_whole fs evs (fold_left af_do (flat_map (frequencies_of net) h0 ++ earlier) af_init) c1 c2 (af_dos_wf _ _ af_init_wf) T Nf (or_intror Nm')) as (l' & I1 & A1).
  rewrite <- Ia in I1.
  destruct (type14_cases env o st g' _ j Dd) as [(_ & Hv & _ & D1)|([Y|[Y|Y]] & _)]; [|congruence| |contradiction].
  2: { exfalso. unfold item_of in It. destruct (gt_version (g_type g')); try discriminate Y. cbn [Version_eqb andb] in It. discriminate. }
  destruct (decodeType14_net _ _ _ _ _ _ _ D1 (fun k => header_on env o st g' k B) R3 Hv) as (_ & _ & J1). rewrite <- It, K, E1, E2 in J1.
  destruct (had_net st g' net) as [_ Ha]. rewrite Ha in J1. destruct J1 as (l2 & I2 & J1). assert (l2 = l') by congruence. subst l2.
  destruct T as (T1 & T2 & _). destruct (at_full l' _ _ T1 T2 (map_length _ _) A1) as [Cp Rw]. rewrite Cp in J1. destruct J1 as (raw & Rw' & J1). assert (raw = map freq_kHz fs) by congruence. subst raw.
  eapply shown_array; [apply (Lj (or_introl (type14_raw st g' Hn)))|]. exact J1.
Qed.
