(* Which groups can show which member; the last group of a run. *)
From Verif.Model Require Import Util Group Options Json Tmc Station Channel.
From Verif.Spec Require Import Unicode JsonText Session Identity History Quality.
From Verif.Proofs Require Import Tac JsonP Schema StationP TextP CleanP ClockP BlerP UpdateP SessionP LineP FrameP ChannelP LinesP HistoryP ShowP TraceP.

Local Open Scope string_scope.
Local Open Scope N_scope.

Definition oda_keys : list string :=
  ["unknown_oda"; "dab"; "radiotext_plus"; "ert_plus"; "enhanced_radiotext"; "tmc"; "debug"].
Definition app_keys (a : option N) : list string :=
  match a with
  | None => ["unknown_oda"]
  | Some a => if a =? 0x0093 then ["dab"; "debug"] else if a =? 0x4BD7 then ["radiotext_plus"] else if a =? 0x4BD8 then ["ert_plus"]
              else if a =? 0x6552 then ["enhanced_radiotext"] else if (a =? 0xCD46) || (a =? 0xCD47) then ["tmc"; "debug"] else ["unknown_oda"]
  end.
Definition type_keys (o : Options) (st : Station) (g : Group) : list string :=
  let n := gt_number (g_type g) in
  let v := gt_version (g_type g) in
  let p k := if o_show_partial o then k else [] in
  if Version_eqb v VC then ["open_data_app"; "rft"; "debug"]
  else if n =? 0 then ["di"; "ta"; "is_music"; "alt_frequencies_a"; "alt_frequencies_b"; "ps"] ++ p ["partial_alt_frequencies"; "partial_ps"; "debug"]
  else if n =? 1 then ["prog_item_number"; "prog_item_started"; "debug"; "has_linkage"; "country"; "tmc_id"; "language"; "slc_broadcaster_bits"; "ews"]
  else if n =? 2 then ["radiotext"; "debug"] ++ p ["rt_ab"; "partial_radiotext"]
  else if (n =? 3) && Version_eqb v VA then ["open_data_app"; "tmc"; "debug"]
  else if (n =? 4) && Version_eqb v VA then ["clock_time"; "debug"]
  else if (n =? 10) && Version_eqb v VA then ["pty_name"]
  else if n =? 14 then ["other_network"; "debug"]
  else if (n =? 15) && Version_eqb v VB then ["di"; "ta"; "is_music"]
  else match find_type (g_type g) (st_oda_app_for_group st) with
  | Some a => app_keys (Some a)
  | None => if n =? 5 then ["transparent_data"] else if n =? 6 then ["in_house_data"]
            else if ((n =? 7) || (n =? 9)) && Version_eqb v VA then ["debug"]
            else if (n =? 8) && Version_eqb v VA then ["tmc"; "debug"]
            else if (n =? 15) && Version_eqb v VA then ["long_ps"] ++ p ["partial_long_ps"; "debug"]
            else ["unknown_oda"]
  end.

Lemma decodeODA_keys : forall F R env st g j, keys_ok (env_tmc env) -> conf F R j -> st_ok st ->
  writes F (app_keys (find_type (g_type g) (st_oda_app_for_group st))) -> good (gets F R) (decodeODAGroup env st g j).
Proof.
  intros F R env st g j K C So W. unfold decodeODAGroup. cbv zeta. destruct (find_type _ _) as [a|]; cbn [app_keys] in W.
  - destruct (a =? 0x0093).
    { eapply good_bind; [apply parseDAB_good; eassumption|]. intros x Cx. apply good_ok. split; assumption. }
    destruct (a =? 0x4BD7).
    { eapply good_bind; [apply (parseRadioTextPlus_good F R); [exact C|left; reflexivity|exact W]|]. intros [rt x] Cx. apply good_ok. split; [apply set_radiotext_ok; exact So|exact Cx]. }
    destruct (a =? 0x4BD8).
    { eapply good_bind; [apply (parseRadioTextPlus_good F R); [exact C|right; reflexivity|exact W]|]. intros [rt x] Cx. apply good_ok. split; [apply set_ert_ok; exact So|exact Cx]. }
    destruct (a =? 0x6552); [apply parseEnhancedRT_good; assumption|].
    destruct ((a =? 0xCD46) || (a =? 0xCD47)); [apply receiveTMC_good; assumption|].
    inversion W; subst.
    eapply good_bind; [apply jset_any; [exact C|reflexivity|discriminate|assumption]|]. intros j1 C1.
    eapply good_bind; [apply jset_any; [exact C1|reflexivity|discriminate|assumption]|]. intros j2 C2.
    eapply good_bind; [apply jset_any; [exact C2|reflexivity|discriminate|assumption]|]. intros j3 C3.
    apply good_ok. split; assumption.
  - inversion W; subst.
    eapply good_bind; [apply jset_any; [exact C|reflexivity|discriminate|assumption]|]. intros j1 C1. apply good_ok. split; assumption.
Qed.

Lemma decodeByType_keys : forall F R env o st g j, mjd_total -> keys_ok (env_tmc env) -> conf F R j -> st_ok st ->
  writes F (type_keys o st g) -> good (gets F R) (decodeByType env o st g j).
Proof.
  intros F R env o st g j M K C So W. unfold decodeByType. cbv zeta. unfold type_keys in W. cbv zeta in W.
  assert (Keep : forall r, good (conf F R) r -> good (gets F R) (x <- r ;; Ok (st, x))).
  { intros r G. eapply good_bind; [exact G|]. intros x Cx. apply good_ok. split; assumption. }
  assert (Dbg : forall t, writes F ["debug"] -> good (conf F R) (debug t j)).
  { intros t H. apply jpush_conf; [exact C|reflexivity|discriminate|]. inversion H; assumption. }
  destruct (Version_eqb _ VC); [apply decodeC_good; assumption|].
  destruct (_ =? 0); [apply decodeType0_good; assumption|].
  destruct (_ =? 1); [apply Keep, decodeType1_good; assumption|].
  destruct (_ =? 2); [apply decodeType2_good; assumption|].
  destruct ((_ =? 3) && _); [apply decodeType3A_good; assumption|].
  destruct ((_ =? 4) && _); [apply Keep, decodeType4A_good; assumption|].
  destruct ((_ =? 10) && _); [apply decodeType10A_good; assumption|].
  destruct (_ =? 14); [apply decodeType14_good; assumption|].
  destruct ((_ =? 15) && Version_eqb _ VB); [apply Keep, decodeType15B_good; assumption|].
  destruct (find_type _ _) as [a|] eqn:Ef.
  { apply decodeODA_keys; try assumption. rewrite Ef. exact W. }
  destruct (_ =? 5); [apply decodeType5_good; assumption|].
  destruct (_ =? 6); [apply Keep, decodeType6_good; assumption|].
  destruct (gt_number (g_type g) =? 7) eqn:E7; destruct (gt_number (g_type g) =? 9) eqn:E9; destruct (Version_eqb (gt_version (g_type g)) VA) eqn:Ev;
    cbn [orb andb] in W |- *; try (apply Keep, Dbg; exact W).
  all: destruct (gt_number (g_type g) =? 8) eqn:E8; cbn [andb] in W |- *; try (apply receiveTMC_good; assumption);
       try (apply N.eqb_eq in E8; apply N.eqb_eq in E9; congruence);
       destruct (gt_number (g_type g) =? 15); cbn [andb] in W |- *; try (apply decodeType15A_good; assumption);
       try (apply decodeODA_keys; try assumption; rewrite Ef; exact W).
  all: try (apply Keep, Dbg; exact W).
Qed.

(* A member that the decoder of the group does not write is absent *)
Lemma decoded_absent : forall env o st g st' j k, env_ok env -> st_ok st -> bler_ok g -> decoded env o st g = Ok (st', j) ->
  in_header k = false -> (g_has_type g = true -> existsb (String.eqb k) (type_keys o st g) = false) -> jget [k] j = None.
Proof.
  intros env o st g st' j k E So B D Hk Hn.
  set (F := fun x => in_header x || String.eqb k x).
  destruct (header_conf env o st g B) as [C Cn].
  assert (C' : conf (String.eqb k) (fun _ => None) (JObj (header env o st g))).
  { destruct C as (m & Em & X & _). injection Em as <-. exists (header env o st g). split; [reflexivity|]. split; [exact X|].
    intros k' H. apply String.eqb_eq in H. subst k'. apply Cn. exact Hk. }
  unfold decoded in D. destruct (g_has_type g).
  - destruct (decodeByType_keys (String.eqb k) (fun _ => None) env o (had st g) g _ mjd_total_holds (proj1 E) C' (had_ok _ _ So)) as ([s1 j1] & D1 & _ & C1).
    { unfold writes. rewrite Forall_forall. intros x Hx. destruct (String.eqb k x) eqn:Ex; [|reflexivity]. exfalso.
      assert (type_keys o (had st g) g = type_keys o st g) as T.
      { unfold type_keys. unfold had. destruct (_ || _); reflexivity. }
      rewrite T in Hx. assert (existsb (String.eqb k) (type_keys o st g) = true) by (apply existsb_exists; exists x; split; assumption).
      specialize (Hn eq_refl). congruence. }
    rewrite D in D1. injection D1 as <- <-. apply (conf_get _ _ _ k C1). apply String.eqb_refl.
  - injection D as _ <-. apply (conf_get _ _ _ k C'). apply String.eqb_refl.
Qed.

(* What a line says was decoded *)
Lemma says_decoded : forall env j line k p v, host_ok env -> print_json env j = Ok line -> k <> "debug" -> line_at (k :: p) line = Some v ->
  option_map (value_of (env_float env)) (jget (k :: p) j) = Some v.
Proof.
  intros env j line k p v H Pr Nk L. destruct (host_env env H) as [Ee FL]. destruct (print_good env j Ee) as (j' & Pj & _ & D).
  rewrite Pj in Pr. injection Pr as <-. rewrite line_at_dump in L by exact FL. destruct D as [->|[_ ->]]; [exact L|].
  exfalso. cbn [jget obj_find] in L. destruct (String.eqb k "debug") eqn:E; [apply String.eqb_eq in E; congruence|]. discriminate.
Qed.

(* The last group of a run, with what is known of the station *)
Lemma last_group : forall (I : list (Group * N) -> Station -> Prop) env o, host_ok env -> o_output_type o = OutJSON ->
  (forall w, I [] (Station_new w)) -> (forall w p, I [] (Station_new_pi w p)) ->
  (forall h st g, I h st -> I h (had st g)) ->
  (forall h st now c g w st' j, I h st -> st_ok st -> received_group (now, g, w) -> bler_ok (prepared o now c g w) -> decoded env o st (prepared o now c g w) = Ok (st', j) -> I (h ++ [(g, w)])%list st') ->
  forall gs now g w w0 c out line, Forall received_group (gs ++ [(now, g, w)]) ->
  run_groups env o (Channel_new o w0) (gs ++ [(now, g, w)]) = Ok (c, out ++ [Some line])%list ->
  exists old h st c1 j, decoded_in (gs ++ [(now, g, w)]) (out ++ [Some line]) = (old ++ h ++ [(g, w)])%list /\ I h st /\ st_ok st /\
    decoded env o st (prepared o now c1 g w) = Ok (ch_station c, j) /\ print_json env j = Ok line /\ bler_ok (prepared o now c1 g w) /\
    ch_ok c1 /\ st = tuned c1 (prepared o now c1 g w).
Proof.
  intros I env o H OJ I0 I1 Ih Id gs now g w w0 c out line F E.
  apply Forall_app in F. destruct F as [F1 F2]. inversion F2 as [|? ? Rg _]; subst. pose proof (proj1 Rg) as Hb.
  destruct (run_snoc _ _ _ _ _ _ _ _ _ E) as (c1 & out1 & l1 & E1 & E2 & Eo). apply app_inj_tail in Eo. destruct Eo as [<- <-].
  destruct (station_history I env o H OJ I0 I1 Ih Id gs w0 c1 out F1 E1) as (old & h & D & Hh).
  destruct (run_ok _ _ _ _ _ _ H (channel_new_ok o w0) F1 E1) as [Hc _].
  assert (T : exists old' h', decoded_in gs out = (old' ++ h')%list /\ I h' (tuned c1 (prepared o now c1 g w)) /\ st_ok (tuned c1 (prepared o now c1 g w))).
  { destruct (tuned_cases c1 (prepared o now c1 g w)) as [->|(p & ->)].
    - exists old, h. split; [exact D|]. split; [exact Hh|apply Hc].
    - exists (decoded_in gs out), []. rewrite app_nil_r. split; [reflexivity|]. split; [apply I1|apply station_new_pi_ok]. }
  destruct T as (old' & h' & D' & Ht & Hs).
  destruct (process_cases env o now c1 g w c (Some line) H OJ Hc Hb E2) as [[X _]|(l & j & Xl & Dd & Pj)]; [discriminate|]. injection Xl as <-.
  exists old', h', (tuned c1 (prepared o now c1 g w)), c1, j.
  rewrite decoded_in_app by (exact (run_length _ _ _ _ _ _ E1)). unfold decoded_in at 2. cbn [combine flat_map app]. rewrite D', <- app_assoc.
  repeat (split; [first [reflexivity|assumption]|]). split; [|split; [exact Hc|reflexivity]].
  apply prepared_bler; assumption.
Qed.
