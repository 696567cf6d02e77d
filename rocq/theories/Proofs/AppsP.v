(* Dispatch to open data applications. *)
From Verif.Model Require Import Util Group Options Tables Json RdsString Tmc Station Channel.
From Verif.Spec Require Import Numerals Unicode JsonText Session Identity History Quality Texts Apps Labels.
From Verif.Proofs Require Import Tac Numerals JsonP Schema StationP TextP CleanP UpdateP SessionP LineP FrameP ChannelP LinesP HistoryP ShowP TraceP KeysP GetP FieldsP StringP PsP RtP EndP LpsP.

Local Open Scope string_scope.
Local Open Scope N_scope.
Local Open Scope list_scope.

Lemma oda_new : forall w, oda_inv [] (Station_new w).
Proof. reflexivity. Qed.
Lemma oda_new_pi : forall w p, oda_inv [] (Station_new_pi w p).
Proof. reflexivity. Qed.
Lemma oda_had : forall h st g, oda_inv h st -> oda_inv h (had st g).
Proof. intros h st g I. unfold oda_inv in *. rewrite had_oda. exact I. Qed.

Lemma find_last : forall t l a, assigned_last t l a -> forall l0, find_type t (rev (l0 ++ l)) = Some a.
Proof.
  intros t l a (l1 & l2 & -> & N0) l0. rewrite app_assoc, rev_app_distr. cbn [rev]. rewrite <- app_assoc. cbn [app].
  assert (N1 : forall b, ~ In (t, b) (rev l2)) by (intros b X; apply (N0 b), in_rev, X). clear N0.
  induction (rev l2) as [|[t' b] r IH]; cbn [app find_type].
  - rewrite eqb_type. reflexivity.
  - destruct (GroupType_eqb t t') eqn:E.
    + exfalso. apply (N1 b). left. f_equal. unfold GroupType_eqb in E. destruct t as [n v], t' as [n' v']. cbn [gt_number gt_version] in E.
      apply andb_prop in E. destruct E as [E1 E2]. apply N.eqb_eq in E1. subst. destruct v, v'; try discriminate; reflexivity.
    + apply IH. intros b' X. apply (N1 b'). right. exact X.
Qed.

Lemma for_apps : forall g, In (g_type g) for_applications -> oda_type g = true.
Proof. intros g X. unfold oda_type. repeat (destruct X as [<-|X]; [reflexivity|]). destruct X. Qed.
Lemma for_apps_own : forall g, In (g_type g) for_applications -> ~ In (g_type g) own_meaning ->
  let n := gt_number (g_type g) in let v := gt_version (g_type g) in
  (n =? 5) = false /\ (n =? 6) = false /\ (n =? 7) && Version_eqb v VA = false /\ (n =? 8) && Version_eqb v VA = false /\ (n =? 9) && Version_eqb v VA = false /\ (n =? 15) && Version_eqb v VA = false.
Proof.
  intros g X N0. cbv zeta. repeat (destruct X as [X|X]; [rewrite <- X in N0 |- *; first [exfalso; apply N0; unfold own_meaning; cbn [In]; tauto | repeat split; reflexivity]|]). destruct X.
Qed.
Lemma oda_dispatch_own : forall env o st g j, In (g_type g) for_applications -> ~ In (g_type g) own_meaning -> decodeByType env o st g j = decodeODAGroup env st g j.
Proof.
  intros env o st g j X N0. destruct (find_type (g_type g) (st_oda_app_for_group st)) as [a|] eqn:Ef; [exact (oda_dispatch env o st g j a (for_apps g X) Ef)|].
  destruct (for_apps_own g X N0) as (H5 & H6 & H7 & H8 & H9 & H15). pose proof (for_apps g X) as Od.
  unfold oda_type in Od. cbv zeta in Od. apply andb_prop in Od. destruct Od as [Od H4]. apply andb_prop in Od. destruct Od as [Od H3].
  apply andb_prop in Od. destruct Od as [H1 H2]. apply negb_true_iff in H1, H2, H3, H4. unfold decodeByType. cbv zeta. rewrite H1.
  apply orb_false_elim in H2. destruct H2 as [H2 H14]. apply orb_false_elim in H2. destruct H2 as [H2 N2]. apply orb_false_elim in H2. destruct H2 as [N0' N1].
  rewrite N0', N1, N2, H14. rewrite (andb_comm _ (Version_eqb _ VB)), H4.
  assert (H3' : forall n, n = 3 \/ n = 4 \/ n = 10 -> (gt_number (g_type g) =? n) && Version_eqb (gt_version (g_type g)) VA = false).
  { intros n Hn. rewrite andb_comm. apply andb_false_iff in H3. apply andb_false_iff. destruct H3 as [H3|H3]; [left; exact H3|right].
    apply orb_false_elim in H3. destruct H3 as [H3 Z1]. apply orb_false_elim in H3. destruct H3 as [Y Z]. destruct Hn as [->|[->| ->]]; assumption. }
  rewrite !H3' by tauto. rewrite Ef, H5, H6, H7, H8, H9, H15. reflexivity.
Qed.

Lemma keys_spec : forall a k, existsb (String.eqb k) (app_keys (Some a)) = true -> k <> "debug" -> In (a, k) applications \/ (~ decoded_app a /\ k = "unknown_oda").
Proof.
  intros a k H N0. unfold app_keys in H. assert (D : forall x, k = x -> In (a, x) applications -> In (a, k) applications) by (intros x -> X; exact X).
  assert (Sx : forall x, (k =? x)%string || false = true -> k = x) by (intros x X; rewrite orb_false_r in X; apply String.eqb_eq, X).
  assert (Sx2 : forall x, (k =? x)%string || ((k =? "debug")%string || false) = true -> k = x).
  { intros x X. apply orb_prop in X. destruct X as [X|X]; [apply String.eqb_eq, X|]. apply Sx in X. contradiction. }
  destruct (N.eqb_spec a 0x0093) as [->|A1]; [left; apply (D "dab"); [apply Sx2, H|cbn [In applications]; tauto]|].
  destruct (N.eqb_spec a 0x4BD7) as [->|A2]; [left; apply (D "radiotext_plus"); [apply Sx, H|cbn [In applications]; tauto]|].
  destruct (N.eqb_spec a 0x4BD8) as [->|A3]; [left; apply (D "ert_plus"); [apply Sx, H|cbn [In applications]; tauto]|].
  destruct (N.eqb_spec a 0x6552) as [->|A4]; [left; apply (D "enhanced_radiotext"); [apply Sx, H|cbn [In applications]; tauto]|].
  destruct (N.eqb_spec a 0xCD46) as [->|A5]; cbn [orb] in H; [left; apply (D "tmc"); [apply Sx2, H|cbn [In applications]; tauto]|].
  destruct (N.eqb_spec a 0xCD47) as [->|A6]; [left; apply (D "tmc"); [apply Sx2, H|cbn [In applications]; tauto]|].
  right. split; [|apply Sx, H]. intros (k' & X). cbn [In applications] in X. repeat (destruct X as [X|X]; [injection X as X _; congruence|]). destruct X.
Qed.
Lemma decoded_app_eqb : forall a, ~ decoded_app a -> (a =? 0x0093) = false /\ (a =? 0x4BD7) = false /\ (a =? 0x4BD8) = false /\ (a =? 0x6552) = false /\ (a =? 0xCD46) = false /\ (a =? 0xCD47) = false.
Proof.
  intros a N0. assert (X : forall b k, In (b, k) applications -> (a =? b) = false).
  { intros b k Hi. apply N.eqb_neq. intros ->. apply N0. exists k. exact Hi. }
  repeat split; eapply X; cbn [In applications]; auto 10.
Qed.

Lemma common_header : forall k, ~ In k common_members -> in_header k = false.
Proof.
  intros k N0. unfold in_header. destruct (existsb _ _) eqn:E; [|reflexivity]. exfalso. apply N0. apply existsb_exists in E. destruct E as (x & Hx & Ex). apply String.eqb_eq in Ex. subst x.
  cbn [In header_names] in Hx. cbn [In common_members]. tauto.
Qed.

Lemma oda_raw_hex : forall o now c g, received_group (now, g, 0) ->
  hex_group (blk_data (g_b2 g)) (blk_is_received (g_b3 g)) (blk_data (g_b3 g)) (blk_is_received (g_b4 g)) (blk_data (g_b4 g)) (oda_raw (prepared o now c g 0)).
Proof.
  intros o now c g (_ & _ & R2 & R3 & R4). unfold oda_raw, g_has. rewrite !prepared_get, !prepared_block. unfold g_get. cbn [g_block].
  change 0x1F with (N.ones 5). rewrite N.land_ones. change (2 ^ 5) with 32.
  do 3 eexists. split; [reflexivity|]. split; [apply getHexString_ok; [|lia]; change (16 ^ N.of_nat 2) with 256; lia|].
  split; unfold hex_block; [destruct (blk_is_received (g_b3 g))|destruct (blk_is_received (g_b4 g))]; try reflexivity; apply getHexString_ok; try lia; assumption.
Qed.

(* The table of channels is the plan *)
Lemma dab_table : dab_channels = dab_plan.
Proof. vm_compute. reflexivity. Qed.

Lemma dab_once : NoDup (map fst dab_plan).
Proof.
  assert (E : forall l, (fix nd (l : list N) := match l with [] => true | x :: r => negb (existsb (N.eqb x) r) && nd r end) l = true -> NoDup l).
  { induction l as [|x r IH]; [constructor|]. intros X. apply andb_prop in X. destruct X as [X1 X2]. constructor; [|exact (IH X2)]. intros Y. apply negb_true_iff in X1.
    assert (Z : existsb (N.eqb x) r = true) by (apply existsb_exists; exists x; split; [exact Y|apply N.eqb_refl]). congruence. }
  apply E. vm_compute. reflexivity.
Qed.

Lemma find_code_in : forall (l : list (N * string)) f ch, NoDup (map fst l) -> In (f, ch) l -> find_code f l = Some ch.
Proof.
  induction l as [|[f' ch'] l IH]; intros f ch D X; [destruct X|]. cbn [find_code]. inversion D as [|y r D1 D2 Ey]. subst. destruct X as [X|X].
  - assert (f' = f) as -> by congruence. assert (ch' = ch) as -> by congruence. rewrite N.eqb_refl. reflexivity.
  - destruct (N.eqb_spec f f') as [->|Ne]; [exfalso; apply D1; apply in_map_iff; exists (f', ch); split; [reflexivity|exact X]|exact (IH _ _ D2 X)].
Qed.

Lemma dab_found : forall f ch, In (f, ch) dab_plan -> find_code f dab_channels = Some ch.
Proof. intros f ch X. rewrite dab_table. exact (find_code_in _ _ _ dab_once X). Qed.

Lemma dab_not_found : forall f, (forall ch, ~ In (f, ch) dab_plan) -> find_code f dab_channels = None.
Proof.
  intros f X. rewrite dab_table. assert (Y : forall l : list (N * string), (forall ch, ~ In (f, ch) l) -> find_code f l = None).
  { induction l as [|[f' ch'] l IH]; intros Z; [reflexivity|]. cbn [find_code]. destruct (N.eqb_spec f f') as [->|Ne]; [exfalso; apply (Z ch'); left; reflexivity|]. apply IH. intros ch W. apply (Z ch). right. exact W. }
  exact (Y _ X).
Qed.

Section Apps.
  Variable env : Env.
  Variable o : Options.
  Hypothesis H : host_ok env.
  Hypothesis HT : host_text env.
  Hypothesis OJ : o_output_type o = OutJSON.

  (* The table of applications when the last group is decoded *)
  Lemma app_state : forall w0 gs0 gs1 now g c out p,
    let gs := gs1 ++ [(now, g, 0)] in
    Forall received_group (gs0 ++ gs) -> p <> 0 -> three p (pis gs0) -> Forall (stays p) gs -> carried_pi (now, g, 0) = Some p ->
    g_has_type g = true -> In (g_type g) for_applications ->
    run_groups env o (Channel_new o w0) (gs0 ++ gs) = Ok (c, out) ->
    exists out' ln c1 st j, let g' := prepared o now c1 g 0 in out = out' ++ [Some ln] /\ st_ok st /\ bler_ok g' /\ decoded env o st g' = Ok (ch_station c, j) /\
      print_json env j = Ok ln /\ (raw_group st g' = false -> forall q, line_at q ln = option_map (value_of (env_float env)) (jget q j)) /\
      (Forall (fun x => announcement (snd (fst x), snd x) <> [] -> carried_pi x = Some p) gs ->
       forall a, assigned_last (g_type g) (flat_map announcement (groups_of gs)) a -> find_type (g_type g') (st_oda_app_for_group st) = Some a) /\
      (not_announced (g_type g) (groups_of (gs0 ++ gs)) -> find_type (g_type g') (st_oda_app_for_group st) = None).
  Proof.
    intros w0 gs0 gs1 now g c out p gs F Np T3 S Pg Ht Fa E.
    destruct (last_shown oda_inv env o H HT OJ oda_new oda_new_pi oda_had (fun h st now c g w st' j I _ R _ D => oda_step env o h st now c g w st' j I R D) w0 gs0 gs1 now g 0 c out p F Np T3 S Pg E)
      as (old & h0 & out0 & out1 & ln & c1 & st & j & D0 & -> & L0 & L1 & I & So & B & _ & Dd & Sh & Pj & Ad).
    exists (out0 ++ out1), ln, c1, st, j. cbv zeta. split; [apply app_assoc|]. split; [exact So|]. split; [exact B|]. split; [exact Dd|]. split; [exact Pj|]. split; [auto|].
    assert (Ty : g_type (prepared o now c1 g 0) = g_type g) by (rewrite prepared_type; reflexivity). rewrite Ty.
    assert (N0 : announcement (g, 0) = []).
    { unfold announcement, carries. destruct (blk_is_received (g_b3 g)); [|rewrite ?andb_false_r; reflexivity]. repeat (destruct Fa as [<-|Fa]; [cbn [gt_number gt_version]; rewrite ?andb_false_r; try reflexivity; destruct (_ && _); reflexivity|]). destruct Fa. }
    pose proof I as Iv. unfold oda_inv in I. rewrite I. split.
    - intros P a La. specialize (Ad _ announcement P). unfold gs in Ad. rewrite (decoded_in_app gs1 [(now, g, 0)] out1 [Some ln] L1), flat_map_app in Ad. fold gs in Ad.
      cbn [decoded_in combine flat_map app] in Ad. rewrite N0, !app_nil_r in Ad. rewrite flat_map_app, Ad. apply find_last. exact La.
    - intros Na. rewrite <- I. apply (not_announced_none _ _ _ Iv). intros a X. apply (Na a). apply in_flat_map in X. destruct X as (y & Y1 & Y2). apply in_flat_map. exists y. split; [|exact Y2].
      unfold groups_of. rewrite map_app. apply in_or_app. apply in_app_or in Y1. destruct Y1 as [Y1|Y1].
      + left. apply (decoded_sub gs0 out0). rewrite D0. apply in_or_app. right. exact Y1.
      + right. unfold gs. rewrite map_app. apply in_or_app. left. exact (decoded_sub _ _ _ Y1).
  Qed.

  Lemma app_latest : forall w0 gs0 gs1 now g c out p a,
    let gs := gs1 ++ [(now, g, 0)] in
    Forall received_group (gs0 ++ gs) -> p <> 0 -> three p (pis gs0) -> Forall (stays p) gs -> carried_pi (now, g, 0) = Some p ->
    Forall (fun x => announcement (snd (fst x), snd x) <> [] -> carried_pi x = Some p) gs ->
    g_has_type g = true -> In (g_type g) for_applications -> assigned_last (g_type g) (flat_map announcement (groups_of gs)) a ->
    run_groups env o (Channel_new o w0) (gs0 ++ gs) = Ok (c, out) ->
    exists out' line, out = out' ++ [Some line] /\
      (forall k v, says line [k] v -> ~ In k common_members -> k <> "debug" -> In (a, k) applications \/ (~ decoded_app a /\ k = "unknown_oda")) /\
      (~ decoded_app a -> (exists t, says line ["unknown_oda"; "app_id"] (VStr t) /\ hex4 t a) /\
      exists t, says line ["unknown_oda"; "raw_data"] (VStr t) /\ hex_group (blk_data (g_b2 g)) (blk_is_received (g_b3 g)) (blk_data (g_b3 g)) (blk_is_received (g_b4 g)) (blk_data (g_b4 g)) t) /\
      (a = 0x0093 -> blk_is_received (g_b3 g) = true -> blk_is_received (g_b4 g) = true -> N.testbit (blk_data (g_b2 g)) 4 = false ->
       let khz := 16 * ((blk_data (g_b2 g) mod 4) * 65536 + blk_data (g_b3 g)) in
       says line ["dab"; "mode"] (VStr (bs (nth (N.to_nat ((blk_data (g_b2 g) / 4) mod 4)) ["unspecified"; "I"; "II or III"; "IV"] ""))) /\
       (exists t, says line ["dab"; "kilohertz"] (VNum t) /\ numeral 10 t = Some khz) /\
       (forall ch, In (khz, ch) dab_plan -> says line ["dab"; "channel"] (VStr (bs ch))) /\
       ((forall ch, ~ In (khz, ch) dab_plan) -> line_at ["dab"; "channel"] line = None) /\
       (exists t, says line ["dab"; "ensemble_id"] (VStr (bs "0x" ++ t)) /\ hex4 t (blk_data (g_b4 g)))).
  Proof.
    intros w0 gs0 gs1 now g c out p a gs F Np T3 S Pg P Ht Fa La E.
    destruct (app_state w0 gs0 gs1 now g c out p F Np T3 S Pg Ht Fa E) as (out' & ln & c1 & st & j & Eo & So & B & Dd & Pj & Sh & Fl & _).
    specialize (Fl P a La). exists out', ln. split; [exact Eo|]. set (g' := prepared o now c1 g 0) in *.
    destruct (host_env env H) as [Ee _].
    assert (R : received_group (now, g, 0)) by (apply Forall_app in F; destruct F as [_ F2]; apply Forall_app in F2; destruct F2 as [_ F2]; inversion F2; assumption).
    assert (Ty : g_type g' = g_type g) by (unfold g'; rewrite prepared_type; reflexivity).
    assert (Ht' : g_has_type g' = true) by (unfold g'; rewrite prepared_has_type, Ht; reflexivity).
    assert (Od : oda_type g' = true) by (apply for_apps; rewrite Ty; exact Fa).
    assert (Ha : a < 65536).
    { destruct La as (l1 & l2 & El & _). assert (X : In (g_type g, a) (flat_map announcement (groups_of gs))) by (rewrite El; apply in_or_app; right; left; reflexivity).
      apply in_flat_map in X. destruct X as ([g1 w1] & Y & Z). apply in_map_iff in Y. destruct Y as ([[t1 g2] w2] & Y1 & Y2). cbn [fst snd] in Y1. injection Y1 as -> ->.
      apply Forall_app in F. destruct F as [_ F2]. rewrite Forall_forall in F2. destruct (F2 _ Y2) as (_ & _ & _ & _ & R4). unfold announcement in Z.
      destruct (carries 3 g1 w1); [|destruct Z]. destruct (gt_version (g_type g1)); [|destruct Z|destruct Z]. destruct Z as [Z|[]]. assert (a = blk_data (g_b4 g1)) as -> by congruence. exact R4. }
    split; [|].
    - intros k v Sk Nk Nd. assert (Tk : type_keys o st g' = app_keys (Some a)).
      { pose proof Od as Od'. unfold type_keys, oda_type in *. cbv zeta in *. rewrite Fl.
        apply andb_prop in Od'. destruct Od' as [Od' H4]. apply andb_prop in Od'. destruct Od' as [Od' H3]. apply andb_prop in Od'. destruct Od' as [H1 H2]. apply negb_true_iff in H1, H2, H3, H4.
        rewrite Ty in *. clear - Fa. repeat (destruct Fa as [<-|Fa]; [reflexivity|]). destruct Fa. }
      destruct (existsb (String.eqb k) (app_keys (Some a))) eqn:Ek; [apply keys_spec; assumption|].
      exfalso. pose proof (says_decoded env j ln k [] v H Pj Nd Sk) as J.
      rewrite (decoded_absent env o st g' _ j k Ee So B Dd (common_header k Nk)) in J; [discriminate|]. intros _. rewrite Tk. exact Ek.
    - unfold decoded in Dd. rewrite Ht', (oda_dispatch _ _ _ _ _ _ Od (eq_trans (f_equal (find_type (g_type g')) (had_oda st g')) Fl)) in Dd.
      unfold decodeODAGroup in Dd. rewrite had_oda, Fl in Dd. cbv zeta in Dd. split.
      + intros Nd. destruct (decoded_app_eqb a Nd) as (E1 & E2 & E3 & E4 & E5 & E6). rewrite E1, E2, E3, E4, E5, E6 in Dd. cbn [orb] in Dd. do 3 unbind Dd.
        assert (y1 = j) as <- by congruence.
        assert (Rw : raw_group st g' = false). { unfold raw_group. cbv zeta. rewrite Fl. unfold raw_app. rewrite E2, E3, E4. reflexivity. }
        split; [exists (getHexString 4 a); split; [|apply getHexString_ok; [exact Ha|lia]]; unfold says; rewrite (Sh Rw); got|].
        exists (oda_raw g'). split; [unfold says; rewrite (Sh Rw); got|]. exact (oda_raw_hex o now c1 g R).
      + intros -> R3 R4 Nb. cbn [N.eqb Pos.eqb] in Dd. unbind Dd. assert (y = j) as -> by congruence. clear Dd. rename B0 into Dd.
        assert (Rw : raw_group st g' = false). { unfold raw_group. cbv zeta. rewrite Fl. reflexivity. }
        destruct R as (_ & R1 & R2 & R3' & R4'). unfold parseDAB in Dd. cbv zeta in Dd.
        assert (G2 : g_get g' BLOCK2 = blk_data (g_b2 g)) by (unfold g'; rewrite prepared_get; reflexivity).
        assert (G3 : g_get g' BLOCK3 = blk_data (g_b3 g)) by (unfold g'; rewrite prepared_get; reflexivity).
        assert (G4 : g_get g' BLOCK4 = blk_data (g_b4 g)) by (unfold g'; rewrite prepared_get; reflexivity).
        rewrite G2, G3, G4, getBool_testbit, Nb in Dd. do 3 unbind Dd.
        assert (J1 : jget ["dab"; "kilohertz"] j = Some (JN (16 * getBits2 18 (blk_data (g_b2 g)) (blk_data (g_b3 g)) 0))).
        { erewrite jset_other; [|exact Dd|reflexivity]. destruct (find_code _ _); [erewrite jset_other; [|exact B2|reflexivity]|injection B2 as <-]; got. }
        pose proof (jset_same _ _ _ _ Dd) as J2.
        assert (Ev : getBits2 18 (blk_data (g_b2 g)) (blk_data (g_b3 g)) 0 = (blk_data (g_b2 g) mod 4) * 65536 + blk_data (g_b3 g)).
        { rewrite getBits2_arith by assumption. change (2 ^ 0) with 1. change (2 ^ 16) with 65536 in *. change (2 ^ 18) with (65536 * 4). rewrite N.div_1_r. revert R3'. generalize (blk_data (g_b3 g)) (blk_data (g_b2 g)). clear. intros b3 b2 Hb.
          rewrite (N.mod_mul_r _ 65536 4) by discriminate. rewrite (N.add_comm (b2 * 65536)), N.mod_add, N.div_add by discriminate. rewrite N.mod_small, N.div_small by exact Hb. lia. }
        assert (J0 : jget ["dab"; "mode"] j = Some (JS (nth (N.to_nat (getBits 2 (blk_data (g_b2 g)) 2)) dab_modes EmptyString))).
        { erewrite jset_other; [|exact Dd|reflexivity]. destruct (find_code _ _); [erewrite jset_other; [|exact B2|reflexivity]|injection B2 as <-]; got. }
        assert (Jc : jget ["dab"; "channel"] j = option_map JS (find_code (16 * getBits2 18 (blk_data (g_b2 g)) (blk_data (g_b3 g)) 0) dab_channels)).
        { erewrite jset_other; [|exact Dd|reflexivity]. destruct (find_code _ _); [exact (jset_same _ _ _ _ B2)|injection B2 as <-].
          got. cbn [jget]. rewrite (header_no env o st g' "dab" B eq_refl). reflexivity. }
        cbv zeta. unfold says. rewrite !(Sh Rw), J0, J1, J2, Jc, Ev. split; [|split; [|split; [|split]]].
        * rewrite getBits_arith. reflexivity.
        * exists (dec_string (16 * ((blk_data (g_b2 g) mod 4) * 65536 + blk_data (g_b3 g)))). split; [|apply dec_string_value]. unfold JN. cbn [value_of option_map]. rewrite dec_string_Z_of_N. reflexivity.
        * intros ch X. rewrite (dab_found _ _ X). reflexivity.
        * intros X. rewrite (dab_not_found _ X). reflexivity.
        * exists (getHexString 4 (blk_data (g_b4 g))). split; [reflexivity|apply getHexString_ok; [exact R4'|lia]].
  Qed.

  Lemma app_none : forall w0 gs0 gs1 now g c out p,
    let gs := gs1 ++ [(now, g, 0)] in
    Forall received_group (gs0 ++ gs) -> p <> 0 -> three p (pis gs0) -> Forall (stays p) gs -> carried_pi (now, g, 0) = Some p ->
    g_has_type g = true -> In (g_type g) for_applications -> ~ In (g_type g) own_meaning -> not_announced (g_type g) (groups_of (gs0 ++ gs)) ->
    run_groups env o (Channel_new o w0) (gs0 ++ gs) = Ok (c, out) ->
    exists out' line, out = out' ++ [Some line] /\
      (forall k v, says line [k] v -> ~ In k common_members -> k = "unknown_oda") /\
      (exists t, says line ["unknown_oda"; "raw_data"] (VStr t) /\ hex_group (blk_data (g_b2 g)) (blk_is_received (g_b3 g)) (blk_data (g_b3 g)) (blk_is_received (g_b4 g)) (blk_data (g_b4 g)) t) /\ line_at ["unknown_oda"; "app_id"] line = None.
  Proof.
    intros w0 gs0 gs1 now g c out p gs F Np T3 S Pg Ht Fa No Na E.
    destruct (app_state w0 gs0 gs1 now g c out p F Np T3 S Pg Ht Fa E) as (out' & ln & c1 & st & j & Eo & So & B & Dd & Pj & Sh & _ & Fl).
    specialize (Fl Na). exists out', ln. split; [exact Eo|]. set (g' := prepared o now c1 g 0) in *.
    assert (Ty : g_type g' = g_type g) by (unfold g'; rewrite prepared_type; reflexivity).
    assert (Ht' : g_has_type g' = true) by (unfold g'; rewrite prepared_has_type, Ht; reflexivity).
    assert (Rw : raw_group st g' = false).
    { unfold raw_group. cbv zeta. rewrite Fl, Ty. destruct (for_apps_own g Fa No) as (_ & _ & _ & _ & _ & X). rewrite andb_comm. exact X. }
    unfold decoded in Dd. rewrite Ht' in Dd. rewrite oda_dispatch_own in Dd by (rewrite Ty; assumption).
    unfold decodeODAGroup in Dd. rewrite had_oda, Fl in Dd. cbv zeta in Dd. unbind Dd. assert (y = j) as -> by congruence. clear Dd.
    assert (Ej : j = JObj (obj_put "unknown_oda" (JObj [("raw_data", JStr (oda_raw g'))]) (header env o st g'))).
    { cbn [jset jupd] in B0. unfold jset in B0. cbn [jupd] in B0. rewrite (header_no env o st g' "unknown_oda" B eq_refl) in B0. cbn [bind jupd] in B0. congruence. }
    split; [|split].
    - intros k v Sk Nk. destruct (String.eqb_spec k "unknown_oda") as [->|N0]; [reflexivity|]. exfalso. unfold says in Sk. rewrite (Sh Rw), Ej in Sk. cbn [jget] in Sk.
      rewrite find_put_other, (header_no env o st g' k B (common_header k Nk)) in Sk by congruence. discriminate.
    - exists (oda_raw g'). split; [unfold says; rewrite (Sh Rw), Ej; cbn [jget]; rewrite find_put; reflexivity|]. apply (oda_raw_hex o now c1 g).
      apply Forall_app in F. destruct F as [_ F2]. apply Forall_app in F2. destruct F2 as [_ F2]. inversion F2; assumption.
    - rewrite (Sh Rw), Ej. cbn [jget]. rewrite find_put. reflexivity.
  Qed.
End Apps.
