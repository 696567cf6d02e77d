(* What the last line of a run shows, once a station is confirmed. *)
From Verif.Model Require Import Util Group Options Tables Json RdsString Tmc Station Channel.
From Verif.Spec Require Import Unicode JsonText Session Identity History Quality.
From Verif.Proofs Require Import Tac Numerals JsonP Schema StationP TextP CleanP UpdateP SessionP LineP FrameP ChannelP LinesP HistoryP ShowP TraceP KeysP StringP PsP.

Local Open Scope string_scope.
Local Open Scope N_scope.
Local Open Scope list_scope.

Section End_.
  Variable I : list (Group * N) -> Station -> Prop.
  Variable env : Env.
  Variable o : Options.
  Hypothesis H : host_ok env.
  Hypothesis HT : host_text env.
  Hypothesis OJ : o_output_type o = OutJSON.
  Hypothesis New : forall w, I [] (Station_new w).
  Hypothesis New_pi : forall w p, I [] (Station_new_pi w p).
  Hypothesis Had : forall h st g, I h st -> I h (had st g).
  Hypothesis Step : forall h st now c g w st' j, I h st -> st_ok st -> received_group (now, g, w) ->
    bler_ok (prepared o now c g w) -> decoded env o st (prepared o now c g w) = Ok (st', j) -> I (h ++ [(g, w)]) st'.

  (* The last group is decoded in a state with the history of everything decoded before *)
  Lemma last_shown : forall w0 gs0 gs1 now g w c out p,
    let gs := gs1 ++ [(now, g, w)] in
    Forall received_group (gs0 ++ gs) -> p <> 0 -> three p (pis gs0) -> Forall (stays p) gs -> carried_pi (now, g, w) = Some p ->
    run_groups env o (Channel_new o w0) (gs0 ++ gs) = Ok (c, out) ->
    exists old h0 out0 out1 ln c1 st j,
      let g' := prepared o now c1 g w in
      decoded_in gs0 out0 = old ++ h0 /\ out = out0 ++ out1 ++ [Some ln] /\ length gs0 = length out0 /\ length gs1 = length out1 /\
      I (h0 ++ decoded_in gs1 out1) st /\ st_ok st /\ bler_ok g' /\ st_clean st /\
      decoded env o st g' = Ok (ch_station c, j) /\
      (raw_group st g' = false \/ g_has_type g' = false -> forall q, line_at q ln = option_map (value_of (env_float env)) (jget q j)) /\
      print_json env j = Ok ln /\
      (forall (A : Type) (f : Group * N -> list A), Forall (fun x => f (grp x) <> [] -> carried_pi x = Some p) gs ->
         flat_map f (decoded_in gs (out1 ++ [Some ln])) = flat_map f (groups_of gs)).
  Proof.
    intros w0 gs0 gs1 now g w c out p gs F Np T3 S Pg E.
    pose proof (host_text_txt env HT) as Et.
    apply Forall_app in F. destruct F as [F0 F].
    rewrite run_groups_app in E. destruct (run_groups env o (Channel_new o w0) gs0) as [[c0 out0]| |] eqn:E0; cbn [bind] in E; try discriminate.
    destruct (run_groups env o c0 gs) as [[c2 out2]| |] eqn:E1; cbn [bind] in E; try discriminate. injection E as <- <-.
    pose proof (three_locked _ _ _ _ _ _ _ OJ E0 Np T3) as L.
    destruct (station_history I env o H OJ New New_pi Had Step gs0 w0 c0 out0 F0 E0) as (old & h0 & D0 & I0).
    pose proof (run_fine env o gs0 _ _ _ H Et (created_fine o _ (or_introl (ex_intro _ w0 eq_refl))) F0 E0) as Fc0.
    destruct (run_snoc _ _ _ _ _ _ _ _ _ E1) as (c1 & out1 & line & Ea & Eb & ->).
    pose proof S as S'. apply Forall_app in S'. destruct S' as [S1 S2]. inversion S2 as [|? ? Sg0 _]; subst.
    pose proof F as F'. apply Forall_app in F'. destruct F' as [F1 F2]. inversion F2 as [|? ? R _]; subst.
    destruct (steady_history I env o p H OJ Had Step gs1 h0 c0 c1 out1 (proj1 Fc0) L I0 F1 S1 Ea) as (L1 & Hc1 & I1).
    destruct (locked_printed _ _ _ _ _ _ _ _ _ H OJ Hc1 (proj1 R) L1 Pg Eb) as (ln & ->).
    pose proof (run_fine env o gs1 _ _ _ H Et Fc0 F1 Ea) as Fc1.
    assert (Tn : tuned c1 (prepared o now c1 g w) = ch_station c1) by (apply (locked_tuned p c1 o now g w L1 (or_intror Pg))).
    destruct (process_cases env o now c1 g w c2 (Some ln) H OJ Hc1 (proj1 R) Eb) as [[X _]|(l & j & X & Dd & Pj)]; [discriminate X|]. injection X as <-.
    rewrite Tn in Dd.
    exists old, h0, out0, out1, ln, c1, (ch_station c1), j. cbv zeta.
    split; [exact D0|]. split; [reflexivity|]. split; [exact (run_length _ _ _ _ _ _ E0)|]. split; [exact (run_length _ _ _ _ _ _ Ea)|]. split; [exact I1|].
    split; [apply Hc1|]. split; [apply (prepared_bler o now c1 g w Hc1 (proj1 R))|]. split; [apply Fc1|]. split; [exact Dd|]. split; [|split; [exact Pj|]].
    - intros Rw. rewrite <- Tn in Rw. destruct (process_shows env o now c1 g w c2 ln H Et OJ Fc1 (proj1 R) Eb Rw) as (j' & D' & Lj). rewrite Tn, Dd in D'. injection D' as <-. exact Lj.
    - intros A f P. apply (all_decoded A f env o p H OJ gs c0 c2 _ (proj1 Fc0) L F S P E1).
  Qed.
End End_.

(* A group type that is decoded in the same way whatever has been announced is never raw *)
Lemma raw_fixed : forall st g, oda_type g = false -> raw_group st g = false.
Proof.
  intros st g Ht. unfold raw_group. unfold oda_type in Ht. cbv zeta in *. destruct (find_type _ _) as [a|].
  - destruct (raw_app a); [|reflexivity]. cbn [andb]. exact Ht.
  - destruct (gt_version (g_type g)); cbn [Version_eqb negb andb] in *; try reflexivity.
    destruct (N.eqb_spec (gt_number (g_type g)) 15) as [E|]; [|reflexivity]. rewrite E in Ht. discriminate Ht.
Qed.
