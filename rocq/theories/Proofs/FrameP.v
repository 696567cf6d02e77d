(* Which parts of the station each group may change. *)
From Verif.Proofs Require Import Tac Schema CleanP.
From Verif.Model Require Import Util Float Group Options Tables Freq RdsString Rft Json Tmc Station.

Inductive field := Fps | Flps | Frt | Fplus | Fert | Fpty | Ftdc | Fodag | Fodap | Feonps | Feonaf | Faf | Ftmc | Frft.
Definition field_eqb (a b : field) : bool :=
  match a, b with
  | Fps, Fps | Flps, Flps | Frt, Frt | Fplus, Fplus | Fert, Fert | Fpty, Fpty | Ftdc, Ftdc | Fodag, Fodag
  | Fodap, Fodap | Feonps, Feonps | Feonaf, Feonaf | Faf, Faf | Ftmc, Ftmc | Frft, Frft => true
  | _, _ => false
  end.
Definition off (l : list field) (f : field) : Prop := existsb (field_eqb f) l = false.

Definition same_id (st st' : Station) : Prop :=
  st_pi st' = st_pi st /\ st_has_pi st' = st_has_pi st /\ st_which_channel st' = st_which_channel st /\
  st_last_group_had_pi st' = st_last_group_had_pi st.

Definition frame (l : list field) (st st' : Station) : Prop :=
  same_id st st' /\
  (off l Fps -> st_ps st' = st_ps st) /\
  (off l Flps -> st_long_ps st' = st_long_ps st) /\
  (off l Frt -> rt_text (st_radiotext st') = rt_text (st_radiotext st) /\ rt_ab (st_radiotext st') = rt_ab (st_radiotext st) /\
                rt_previous_potentially_complete_message (st_radiotext st') = rt_previous_potentially_complete_message (st_radiotext st)) /\
  (off l Fplus -> rt_plus (st_radiotext st') = rt_plus (st_radiotext st)) /\
  (off l Fert -> st_ert st' = st_ert st) /\
  (off l Fpty -> st_ptyname st' = st_ptyname st) /\
  (off l Ftdc -> st_full_tdc st' = st_full_tdc st) /\
  (off l Fodag -> st_oda_app_for_group st' = st_oda_app_for_group st) /\
  (off l Fodap -> st_oda_app_for_pipe st' = st_oda_app_for_pipe st) /\
  (off l Feonps -> st_eon_ps_names st' = st_eon_ps_names st) /\
  (off l Feonaf -> st_eon_alt_freqs st' = st_eon_alt_freqs st) /\
  (off l Faf -> st_alt_freq_list st' = st_alt_freq_list st) /\
  (off l Ftmc -> st_tmc st' = st_tmc st) /\
  (off l Frft -> st_rft_file st' = st_rft_file st).

Ltac frm := unfold frame, same_id, off; cbn [fst];
  repeat match goal with |- _ /\ _ => split | |- _ -> _ => let H := fresh in intro H; first [discriminate H | clear H] end;
  first [reflexivity | idtac].

Ltac kany := repeat first
  [ match goal with |- keeps _ (Ok _) => apply keeps_ok; solve [frm] end
  | match goal with |- keeps _ (bind ?m _) => eapply keeps_bind; [apply keeps_true|intros ? _] end
  | match goal with |- keeps _ (let '(_, _) := ?x in _) => destruct x end
  | match goal with |- keeps _ (if ?b then _ else _) => destruct b end
  | match goal with |- keeps _ (match ?b with _ => _ end) => destruct b end ].

Notation fr l st := (fun sj : Station * json => frame l st (fst sj)).

Lemma frame0 : forall env o st g j, keeps (fr [Fps; Faf] st) (decodeType0 env o st g j).
Proof.
  intros. unfold decodeType0. cbv zeta. do 3 (eapply keeps_bind; [apply keeps_true|intros ? _]).
  kif; [eapply keeps_bind; [apply keeps_true|intros b _]; destruct b; apply keeps_ok; frm|].
  apply (keeps_bind _ _ (fun sj : Station * json => exists l, fst sj = set_af st l)).
  - kif; [eapply keeps_bind; [apply keeps_true|intros [l j1] _]; apply keeps_ok; exists l; reflexivity|].
    apply keeps_ok. exists (st_alt_freq_list st). destruct st; reflexivity.
  - intros [st1 j1] [l E]. cbn [fst] in E. subst st1. kany.
Qed.
Lemma frame2 : forall env o st g j, keeps (fr [Frt] st) (decodeType2 env o st g j).
Proof.
  intros. unfold decodeType2. cbv zeta. cbn [rt_isABChanged]. cbv beta iota zeta.
  kif; [apply keeps_ok; frm|]. eapply keeps_bind; [apply keeps_true|intros j1 _].
  assert (P : forall rt, rt_plus rt = rt_plus (st_radiotext st) -> frame [Frt] st (set_radiotext st rt)).
  { intros rt E. frm. exact E. }
  assert (Q : forall (a : bool) rt b p x y p' x' y', rt_plus rt = rt_plus (st_radiotext st) ->
     rt_plus (rt_update (env_ucs2 env)
        (if b : bool then rt_update (env_ucs2 env) (rt_set_text (if a then rt_set_text rt (s_clear (rt_text rt)) else rt)
            (s_resize (rt_text (if a then rt_set_text rt (s_clear (rt_text rt)) else rt)) 64)) p x y
         else rt_set_text (if a then rt_set_text rt (s_clear (rt_text rt)) else rt)
            (s_resize (rt_text (if a then rt_set_text rt (s_clear (rt_text rt)) else rt)) 32)) p' x' y') = rt_plus (st_radiotext st)).
  { intros a rt b p x y p' x' y' E. destruct a, b; exact E. }
  kif.
  - destruct (s_str _ _).
    + repeat first [ match goal with |- keeps _ (Ok _) => apply keeps_ok; apply P; apply Q; reflexivity end
        | match goal with |- keeps _ (bind ?m _) => eapply keeps_bind; [apply keeps_true|intros ? _] end
        | match goal with |- keeps _ (if ?b then _ else _) => destruct b end
        | match goal with |- keeps _ (match ?b with _ => _ end) => destruct b end ].
    + eapply keeps_bind; [apply keeps_true|intros ? _]. apply keeps_ok. apply P. reflexivity.
  - repeat first [ match goal with |- keeps _ (Ok _) => apply keeps_ok; apply P; apply Q; reflexivity end
        | match goal with |- keeps _ (bind ?m _) => eapply keeps_bind; [apply keeps_true|intros ? _] end
        | match goal with |- keeps _ (if ?b then _ else _) => destruct b end
        | match goal with |- keeps _ (match ?b with _ => _ end) => destruct b end ].
Qed.
Lemma frame3 : forall st g j, keeps (fr [Fodag; Fplus; Fert; Ftmc] st) (decodeType3A st g j).
Proof. intros. unfold decodeType3A. cbv zeta. kany. Qed.
Lemma frame5 : forall env st g j, keeps (fr [Ftdc] st) (decodeType5 env st g j).
Proof. intros. unfold decodeType5. cbv zeta. kany. Qed.
Lemma frame10 : forall env st g j, keeps (fr [Fpty] st) (decodeType10A env st g j).
Proof. intros. unfold decodeType10A. cbv zeta. kany. Qed.
Lemma frame14 : forall env o st g j, keeps (fr [Feonps; Feonaf] st) (decodeType14 env o st g j).
Proof. intros. unfold decodeType14. cbv zeta. kany. Qed.
Lemma frame15 : forall env o st g j, keeps (fr [Flps] st) (decodeType15A env o st g j).
Proof. intros. unfold decodeType15A. cbv zeta. kany. Qed.
Lemma frame_tmc : forall env st g j, keeps (fr [Ftmc] st) (receiveTMC env st g j).
Proof. intros. unfold receiveTMC. cbv zeta. kany. Qed.

Definition app_fields (a : N) : list field :=
  if a =? 0x4BD7 then [Frt; Fplus] else if (a =? 0x4BD8) || (a =? 0x6552) then [Fert]
  else if (a =? 0xCD46) || (a =? 0xCD47) then [Ftmc] else [].

Lemma frame_oda : forall env st g j, keeps (fr (match find_type (g_type g) (st_oda_app_for_group st) with
  | Some a => app_fields a | None => [] end) st) (decodeODAGroup env st g j).
Proof.
  intros. unfold decodeODAGroup. cbv zeta. destruct (find_type _ _) as [a|]; [|kany]. unfold app_fields.
  destruct (a =? 0x0093) eqn:E0.
  { apply N.eqb_eq in E0. subst a. cbn [N.eqb Pos.eqb orb]. kany. }
  destruct (a =? 0x4BD7).
  { unfold parseRadioTextPlus. cbv zeta. eapply keeps_bind; [apply keeps_true|]. intros [rt j1] _. apply keeps_ok. frm. }
  destruct (a =? 0x4BD8); cbn [orb].
  { eapply keeps_bind; [apply keeps_true|]. intros [rt j1] _. apply keeps_ok. frm. }
  destruct (a =? 0x6552). { unfold parseEnhancedRT. cbv zeta. kany. }
  destruct (_ || _); [apply frame_tmc|kany].
Qed.

Lemma frame_C : forall st g j, keeps (fr [Fodap; Frft] st) (decodeC st g j).
Proof.
  intros. unfold decodeC. cbv zeta.
  repeat first [ match goal with |- keeps _ (Ok _) => apply keeps_ok; solve [frm] end
    | match goal with |- keeps _ (bind ?m _) => eapply keeps_bind; [apply keeps_true|intros ? _] end
    | match goal with |- keeps _ (if ?b then _ else _) => destruct b end ].
  - unfold decodeC_rft. cbv zeta. kany.
  - unfold decodeC_assign. cbv zeta. kany.
Qed.

(* Groups that an open data application may use *)
Definition oda_type (g : Group) : bool :=
  let n := gt_number (g_type g) in
  let v := gt_version (g_type g) in
  negb (Version_eqb v VC) && negb ((n =? 0) || (n =? 1) || (n =? 2) || (n =? 14)) &&
  negb (Version_eqb v VA && ((n =? 3) || (n =? 4) || (n =? 10))) && negb (Version_eqb v VB && (n =? 15)).

Definition group_fields (st : Station) (g : Group) : list field :=
  let n := gt_number (g_type g) in
  if Version_eqb (gt_version (g_type g)) VC then [Fodap; Frft]
  else if n =? 0 then [Fps; Faf]
  else if n =? 1 then []
  else if n =? 2 then [Frt]
  else if oda_type g then
    match find_type (g_type g) (st_oda_app_for_group st) with
    | Some a => app_fields a
    | None => if n =? 5 then [Ftdc] else if (n =? 8) && Version_eqb (gt_version (g_type g)) VA then [Ftmc]
              else if (n =? 15) && Version_eqb (gt_version (g_type g)) VA then [Flps] else []
    end
  else if n =? 3 then [Fodag; Fplus; Fert; Ftmc]
  else if n =? 10 then [Fpty]
  else if n =? 14 then [Feonps; Feonaf] else [].

Lemma decodeByType_frame : forall env o st g j, keeps (fr (group_fields st g) st) (decodeByType env o st g j).
Proof.
  intros env o st g j. unfold decodeByType, group_fields, oda_type. cbv zeta.
  assert (Keep : forall l r, keeps (fr l st) (j0 <- r ;; Ok (st, j0))).
  { intros l r. eapply keeps_bind; [apply keeps_true|]. intros ? _. apply keeps_ok. frm. }
  destruct (Version_eqb (gt_version (g_type g)) VC) eqn:Ec; [apply frame_C|].
  destruct (gt_number (g_type g) =? 0); [apply frame0|].
  destruct (gt_number (g_type g) =? 1); [apply Keep|].
  destruct (gt_number (g_type g) =? 2); [apply frame2|].
  destruct (gt_number (g_type g) =? 3) eqn:E3.
  { apply N.eqb_eq in E3. rewrite E3. cbn [N.eqb Pos.eqb andb orb negb].
    destruct (Version_eqb (gt_version (g_type g)) VA) eqn:Ea; cbn [andb orb negb].
    - apply frame3.
    - rewrite !andb_false_r. cbn [negb]. pose proof (frame_oda env st g j) as O.
      destruct (find_type _ _); exact O. }
  destruct (gt_number (g_type g) =? 4) eqn:E4.
  { apply N.eqb_eq in E4. rewrite E4. cbn [N.eqb Pos.eqb andb orb negb].
    destruct (Version_eqb (gt_version (g_type g)) VA) eqn:Ea; cbn [andb orb negb].
    - apply Keep.
    - rewrite !andb_false_r. cbn [negb]. pose proof (frame_oda env st g j) as O.
      destruct (find_type _ _); exact O. }
  destruct (gt_number (g_type g) =? 10) eqn:E10.
  { apply N.eqb_eq in E10. rewrite E10. cbn [N.eqb Pos.eqb andb orb negb].
    destruct (Version_eqb (gt_version (g_type g)) VA) eqn:Ea; cbn [andb orb negb].
    - apply frame10.
    - rewrite !andb_false_r. cbn [negb]. pose proof (frame_oda env st g j) as O.
      destruct (find_type _ _); exact O. }
  destruct (gt_number (g_type g) =? 14) eqn:E14; cbn [andb orb negb]; [apply frame14|].
  rewrite !andb_false_r. cbn [negb andb].
  destruct (gt_number (g_type g) =? 15) eqn:E15.
  { apply N.eqb_eq in E15. rewrite E15. cbn [N.eqb Pos.eqb andb orb negb].
    destruct (gt_version (g_type g)) eqn:Ev; [| |discriminate]; cbn [Version_eqb andb orb negb].
    - pose proof (frame_oda env st g j) as O. destruct (find_type _ _); [exact O|apply frame15].
    - apply Keep. }
  rewrite !andb_false_r. cbn [negb andb].
  pose proof (frame_oda env st g j) as O. destruct (find_type _ _); [exact O|].
  destruct (gt_number (g_type g) =? 5); [apply frame5|].
  destruct (gt_number (g_type g) =? 6) eqn:E6.
  { apply N.eqb_eq in E6. rewrite E6. cbn [N.eqb Pos.eqb andb]. apply Keep. }
  destruct (gt_number (g_type g) =? 7) eqn:E7.
  { apply N.eqb_eq in E7. rewrite E7. cbn [N.eqb Pos.eqb andb]. kif; [apply Keep|exact O]. }
  cbn [andb]. kif; [apply frame_tmc|]. kif; [apply Keep|]. exact O.
Qed.

Lemma frame_id : forall l st st', frame l st st' -> same_id st st'.
Proof. intros l st st' [H _]. exact H. Qed.
