(* Channels: which station is shown, when groups are printed, error rates and times. *)
From Verif.Proofs Require Import Tac Numerals FreqP Utf8P JsonP Schema StationP TextP CleanP ClockP BlerP UpdateP SessionP LineP FrameP.
From Verif.Model Require Import Util Float Group BlockSync Options Tables Json Tmc Station Channel.
From Verif.Spec Require Import Unicode JsonText Calendar Session Identity.

Local Open Scope string_scope.
Local Open Scope N_scope.

(* ---- one group ---- *)
Definition after (o : Options) (now : Z) (c : Channel) (g : Group) (w : N) (st : Station) : Channel :=
  mkChannel (ch_which_channel c) (next_pi c (prepared o now c g w)) (ch_block_stream c) st (next_avg o c g) (stamp_time o now c g).

Lemma process_json : forall env o now c g w, o_output_type o = OutJSON ->
  processGroup env o now c g w =
  ('(st, line) <- updateAndPrint env o (tuned c (prepared o now c g w)) (prepared o now c g w) ;; Ok (after o now c g w st, line)).
Proof. intros. rewrite process_eq. rewrite H. reflexivity. Qed.

Lemma process_silent : forall env o now c g w, o_output_type o = OutJSON ->
  let g' := prepared o now c g w in
  silent (tuned c g') g' = true -> processGroup env o now c g w = Ok (after o now c g w (had (tuned c g') g'), None).
Proof.
  intros env o now c g w OJ g' S. rewrite process_json by exact OJ. fold g'. rewrite update_eq, S.
  destruct (st_has_pi _ && o_streams o); reflexivity.
Qed.

Lemma process_spoken : forall env o now c g w, o_output_type o = OutJSON -> env_ok env -> ch_ok c -> g_has_bler g = false ->
  let g' := prepared o now c g w in
  silent (tuned c g') g' = false ->
  exists st' j line, decoded env o (tuned c g') g' = Ok (st', j) /\
    processGroup env o now c g w = Ok (after o now c g w st', Some line) /\ st_ok st' /\ print_json env j = Ok line /\
    (forall k, in_header k = true -> jget [k] j = obj_find k (header env o (tuned c g') g')).
Proof.
  intros env o now c g w OJ E Hc Hb g' S.
  destruct (prepared_bler o now c g w Hc Hb) as [_ B].
  destruct (update_line env o (tuned c g') g' E (tuned_ok c g' Hc) B S) as (st' & j & line & D & U & S' & Pr & Hd).
  exists st', j, line. split; [exact D|]. split; [|split; [exact S'|split; [exact Pr|exact Hd]]].
  rewrite process_json by exact OJ. fold g'. rewrite U. reflexivity.
Qed.

Lemma decoded_frame : forall env o st g,
  keeps (fun sj : Station * json => frame (if g_has_type g then group_fields (had st g) g else []) (had st g) (fst sj)) (decoded env o st g).
Proof.
  intros env o st g. unfold decoded. destruct (g_has_type g); [apply decodeByType_frame|].
  apply keeps_ok. frm.
Qed.

(* The identity of the station after a group, whatever is printed *)
Lemma process_station : forall env o now c g w c' line, o_output_type o = OutJSON ->
  processGroup env o now c g w = Ok (c', line) ->
  let g' := prepared o now c g w in
  same_id (had (tuned c g') g') (ch_station c') /\ ch_cached_pi c' = next_pi c g' /\ ch_which_channel c' = ch_which_channel c /\
  (line = None <-> silent (tuned c g') g' = true).
Proof.
  intros env o now c g w c' line OJ H g'. rewrite process_json in H by exact OJ. fold g' in H. rewrite update_eq in H.
  destruct (silent (tuned c g') g') eqn:S.
  - assert (E : Ok (after o now c g w (had (tuned c g') g'), @None bytes) = Ok (c', line)).
    { destruct (st_has_pi _ && o_streams o); exact H. }
    injection E as <- <-. cbn. repeat split; auto.
  - destruct (prelude _ _ _ _) as [j0| |] eqn:Ep; cbn [bind] in H; try discriminate.
    set (d := if g_has_type g' then _ else _) in H.
    assert (F : keeps (fun sj : Station * json => same_id (had (tuned c g') g') (fst sj)) d).
    { subst d. destruct (g_has_type g'); [|apply keeps_ok; repeat split].
      eapply keeps_imp; [apply decodeByType_frame|]. intros a Ha. apply (frame_id _ _ _ Ha). }
    destruct d as [[st' j]| |]; cbn [bind] in H; try discriminate.
    destruct (print_json env j); cbn [bind] in H; try discriminate. injection H as <- <-. cbn.
    split; [apply (F _ eq_refl)|]. split; [reflexivity|]. split; [reflexivity|]. split; discriminate.
Qed.

Lemma prepared_type : forall o now c g w, g_type (prepared o now c g w) = if w =? 0 then g_type g else mkGroupType (gt_number (g_type g)) VC.
Proof.
  intros. unfold prepared, streamed, measured, stamped. destruct (w =? 0), (o_bler o), (_ && _); reflexivity.
Qed.
Lemma prepared_block : forall o now c g w b, g_block (prepared o now c g w) b = g_block g b.
Proof.
  intros. unfold prepared, streamed, measured, stamped. destruct (w =? 0), (o_bler o), (_ && _), b; reflexivity.
Qed.
Lemma prepared_has_type : forall o now c g w, g_has_type (prepared o now c g w) = if w =? 0 then g_has_type g else true.
Proof.
  intros. unfold prepared, streamed, measured, stamped. destruct (w =? 0), (o_bler o), (_ && _); reflexivity.
Qed.

Lemma prepared_pi : forall o now c g w,
  (if g_hasPI (prepared o now c g w) then Some (g_getPI (prepared o now c g w)) else None) = carried_pi (now, g, w).
Proof.
  intros o now c g w. unfold g_hasPI, g_getPI. 
  change (g_b1 (prepared o now c g w)) with (g_block (prepared o now c g w) BLOCK1).
  change (g_b3 (prepared o now c g w)) with (g_block (prepared o now c g w) BLOCK3).
  rewrite !prepared_block, prepared_type. cbn [g_block carried_pi]. destruct (w =? 0); [|reflexivity].
  destruct (gt_version (g_type g)); cbn [Version_eqb negb andb]; try reflexivity;
    (destruct (blk_is_received (g_b1 g)); [reflexivity|]; destruct (_ && _); reflexivity).
Qed.

(* ---- the PI bookkeeping ---- *)
(* h: the PI codes received, latest first; s: the station shown *)
Definition pi_inv (c : CachedPI) (s : option N) (h : list N) : Prop :=
  pi_prev1 c = hd 0 h /\
  (pi_has_previous c = true -> (exists r, h = pi_prev1 c :: pi_prev2 c :: r) \/ (h = [pi_prev1 c] /\ pi_prev2 c = 0)) /\
  (pi_has_previous c = false -> h = [] \/ exists a b r, h = a :: b :: r /\ a <> b) /\
  (pi_confirmed c <> 0 -> s = Some (pi_confirmed c)) /\
  ((length h <= 1)%nat -> pi_confirmed c = 0).

Lemma pi_inv_reset : forall s, pi_inv CachedPI_reset s [].
Proof. intros s. split; [reflexivity|]. split; [discriminate|]. split; [left; reflexivity|]. split; [intros H; elim H; reflexivity|reflexivity]. Qed.

Definition next_station (c : CachedPI) (s : option N) (p : N) : option N :=
  match snd (pi_update c p) with ChangeConfirmed => Some (pi_confirmed (fst (pi_update c p))) | _ => s end.

Lemma pi_step : forall c s h p, pi_inv c s h ->
  pi_inv (fst (pi_update c p)) (next_station c s p) (p :: h) /\
  (next_station c s p <> s -> next_station c s p = Some p /\ exists r, h = p :: p :: r) /\
  (p <> 0 -> (exists r, h = p :: p :: r) -> next_station c s p = Some p).
Proof.
  intros c s h p (I1 & I2 & I3 & I4 & I5). unfold next_station, pi_update. cbv zeta.
  set (t := pi_has_previous c && (pi_prev1 c =? pi_prev2 c) && (p =? pi_prev1 c)).
  assert (T : t = true -> (exists r, h = p :: p :: r) \/ (h = [0] /\ p = 0 /\ pi_confirmed c = 0)).
  { intros H. unfold t in H. apply andb_prop in H. destruct H as [H H3]. apply andb_prop in H. destruct H as [H1 H2].
    apply N.eqb_eq in H2, H3. destruct (I2 H1) as [(r & E)|(E & Z)].
    - left. exists r. rewrite <- H2, <- H3 in E. exact E.
    - right. rewrite H2, Z in E. split; [exact E|]. split; [lia|]. apply I5. rewrite E. cbn. lia. }
  assert (T' : (exists r, h = p :: p :: r) -> t = true).
  { intros (r & E). unfold t. destruct (pi_has_previous c) eqn:Hp.
    - destruct (I2 eq_refl) as [(r' & E')|(E' & _)]; rewrite E in E'; [|discriminate].
      injection E' as E1 E2 _. rewrite <- E1, <- E2, N.eqb_refl. reflexivity.
    - destruct (I3 eq_refl) as [E'|(a & b & r' & E' & N')]; rewrite E in E'; [discriminate|].
      injection E' as E1 E2 _. subst. contradiction. }
  set (conf := if t then p else pi_confirmed c).
  set (rst := pi_has_previous c && (negb (p =? conf) && negb (pi_prev1 c =? conf) && negb (p =? pi_prev1 c))).
  assert (R : t = true -> rst = false).
  { intros Ht. unfold rst, conf. rewrite Ht, N.eqb_refl. cbn. apply andb_false_r. }
  split; [|split].
  - destruct rst eqn:Er.
    + (* forgotten *)
      assert (t = false) by (destruct t; [specialize (R eq_refl); congruence|reflexivity]).
      cbn [fst snd]. rewrite H. unfold pi_inv. cbn [pi_prev1 pi_prev2 pi_has_previous pi_confirmed].
      split; [reflexivity|]. split; [discriminate|]. split.
      * intros _. right. unfold rst in Er. apply andb_prop in Er. destruct Er as [Hp Er]. apply andb_prop in Er.
        destruct Er as [_ Er]. apply negb_true_iff, N.eqb_neq in Er.
        destruct (I2 Hp) as [(r & E)|(E & _)]; rewrite E; [exists p, (pi_prev1 c), (pi_prev2 c :: r)|exists p, (pi_prev1 c), []];
          (split; [reflexivity|exact Er]).
      * split; [intros H0; elim H0; reflexivity|reflexivity].
    + unfold pi_inv. cbn [fst snd pi_prev1 pi_prev2 pi_has_previous pi_confirmed].
      split; [reflexivity|]. split; [|split; [discriminate|]].
      { intros _. destruct h as [|x h']; cbn [hd] in I1; rewrite I1; [right; split; reflexivity|left; eexists; reflexivity]. }
      split.
      { unfold conf. destruct t eqn:Et.
        - intros Hp. destruct (p =? pi_confirmed c) eqn:Ec; [|reflexivity]. apply N.eqb_eq in Ec. rewrite Ec. apply I4. congruence.
        - exact I4. }
      { cbn [length]. intros L. unfold conf. destruct t eqn:Et; [|apply I5; lia].
        destruct (T eq_refl) as [(r & E)|(E & Ep & _)]; [rewrite E in L; cbn in L; lia|exact Ep]. }
  - destruct t eqn:Et.
    + rewrite R by reflexivity. cbn [fst snd pi_confirmed]. unfold conf. destruct (p =? pi_confirmed c) eqn:Ec.
      * intros H. elim H. reflexivity.
      * intros _. split; [reflexivity|]. destruct (T eq_refl) as [H|(_ & Ep & Ec')]; [exact H|].
        apply N.eqb_neq in Ec. congruence.
    + destruct rst; cbn [snd]; intros H; elim H; reflexivity.
  - intros Np Hr. specialize (T' Hr). rewrite T', R by exact T'. cbn [fst snd pi_confirmed]. unfold conf. rewrite T'.
    destruct (p =? pi_confirmed c) eqn:Ec; [|reflexivity]. apply N.eqb_eq in Ec. rewrite Ec. apply I4. congruence.
Qed.

Lemma three_rev : forall p l, three p l <-> exists r, rev l = p :: p :: p :: r.
Proof.
  intros p l. split.
  - intros (e & ->). rewrite rev_app_distr. exists (rev e). reflexivity.
  - intros (r & E). exists (rev r). rewrite <- (rev_involutive l), E. cbn [rev]. rewrite <- !app_assoc. reflexivity.
Qed.

Lemma same_station : forall st st', same_id st st' -> 
  (if st_has_pi st' then Some (st_pi st') else None) = if st_has_pi st then Some (st_pi st) else None.
Proof. intros st st' (H1 & H2 & _). rewrite H1, H2. reflexivity. Qed.
Lemma had_station : forall st g, st_has_pi (had st g) = st_has_pi st /\ st_pi (had st g) = st_pi st /\ st_which_channel (had st g) = st_which_channel st.
Proof. intros st g. unfold had. destruct (_ || _); repeat split. Qed.

(* one group: the invariant and the station *)
Lemma process_pi : forall env o now c g w c' line, o_output_type o = OutJSON ->
  processGroup env o now c g w = Ok (c', line) ->
  match carried_pi (now, g, w) with
  | Some p => ch_cached_pi c' = fst (pi_update (ch_cached_pi c) p) /\ station_of c' = next_station (ch_cached_pi c) (station_of c) p
  | None => ch_cached_pi c' = ch_cached_pi c /\ station_of c' = station_of c
  end.
Proof.
  intros env o now c g w c' line OJ H. destruct (process_station env o now c g w c' line OJ H) as (Id & Ca & _).
  rewrite <- (prepared_pi o now c g w). set (g' := prepared o now c g w) in *.
  unfold station_of at 1 3. apply same_station in Id. rewrite Id.
  destruct (had_station (tuned c g') g') as (-> & -> & _). rewrite Ca. unfold tuned, next_station, station_of, next_pi.
  destruct (g_hasPI g'); [|split; reflexivity].
  split; [reflexivity|]. destruct (pi_update (ch_cached_pi c) (g_getPI g')) as [cc st]. cbn [fst snd].
  destruct st; reflexivity.
Qed.

Lemma pis_app : forall a b, pis (a ++ b) = (pis a ++ pis b)%list.
Proof. intros a b. unfold pis. apply flat_map_app. Qed.

Lemma run_groups_app : forall env o a b c, run_groups env o c (a ++ b) =
  ('(c1, out1) <- run_groups env o c a ;; '(c2, out2) <- run_groups env o c1 b ;; Ok (c2, out1 ++ out2)%list).
Proof.
  intros env o. induction a as [|[[now g] w] a IH]; intros b c; cbn [run_groups app bind].
  - destruct (run_groups env o c b) as [[c2 out2]| |]; reflexivity.
  - destruct (processGroup env o now c g w) as [[c1 l1]| |]; cbn [bind]; [|reflexivity|reflexivity].
    rewrite IH. destruct (run_groups env o c1 a) as [[c2 out2]| |]; cbn [bind]; [|reflexivity|reflexivity].
    destruct (run_groups env o c2 b) as [[c3 out3]| |]; reflexivity.
Qed.

Lemma run_snoc : forall env o gs now g w c c2 out, run_groups env o c (gs ++ [(now, g, w)]) = Ok (c2, out) ->
  exists c1 out1 line, run_groups env o c gs = Ok (c1, out1) /\ processGroup env o now c1 g w = Ok (c2, line) /\ out = (out1 ++ [line])%list.
Proof.
  intros env o gs now g w c c2 out H. rewrite run_groups_app in H.
  destruct (run_groups env o c gs) as [[c1 out1]| |]; cbn [bind] in H; try discriminate. cbn [run_groups] in H.
  destruct (processGroup env o now c1 g w) as [[c3 line]| |] eqn:E; cbn [bind] in H; try discriminate. injection H as <- <-.
  exists c1, out1, line. auto.
Qed.

Lemma run_pi : forall env o w0 gs c out, o_output_type o = OutJSON -> run_groups env o (Channel_new o w0) gs = Ok (c, out) ->
  pi_inv (ch_cached_pi c) (station_of c) (rev (pis gs)).
Proof.
  intros env o w0 gs. induction gs as [|[[now g] w] gs IH] using rev_ind; intros c out OJ H.
  - injection H as <- _. apply pi_inv_reset.
  - destruct (run_snoc _ _ _ _ _ _ _ _ _ H) as (c1 & out1 & line & E1 & E2 & _). specialize (IH c1 out1 OJ E1).
    pose proof (process_pi _ _ _ _ _ _ _ _ OJ E2) as P. rewrite pis_app. unfold pis at 2. cbn [flat_map].
    rewrite app_nil_r. destruct (carried_pi (now, g, w)) as [p|].
    + destruct P as [-> ->]. rewrite rev_app_distr. cbn [rev app]. apply (pi_step _ _ _ p IH).
    + destruct P as [-> ->]. rewrite app_nil_r. exact IH.
Qed.

Lemma three_adopted : forall env o w0 gs c out p, o_output_type o = OutJSON -> run_groups env o (Channel_new o w0) gs = Ok (c, out) ->
  p <> 0 -> three p (pis gs) -> station_of c = Some p.
Proof.
  intros env o w0 gs. induction gs as [|[[now g] w] gs IH] using rev_ind; intros c out p OJ H Np T.
  - apply three_rev in T. destruct T as (r & E). discriminate.
  - destruct (run_snoc _ _ _ _ _ _ _ _ _ H) as (c1 & out1 & line & E1 & E2 & _).
    pose proof (run_pi _ _ _ _ _ _ OJ E1) as I. pose proof (process_pi _ _ _ _ _ _ _ _ OJ E2) as P.
    rewrite pis_app in T. unfold pis at 2 in T. cbn [flat_map] in T. rewrite app_nil_r in T.
    destruct (carried_pi (now, g, w)) as [q|].
    + apply three_rev in T. destruct T as (r & E). rewrite rev_app_distr in E. cbn [rev app] in E. injection E as -> E.
      destruct P as [_ ->]. apply (pi_step _ _ _ p I); [exact Np|]. exists r. exact E.
    + rewrite app_nil_r in T. destruct P as [_ ->]. apply (IH c1 out1 p OJ E1 Np T).
Qed.

Lemma change_needs_three : forall env o w0 gs now g w c out c' line, o_output_type o = OutJSON ->
  run_groups env o (Channel_new o w0) gs = Ok (c, out) -> processGroup env o now c g w = Ok (c', line) ->
  station_of c' <> station_of c -> exists p, station_of c' = Some p /\ three p (pis (gs ++ [(now, g, w)])).
Proof.
  intros env o w0 gs now g w c out c' line OJ E1 E2 N. pose proof (run_pi _ _ _ _ _ _ OJ E1) as I.
  pose proof (process_pi _ _ _ _ _ _ _ _ OJ E2) as P. destruct (carried_pi (now, g, w)) as [p|] eqn:Ep.
  - destruct P as [_ P]. rewrite P in N |- *. destruct (pi_step _ _ _ p I) as (_ & S & _). destruct (S N) as [S1 (r & E)].
    exists p. split; [exact S1|]. rewrite pis_app. unfold pis at 2. cbn [flat_map]. rewrite Ep, app_nil_r.
    apply three_rev. exists r. rewrite rev_app_distr. cbn [rev app]. rewrite E. reflexivity.
  - destruct P as [_ P]. contradiction.
Qed.

Lemma station_latest : forall env o w0 gs c out p, o_output_type o = OutJSON -> run_groups env o (Channel_new o w0) gs = Ok (c, out) ->
  station_of c = Some p -> latest p gs.
Proof.
  intros env o w0 gs. induction gs as [|[[now g] w] gs IH] using rev_ind; intros c out p OJ H S.
  - injection H as <- _. discriminate.
  - destruct (run_snoc _ _ _ _ _ _ _ _ _ H) as (c1 & out1 & line & E1 & E2 & _).
    assert (D : station_of c1 = Some p \/ station_of c <> station_of c1).
    { rewrite S. destruct (station_of c1) as [p1|]; [|right; discriminate].
      destruct (N.eq_dec p1 p) as [->|Np]; [left; reflexivity|right; congruence]. }
    destruct D as [S1|N].
    + destruct (IH c1 out1 p OJ E1 S1) as (a & b & -> & Ta & L). exists a, (b ++ [(now, g, w)])%list.
      rewrite app_assoc. split; [reflexivity|]. split; [exact Ta|]. intros b1 b2 q Eb Tq.
      assert (B2 : b2 = [] \/ exists r y, b2 = (r ++ [y])%list).
      { destruct b2 as [|z b2]; [left; reflexivity|right]. destruct (@exists_last _ (z :: b2)) as (r & y & E); [discriminate|].
        exists r, y. exact E. }
      destruct B2 as [->|(r & y & ->)].
      * rewrite app_nil_r in Eb. subst b1. rewrite app_assoc in Tq.
        destruct (N.eq_dec q 0) as [|Nq]; [right; assumption|left].
        pose proof (three_adopted _ _ _ _ _ _ q OJ H Nq Tq). congruence.
      * rewrite app_assoc in Eb. apply app_inj_tail in Eb. destruct Eb as [Eb _]. apply (L b1 r q Eb Tq).
    + destruct (change_needs_three _ _ _ _ _ _ _ _ _ _ _ OJ E1 E2 N) as (q & Sq & T). rewrite S in Sq. injection Sq as <-.
      exists (gs ++ [(now, g, w)])%list, []. rewrite app_nil_r. split; [reflexivity|]. split; [exact T|].
      intros b1 b2 q Eb Tq. symmetry in Eb. apply app_eq_nil in Eb. destruct Eb as [-> _]. rewrite app_nil_r in Tq.
      destruct (N.eq_dec q 0) as [|Nq]; [right; assumption|left].
      pose proof (three_adopted _ _ _ _ _ _ q OJ H Nq Tq). congruence.
Qed.
