(* How the station of a channel develops with the groups decoded. *)
From Verif.Model Require Import Util Group Options Json Tmc Station Channel.
From Verif.Spec Require Import Session Identity History.
From Verif.Proofs Require Import Tac Schema StationP UpdateP SessionP LineP FrameP ChannelP LinesP HistoryP.

(* One group: silent, or decoded *)
Lemma process_cases : forall env o now c g w c' line, host_ok env -> o_output_type o = OutJSON -> ch_ok c -> g_has_bler g = false ->
  processGroup env o now c g w = Ok (c', line) ->
  let g' := prepared o now c g w in
  (line = None /\ ch_station c' = had (tuned c g') g') \/
  (exists l j, line = Some l /\ decoded env o (tuned c g') g' = Ok (ch_station c', j) /\ print_json env j = Ok l).
Proof.
  intros env o now c g w c' line H OJ Hc Hb E g'. destruct (host_env env H) as [Ee _].
  destruct (silent (tuned c g') g') eqn:Es.
  - left. pose proof (process_silent env o now c g w OJ Es) as X. rewrite E in X. injection X as -> ->. split; reflexivity.
  - right. destruct (process_spoken env o now c g w OJ Ee Hc Hb Es) as (st' & j & l & D & P & _ & J & _).
    rewrite E in P. injection P as -> ->. exists l, j. split; [reflexivity|]. split; [exact D|exact J].
Qed.

Lemma tuned_cases : forall c g, tuned c g = ch_station c \/
  exists p, tuned c g = Station_new_pi (ch_which_channel c) p.
Proof. intros c g. unfold tuned. destruct (g_hasPI g); [|left; reflexivity]. destruct (snd _); [right; eexists; reflexivity|left; reflexivity|left; reflexivity]. Qed.

Lemma decoded_in_app : forall a b x y, length a = length x -> decoded_in (a ++ b) (x ++ y) = (decoded_in a x ++ decoded_in b y)%list.
Proof.
  intros a b x y H. unfold decoded_in. rewrite <- flat_map_app. f_equal. revert x H.
  induction a as [|u a IH]; intros [|v x] H; try discriminate; [reflexivity|]. cbn [combine app]. f_equal. apply IH. injection H as H. exact H.
Qed.
Lemma run_length : forall env o gs c c' out, run_groups env o c gs = Ok (c', out) -> length gs = length out.
Proof.
  intros env o. induction gs as [|[[now g] w] gs IH]; intros c c' out H; cbn [run_groups] in H; [injection H as _ <-; reflexivity|].
  destruct (processGroup env o now c g w) as [[c1 l1]| |]; cbn [bind] in H; try discriminate.
  destruct (run_groups env o c1 gs) as [[c2 o2]| |] eqn:E; cbn [bind] in H; try discriminate. injection H as _ <-. cbn [length]. f_equal. exact (IH _ _ _ E).
Qed.

(* A property of the groups decoded since the last change of station and the station *)
Lemma station_history : forall (I : list (Group * N) -> Station -> Prop) env o, host_ok env -> o_output_type o = OutJSON ->
  (forall w, I [] (Station_new w)) -> (forall w p, I [] (Station_new_pi w p)) ->
  (forall h st g, I h st -> I h (had st g)) ->
  (forall h st now c g w st' j, I h st -> st_ok st -> received_group (now, g, w) -> bler_ok (prepared o now c g w) -> decoded env o st (prepared o now c g w) = Ok (st', j) -> I (h ++ [(g, w)])%list st') ->
  forall gs w0 c out, Forall received_group gs -> run_groups env o (Channel_new o w0) gs = Ok (c, out) ->
  exists old h, decoded_in gs out = (old ++ h)%list /\ I h (ch_station c).
Proof.
  intros I env o H OJ I0 I1 Ih Id gs w0. induction gs as [|[[now g] w] gs IH] using rev_ind; intros c out F E.
  - injection E as <- <-. exists [], []. split; [reflexivity|apply I0].
  - apply Forall_app in F. destruct F as [F1 F2]. inversion F2 as [|? ? Rg _]; subst. pose proof (proj1 Rg) as Hb.
    destruct (run_snoc _ _ _ _ _ _ _ _ _ E) as (c1 & out1 & line & E1 & E2 & ->).
    destruct (IH c1 out1 F1 E1) as (old & h & D & Hh). destruct (run_ok _ _ _ _ _ _ H (channel_new_ok o w0) F1 E1) as [Hc _].
    rewrite decoded_in_app by (exact (run_length _ _ _ _ _ _ E1)).
    assert (T : exists old' h', decoded_in gs out1 = (old' ++ h')%list /\ I h' (tuned c1 (prepared o now c1 g w)) /\ st_ok (tuned c1 (prepared o now c1 g w))).
    { destruct (tuned_cases c1 (prepared o now c1 g w)) as [->|(p & ->)].
      - exists old, h. split; [exact D|]. split; [exact Hh|apply Hc].
      - exists (decoded_in gs out1), []. rewrite app_nil_r. split; [reflexivity|]. split; [apply I1|apply station_new_pi_ok]. }
    destruct T as (old' & h' & D' & Ht & Hs).
    destruct (process_cases env o now c1 g w c line H OJ Hc Hb E2) as [[-> ->]|(l & j & -> & Dd & _)].
    + exists old', h'. unfold decoded_in at 2. cbn [combine flat_map]. rewrite app_nil_r. split; [exact D'|apply Ih; exact Ht].
    + exists old', (h' ++ [(g, w)])%list. unfold decoded_in at 2. cbn [combine flat_map app]. rewrite D', <- app_assoc. split; [reflexivity|].
      eapply Id; try eassumption. apply prepared_bler; assumption.
Qed.

(* The channel is following p and the last PI codes were p *)
Definition locked (p : N) (c : Channel) : Prop :=
  ch_cached_pi c = mkCachedPI p p p true /\ station_of c = Some p.

Lemma pi_update_locked : forall p, pi_update (mkCachedPI p p p true) p = (mkCachedPI p p p true, NoChange).
Proof. intros p. unfold pi_update. cbn [pi_has_previous pi_prev1 pi_prev2 pi_confirmed]. rewrite !N.eqb_refl. cbn [andb negb]. reflexivity. Qed.

Lemma three_locked : forall env o w0 gs c out p, o_output_type o = OutJSON -> run_groups env o (Channel_new o w0) gs = Ok (c, out) ->
  p <> 0 -> three p (pis gs) -> locked p c.
Proof.
  intros env o w0 gs. induction gs as [|[[now g] w] gs IH] using rev_ind; intros c out p OJ H Np T.
  - apply three_rev in T. destruct T as (r & E). discriminate.
  - pose proof (three_adopted _ _ _ _ _ _ p OJ H Np T) as Sp.
    destruct (run_snoc _ _ _ _ _ _ _ _ _ H) as (c1 & out1 & line & E1 & E2 & _).
    pose proof (process_pi _ _ _ _ _ _ _ _ OJ E2) as P.
    rewrite pis_app in T. unfold pis at 2 in T. cbn [flat_map] in T. rewrite app_nil_r in T.
    destruct (carried_pi (now, g, w)) as [q|] eqn:Eq.
    + split; [|exact Sp]. apply three_rev in T. destruct T as (r & E). rewrite rev_app_distr in E. cbn [rev app] in E. injection E as -> E.
      destruct P as [-> _]. destruct (run_pi _ _ _ _ _ _ OJ E1) as (I1 & I2 & I3 & I4 & I5). rewrite E in *. cbn [hd] in I1.
      assert (Hp : pi_has_previous (ch_cached_pi c1) = true).
      { destruct (pi_has_previous (ch_cached_pi c1)); [reflexivity|]. destruct (I3 eq_refl) as [X|(a & b & r' & X & Nab)]; [discriminate|].
        injection X as <- <- _. contradiction. }
      destruct (I2 Hp) as [(r' & X)|(X & _)]; [|discriminate]. injection X as X1 X2 _.
      unfold pi_update. rewrite Hp, <- X1, <- X2, !N.eqb_refl. cbn [andb negb]. reflexivity.
    + rewrite app_nil_r in T. destruct (IH c1 out1 p OJ E1 Np T) as [L1 L2]. destruct P as [P1 P2]. split; congruence.
Qed.

Lemma locked_tuned : forall p c o now g w, locked p c -> (carried_pi (now, g, w) = None \/ carried_pi (now, g, w) = Some p) ->
  tuned c (prepared o now c g w) = ch_station c.
Proof.
  intros p c o now g w [L _] H. rewrite <- (prepared_pi o now c g w) in H. unfold tuned. destruct (g_hasPI (prepared o now c g w)); [|reflexivity].
  destruct H as [H|H]; [discriminate|]. injection H as ->. rewrite L, pi_update_locked. reflexivity.
Qed.
Lemma locked_step : forall env o now c g w c' line p, o_output_type o = OutJSON -> locked p c ->
  (carried_pi (now, g, w) = None \/ carried_pi (now, g, w) = Some p) -> processGroup env o now c g w = Ok (c', line) -> locked p c'.
Proof.
  intros env o now c g w c' line p OJ [L1 L2] H E. pose proof (process_pi _ _ _ _ _ _ _ _ OJ E) as P.
  destruct H as [H|H]; rewrite H in P; destruct P as [P1 P2].
  - split; congruence.
  - rewrite L1, pi_update_locked in P1. unfold next_station in P2. rewrite L1, pi_update_locked in P2. cbn [fst snd] in P1, P2.
    split; congruence.
Qed.
Lemma locked_has_pi : forall p c, locked p c -> st_has_pi (ch_station c) = true.
Proof. intros p c [_ L]. unfold station_of in L. destruct (st_has_pi (ch_station c)); [reflexivity|discriminate]. Qed.

Lemma steady_history : forall (I : list (Group * N) -> Station -> Prop) env o p, host_ok env -> o_output_type o = OutJSON ->
  (forall h st g, I h st -> I h (had st g)) ->
  (forall h st now c g w st' j, I h st -> st_ok st -> received_group (now, g, w) -> bler_ok (prepared o now c g w) -> decoded env o st (prepared o now c g w) = Ok (st', j) -> I (h ++ [(g, w)])%list st') ->
  forall gs h0 c c' out, ch_ok c -> locked p c -> I h0 (ch_station c) ->
  Forall received_group gs -> Forall (stays p) gs -> run_groups env o c gs = Ok (c', out) ->
  locked p c' /\ ch_ok c' /\ I (h0 ++ decoded_in gs out)%list (ch_station c').
Proof.
  intros I env o p H OJ Ih Id gs. induction gs as [|[[now g] w] gs IH] using rev_ind; intros h0 c c' out Hc L I0 F S E.
  - injection E as <- <-. unfold decoded_in. cbn [combine flat_map]. rewrite app_nil_r. auto.
  - apply Forall_app in F. destruct F as [F1 F2]. inversion F2 as [|? ? Rg _]; subst. pose proof (proj1 Rg) as Hb.
    apply Forall_app in S. destruct S as [S1 S2]. inversion S2 as [|? ? R _]; subst.
    destruct (run_snoc _ _ _ _ _ _ _ _ _ E) as (c1 & out1 & line & E1 & E2 & ->).
    destruct (IH h0 c c1 out1 Hc L I0 F1 S1 E1) as (L1 & Hc1 & I1).
    pose proof (locked_step _ _ _ _ _ _ _ _ _ OJ L1 R E2) as L2. split; [exact L2|].
    split. { destruct (host_env env H) as [Ee _]. exact (process_kept _ _ _ _ _ _ _ _ Ee Hc1 Hb E2). }
    rewrite decoded_in_app by (exact (run_length _ _ _ _ _ _ E1)).
    pose proof (locked_tuned p c1 o now g w L1 R) as Tu.
    destruct (process_cases env o now c1 g w c' line H OJ Hc1 Hb E2) as [[-> ->]|(l & j & -> & Dd & _)].
    + unfold decoded_in at 2. cbn [combine flat_map]. rewrite app_nil_r. rewrite Tu. apply Ih. exact I1.
    + unfold decoded_in at 2. cbn [combine flat_map app]. rewrite app_assoc. rewrite Tu in Dd. eapply Id; [exact I1|apply Hc1|exact Rg| |exact Dd]; apply prepared_bler; assumption.
Qed.

(* A group with the PI code of the station is printed *)
Lemma locked_printed : forall env o now c g w c' line p, host_ok env -> o_output_type o = OutJSON -> ch_ok c -> g_has_bler g = false ->
  locked p c -> carried_pi (now, g, w) = Some p -> processGroup env o now c g w = Ok (c', line) -> exists l, line = Some l.
Proof.
  intros env o now c g w c' line p H OJ Hc Hb L P E.
  destruct (process_station env o now c g w c' line OJ E) as (_ & _ & _ & Sl).
  destruct line as [l|]; [exists l; reflexivity|]. exfalso. assert (Si : silent (tuned c (prepared o now c g w)) (prepared o now c g w) = true) by (apply Sl; reflexivity).
  rewrite (locked_tuned p c o now g w L (or_intror P)) in Si. unfold silent in Si. rewrite (locked_has_pi p c L) in Si. cbn [negb orb] in Si.
  pose proof (prepared_pi o now c g w) as Pp. rewrite P in Pp. destruct (g_hasPI (prepared o now c g w)) eqn:Hp; [|discriminate].
  cbn [negb andb orb] in Si. apply andb_prop in Si. destruct Si as [_ Si].
  unfold g_isEmpty, g_has in Si. rewrite !prepared_block in Si. cbn [g_block] in Si.
  unfold carried_pi in P. destruct (w =? 0); [|discriminate]. destruct (gt_version (g_type g)); try discriminate;
  destruct (blk_is_received (g_b1 g)); try discriminate; destruct (blk_is_received (g_b3 g)); try discriminate;
  destruct (blk_is_received (g_b2 g)); discriminate.
Qed.

(* Groups that carry the PI code of the station are all decoded *)
Definition grp (x : Z * Group * N) : Group * N := (snd (fst x), snd x).
Lemma all_decoded : forall (A : Type) (f : Group * N -> list A) env o p, host_ok env -> o_output_type o = OutJSON ->
  forall gs c c' out, ch_ok c -> locked p c -> Forall received_group gs -> Forall (stays p) gs ->
  Forall (fun x => f (grp x) <> [] -> carried_pi x = Some p) gs -> run_groups env o c gs = Ok (c', out) ->
  flat_map f (decoded_in gs out) = flat_map f (map grp gs).
Proof.
  intros A f env o p H OJ gs. induction gs as [|[[now g] w] gs IH]; intros c c' out Hc L F S P E; [reflexivity|].
  cbn [run_groups] in E. destruct (processGroup env o now c g w) as [[c1 l1]| |] eqn:E1; cbn [bind] in E; try discriminate.
  destruct (run_groups env o c1 gs) as [[c2 o2]| |] eqn:E2; cbn [bind] in E; try discriminate. injection E as <- <-.
  inversion F as [|? ? R F']; subst. inversion S as [|? ? S0 S']; subst. inversion P as [|? ? P0 P']; subst.
  destruct (host_env env H) as [Ee _]. pose proof (process_kept _ _ _ _ _ _ _ _ Ee Hc (proj1 R) E1) as Hc1.
  pose proof (locked_step _ _ _ _ _ _ _ _ _ OJ L S0 E1) as L1. specialize (IH c1 c2 o2 Hc1 L1 F' S' P' E2).
  cbn [map flat_map]. destruct l1 as [l|]; unfold decoded_in; cbn [combine flat_map app]; fold (decoded_in gs o2).
  - rewrite IH. reflexivity.
  - rewrite IH. destruct (f (grp (now, g, w))) eqn:Ef; [reflexivity|]. exfalso.
    destruct (locked_printed _ _ _ _ _ _ _ _ _ H OJ Hc (proj1 R) L (P0 ltac:(congruence)) E1) as (l0 & X). discriminate.
Qed.
