(* Channels over time: times, independence of earlier stations, of buffering and of other streams. *)
From Coq Require Import Sorted.
From Verif.Proofs Require Import Tac Numerals FreqP Utf8P JsonP Schema StationP TextP CleanP ClockP BlerP UpdateP SessionP LineP FrameP ChannelP LinesP.
From Verif.Model Require Import Util Float Group BlockSync Options Tables Json Tmc Station Channel.
From Verif.Spec Require Import Numerals Unicode JsonText Calendar Session Identity Quality.

Local Open Scope string_scope.
Local Open Scope N_scope.

(* ---- times ---- *)
Fixpoint within (a : Z) (l : list Z) (b : Z) : Prop :=
  match l with [] => (a <= b)%Z | x :: r => (a <= x)%Z /\ within x r b end.
Lemma within_weaken : forall a a' l b, (a <= a')%Z -> within a' l b -> within a l b.
Proof. intros a a' [|x l] b H A; cbn [within] in *; [lia|]. destruct A. split; [lia|assumption]. Qed.
Lemma within_app : forall l1 a l2 b m, within a l1 m -> within m l2 b -> within a (l1 ++ l2) b.
Proof.
  induction l1 as [|x l1 IH]; intros a l2 b m A B; cbn [within app] in *; [eapply within_weaken; eassumption|].
  destruct A as [A1 A2]. split; [exact A1|]. eapply IH; eassumption.
Qed.
Lemma within_bound : forall l a b, within a l b -> Forall (fun x => (a <= x)%Z) l.
Proof.
  induction l as [|x l IH]; intros a b W; [constructor|]. cbn [within] in W. destruct W as [W1 W2]. constructor; [exact W1|].
  eapply Forall_impl; [|apply (IH x b W2)]. intros y Hy. cbv beta in *. lia.
Qed.
Lemma within_sorted : forall l a b, within a l b -> StronglySorted Z.le l.
Proof.
  induction l as [|x l IH]; intros a b W; [constructor|]. cbn [within] in W. destruct W as [W1 W2]. constructor; [eapply IH; exact W2|].
  apply (within_bound l x b W2).
Qed.

Definition time_ok (env : Env) (o : Options) (t : Z) (line : bytes) : Prop := only_error line \/ says_time env o line t.

Lemma prepared_time : forall o now c g w, g_time_received (prepared o now c g w) = g_time_received (stamped o now c g).
Proof. intros. unfold prepared, streamed, measured. destruct (w =? 0), (o_bler o); reflexivity. Qed.

Lemma process_time : forall env o now c g w c' line, host_ok env -> o_output_type o = OutJSON -> o_timestamp o = true -> ch_ok c ->
  g_has_bler g = false -> processGroup env o now c g w = Ok (c', Some line) ->
  time_ok env o (g_time_received (stamped o now c g)) line.
Proof.
  intros env o now c g w c' line H OJ OT Hc Hb P. destruct (process_header _ _ _ _ _ _ _ _ H OJ Hc Hb P) as [_ [L|L]]; [left; exact L|right].
  specialize (L "rx_time" eq_refl). rewrite header_time, OT in L. cbn [option_map value_of] in L. rewrite prepared_time in L. exact L.
Qed.

Lemma process_last : forall env o now c g w c' line, processGroup env o now c g w = Ok (c', line) ->
  ch_last_group_rx_time c' = stamp_time o now c g.
Proof.
  intros env o now c g w c' line P. rewrite process_eq in P. destruct (o_output_type o); [injection P as <- _; reflexivity|].
  destruct (updateAndPrint _ _ _ _) as [[s l]| |]; cbn [bind] in P; try discriminate. injection P as <- _. reflexivity.
Qed.

Lemma process_kept : forall env o now c g w c' line, env_ok env -> ch_ok c -> g_has_bler g = false ->
  processGroup env o now c g w = Ok (c', line) -> ch_ok c'.
Proof.
  intros env o now c g w c' line E Hc Hb P. destruct (process_good env o now c g w E Hc Hb) as ([c1 l1] & P1 & C1 & _).
  rewrite P in P1. injection P1 as <- _. exact C1.
Qed.

Lemma bits_times : forall env o t now w, host_ok env -> o_output_type o = OutJSON -> o_timestamp o = true -> w < 4 ->
  forall bits c c' out, ch_ok c -> processBits env o c t now bits w = Ok (c', out) ->
  ch_ok c' /\ exists ts, within (ch_last_group_rx_time c) ts (ch_last_group_rx_time c') /\ Forall2 (time_ok env o) ts (printed out).
Proof.
  intros env o t now w H OJ OT Hw. destruct (host_env env H) as [Eo _]. unfold processBits.
  induction bits as [|b bits IH]; intros c c' out Hc E; cbn [processBits_loop] in E.
  - injection E as <- <-. split; [exact Hc|]. exists []. split; [cbn; lia|constructor].
  - destruct (stream_get c w Hc Hw) as (s & Es & [S1 S2]). rewrite Es in E. cbn [bind] in E.
    destruct (step_bler s b S1 S2) as (A & B & D). destruct (bst_step s b) as [s' og]. cbn [fst snd] in *.
    assert (C1 : ch_ok (ch_set_stream c w s')) by (apply set_stream_ok; [exact Hc|split; assumption]).
    set (c1 := ch_set_stream c w s') in *. change (ch_last_group_rx_time c) with (ch_last_group_rx_time c1).
    destruct og as [g|].
    + destruct (bit_age_ms _) as [age| |]; cbn [bind] in E; try discriminate.
      set (tt := if (t - age * 1000000 <? ch_last_group_rx_time c1)%Z then _ else _) in E.
      assert (Ht : (ch_last_group_rx_time c1 <= tt)%Z) by (subst tt; destruct (Z.ltb_spec (t - age * 1000000) (ch_last_group_rx_time c1)); lia).
      destruct (processGroup env o now c1 (g_setTime g tt) w) as [[c2 l2]| |] eqn:P; cbn [bind] in E; try discriminate.
      destruct (processBits_loop env o t now w bits (ch_set_time c2 tt)) as [[c3 o3]| |] eqn:E3; cbn [bind] in E; try discriminate.
      injection E as <- <-.
      assert (Hg : g_has_bler (g_setTime g tt) = false) by (apply (D g eq_refl)).
      pose proof (process_kept _ _ _ _ _ _ _ _ Eo C1 Hg P) as C2.
      destruct (IH (ch_set_time c2 tt) c3 o3 C2 E3) as (C3 & ts & W & F). split; [exact C3|]. cbn [ch_last_group_rx_time ch_set_time] in W.
      destruct l2 as [line|].
      * exists (tt :: ts). split; [cbn [within]; split; assumption|]. cbn [app printed flat_map]. constructor; [|exact F].
        pose proof (process_time _ _ _ _ _ _ _ _ H OJ OT C1 Hg P) as T. unfold stamped in T. cbn [g_has_time g_setTime negb] in T.
        rewrite andb_false_r in T. exact T.
      * exists ts. split; [eapply within_weaken; eassumption|exact F].
    + cbn [bind] in E. destruct (processBits_loop env o t now w bits c1) as [[c3 o3]| |] eqn:E3; cbn [bind] in E; try discriminate.
      injection E as <- <-. apply (IH c1 c3 o3 C1 E3).
Qed.

Lemma session_bits_times : forall env o calls c c' lines, host_ok env -> o_output_type o = OutJSON -> o_timestamp o = true ->
  ch_ok c -> Forall possible calls -> Forall (fun x => match x with Bits_in _ _ _ _ => True | _ => False end) calls ->
  session env o c calls = Ok (c', lines) ->
  exists ts, within (ch_last_group_rx_time c) ts (ch_last_group_rx_time c') /\ Forall2 (time_ok env o) ts lines.
Proof.
  intros env o. induction calls as [|x calls IH]; intros c c' lines H OJ OT Hc Po B E; cbn [session] in E.
  - injection E as <- <-. exists []. split; [cbn; lia|constructor].
  - inversion Po as [|? ? Px Po']; subst. inversion B as [|? ? Bx B']; subst. destruct x as [| |t now bits w| |]; try contradiction.
    cbn [do_call] in E. destruct (processBits env o c t now bits w) as [[c1 o1]| |] eqn:E1; cbn [bind] in E; try discriminate.
    destruct (session env o c1 calls) as [[c2 l2]| |] eqn:E2; cbn [bind] in E; try discriminate. injection E as <- <-.
    destruct (bits_times env o t now w H OJ OT (proj2 Px) bits c c1 o1 Hc E1) as (C1 & t1 & W1 & F1).
    destruct (IH c1 c2 l2 H OJ OT C1 Po' B' E2) as (t2 & W2 & F2). exists (t1 ++ t2)%list.
    split; [eapply within_app; eassumption|apply Forall2_app; assumption].
Qed.

Lemma run_groups_times : forall env o gs c c' out, host_ok env -> o_output_type o = OutJSON -> o_timestamp o = true -> ch_ok c ->
  Forall received_group gs -> Forall (fun x : Z * Group * N => g_has_time (snd (fst x)) = false) gs ->
  forall b, within (ch_last_group_rx_time c) (map (fun x => fst (fst x)) gs) b -> run_groups env o c gs = Ok (c', out) ->
  exists ts, within (ch_last_group_rx_time c) ts b /\ Forall2 (time_ok env o) ts (printed out).
Proof.
  intros env o. induction gs as [|[[now g] w] gs IH]; intros c c' out H OJ OT Hc R U b W E; cbn [run_groups] in E.
  - injection E as <- <-. exists []. split; [exact W|constructor].
  - inversion R as [|? ? Rx R']; subst. inversion U as [|? ? Ux U']; subst. cbn [fst snd map within] in *. destruct W as [W1 W2].
    destruct (processGroup env o now c g w) as [[c1 l1]| |] eqn:P; cbn [bind] in E; try discriminate.
    destruct (run_groups env o c1 gs) as [[c2 o2]| |] eqn:E2; cbn [bind] in E; try discriminate. injection E as <- <-.
    destruct (host_env env H) as [Eo _].
    pose proof (process_kept _ _ _ _ _ _ _ _ Eo Hc (proj1 Rx) P) as C1. pose proof (process_last _ _ _ _ _ _ _ _ P) as L.
    unfold stamp_time in L. rewrite OT, Ux in L. cbn [andb negb] in L.
    destruct (IH c1 c2 o2 H OJ OT C1 R' U' b) as (ts & W3 & F); [rewrite L; exact W2|exact E2|]. rewrite L in W3.
    destruct l1 as [line|].
    + exists (now :: ts). split; [split; assumption|]. cbn [printed flat_map app]. constructor; [|exact F].
      pose proof (process_time _ _ _ _ _ _ _ _ H OJ OT Hc (proj1 Rx) P) as T. unfold stamped in T. rewrite OT, Ux in T.
      cbn [andb negb g_time_received g_setTime] in T. replace (now <? ch_last_group_rx_time c)%Z with false in T by (symmetry; apply Z.ltb_ge; exact W1).
      exact T.
    + exists ts. split; [eapply within_weaken; eassumption|exact F].
Qed.

(* ---- no leftovers ---- *)
Definition same_tuning (c1 c2 : Channel) : Prop :=
  ch_which_channel c1 = ch_which_channel c2 /\ ch_cached_pi c1 = ch_cached_pi c2 /\ ch_station c1 = ch_station c2.

Lemma plain_prepared : forall o now c g w, o_bler o = false -> o_timestamp o = false \/ g_has_time g = true ->
  prepared o now c g w = streamed g w.
Proof.
  intros o now c g w OB T. unfold prepared, measured, stamped. rewrite OB.
  assert (E : o_timestamp o && negb (g_has_time g) = false) by (destruct T as [->| ->]; [reflexivity|apply andb_false_r]).
  rewrite E. reflexivity.
Qed.

Lemma process_same : forall env o now1 now2 c1 c2 g w c1' l1, o_bler o = false -> o_timestamp o = false \/ g_has_time g = true ->
  same_tuning c1 c2 -> processGroup env o now1 c1 g w = Ok (c1', l1) ->
  exists c2', processGroup env o now2 c2 g w = Ok (c2', l1) /\ same_tuning c1' c2'.
Proof.
  intros env o now1 now2 c1 c2 g w c1' l1 OB T (Sw & Sc & Ss) P. rewrite process_eq in P |- *. cbv zeta in *.
  rewrite plain_prepared in P by assumption. rewrite plain_prepared by assumption.
  assert (En : next_pi c2 (streamed g w) = next_pi c1 (streamed g w)) by (unfold next_pi; rewrite Sc; reflexivity).
  assert (Et : tuned c2 (streamed g w) = tuned c1 (streamed g w)) by (unfold tuned; rewrite Sc, En, Sw, Ss; reflexivity).
  rewrite Et, En. destruct (o_output_type o).
  - injection P as <- <-. eexists. split; [reflexivity|]. repeat split. exact Sw.
  - destruct (updateAndPrint env o (tuned c1 (streamed g w)) (streamed g w)) as [[s l]| |]; cbn [bind] in *; try discriminate.
    injection P as <- <-. eexists. split; [reflexivity|]. repeat split. exact Sw.
Qed.

Lemma run_same : forall env o gs c1 c2 c1' out, o_bler o = false ->
  Forall (fun x : Z * Group * N => o_timestamp o = false \/ g_has_time (snd (fst x)) = true) gs ->
  same_tuning c1 c2 -> run_groups env o c1 gs = Ok (c1', out) ->
  exists c2', run_groups env o c2 gs = Ok (c2', out) /\ same_tuning c1' c2'.
Proof.
  intros env o. induction gs as [|[[now g] w] gs IH]; intros c1 c2 c1' out OB T S E; cbn [run_groups] in *.
  - injection E as <- <-. exists c2. split; [reflexivity|exact S].
  - inversion T as [|? ? Tx T']; subst. destruct (processGroup env o now c1 g w) as [[d1 l1]| |] eqn:P; cbn [bind] in E; try discriminate.
    destruct (run_groups env o d1 gs) as [[e1 o1]| |] eqn:R; cbn [bind] in E; try discriminate. injection E as <- <-.
    destruct (process_same env o now now c1 c2 g w d1 l1 OB Tx S P) as (d2 & -> & S2). cbn [bind].
    destruct (IH d1 d2 e1 o1 OB T' S2 R) as (e2 & -> & S3). cbn [bind]. exists e2. split; [reflexivity|exact S3].
Qed.

(* The group that makes a channel change to station p leaves no trace of the past *)
Lemma change_resets : forall env o now c g w c' line p, o_output_type o = OutJSON -> o_bler o = false ->
  o_timestamp o = false \/ g_has_time g = true ->
  processGroup env o now c g w = Ok (c', line) -> station_of c <> Some p -> station_of c' = Some p ->
  ch_cached_pi c' = mkCachedPI p p p true /\
  updateAndPrint env o (Station_new_pi (ch_which_channel c) p) (streamed g w) = Ok (ch_station c', line) /\
  ch_which_channel c' = ch_which_channel c.
Proof.
  intros env o now c g w c' line p OJ OB T P N S. pose proof (process_pi _ _ _ _ _ _ _ _ OJ P) as Q.
  pose proof (prepared_pi o now c g w) as Pp. destruct (carried_pi (now, g, w)) as [q|]; [|destruct Q; congruence].
  destruct Q as [Q1 Q2]. rewrite S in Q2. unfold next_station in Q2. destruct (pi_update (ch_cached_pi c) q) as [cc r] eqn:U.
  destruct r; cbn [fst snd] in *; try congruence.
  assert (X : cc = mkCachedPI q q q true).
  { unfold pi_update in U. cbv zeta in U.
    destruct (pi_has_previous (ch_cached_pi c) && (pi_prev1 (ch_cached_pi c) =? pi_prev2 (ch_cached_pi c)) && (q =? pi_prev1 (ch_cached_pi c))) eqn:E3.
    - apply andb_prop in E3. destruct E3 as [_ E3]. apply N.eqb_eq in E3. rewrite N.eqb_refl in U. cbn [negb andb] in U.
      rewrite andb_false_r in U. injection U as <- _. rewrite <- E3. reflexivity.
    - destruct (_ && _) in U; discriminate. }
  rewrite X in *. clear X. cbn [pi_confirmed] in Q2. injection Q2 as ->. split; [exact Q1|].
  rewrite process_json in P by exact OJ. rewrite plain_prepared in * by assumption.
  assert (Et : tuned c (streamed g w) = Station_new_pi (ch_which_channel c) q).
  { unfold tuned, next_pi. destruct (g_hasPI (streamed g w)); [|discriminate]. injection Pp as ->. rewrite U. reflexivity. }
  rewrite Et in P. destruct (updateAndPrint env o (Station_new_pi (ch_which_channel c) q) (streamed g w)) as [[s l]| |]; cbn [bind] in *; try discriminate.
  injection P as <- <-. split; reflexivity.
Qed.

Lemma no_leftovers : forall env o c1 c2 now1 now2 g w d1 d2 l1 l2 p gs e1 out,
  o_output_type o = OutJSON -> o_bler o = false ->
  Forall (fun x : Z * Group * N => o_timestamp o = false \/ g_has_time (snd (fst x)) = true) ((now1, g, w) :: gs) ->
  ch_which_channel c1 = ch_which_channel c2 ->
  processGroup env o now1 c1 g w = Ok (d1, l1) -> station_of c1 <> Some p -> station_of d1 = Some p ->
  processGroup env o now2 c2 g w = Ok (d2, l2) -> station_of c2 <> Some p -> station_of d2 = Some p ->
  run_groups env o d1 gs = Ok (e1, out) -> 
  l1 = l2 /\ exists e2, run_groups env o d2 gs = Ok (e2, out).
Proof.
  intros env o c1 c2 now1 now2 g w d1 d2 l1 l2 p gs e1 out OJ OB T Wc P1 N1 S1 P2 N2 S2 R.
  inversion T as [|? ? Tx T']; subst. cbn [fst snd] in Tx.
  destruct (change_resets _ _ _ _ _ _ _ _ _ OJ OB Tx P1 N1 S1) as (A1 & B1 & C1).
  destruct (change_resets _ _ _ _ _ _ _ _ _ OJ OB Tx P2 N2 S2) as (A2 & B2 & C2).
  rewrite Wc, B2 in B1. injection B1 as Es El. split; [congruence|].
  assert (S : same_tuning d1 d2) by (repeat split; congruence).
  destruct (run_same env o gs d1 d2 e1 out OB T' S R) as (e2 & E2 & _). exists e2. exact E2.
Qed.

(* ---- buffering ---- *)
Definition untime (c : Channel) : Channel := ch_set_time c 0.

Definition sim {A : Type} (r1 r2 : res (Channel * A)) : Prop :=
  match r1, r2 with
  | Ok (c1, x1), Ok (c2, x2) => untime c1 = untime c2 /\ x1 = x2
  | Throw e1, Throw e2 => e1 = e2
  | UB e1, UB e2 => e1 = e2
  | _, _ => False
  end.

Lemma sim_refl : forall A (r : res (Channel * A)), sim r r.
Proof. intros A [[c x]| |]; cbn; auto. Qed.
Lemma sim_sym : forall A (r1 r2 : res (Channel * A)), sim r1 r2 -> sim r2 r1.
Proof. intros A [[c x]| |] [[d y]| |]; cbn; intuition. Qed.
Lemma sim_trans : forall A (r1 r2 r3 : res (Channel * A)), sim r1 r2 -> sim r2 r3 -> sim r1 r3.
Proof. intros A [[c x]| |] [[d y]| |] [[e z]| |]; cbn; intuition congruence. Qed.
Lemma sim_bind : forall A B (r1 r2 : res (Channel * A)) (k1 k2 : Channel -> A -> res (Channel * B)), sim r1 r2 ->
  (forall c1 c2 x, untime c1 = untime c2 -> sim (k1 c1 x) (k2 c2 x)) ->
  sim ('(c, x) <- r1 ;; k1 c x) ('(c, x) <- r2 ;; k2 c x).
Proof.
  intros A B [[c x]| |] [[d y]| |] k1 k2 S K; cbn [sim bind] in *; try contradiction; try exact S.
  destruct S as [S ->]. apply K, S.
Qed.

Lemma update_untimed : forall env o st g t, o_timestamp o = false -> updateAndPrint env o st (g_setTime g t) = updateAndPrint env o st g.
Proof.
  intros env o st g t OT. rewrite !update_eq. unfold prelude, decodeHeader. rewrite OT. reflexivity.
Qed.

Lemma process_untimed : forall env o n1 n2 c1 c2 g w t, o_timestamp o = false -> untime c1 = untime c2 ->
  sim (processGroup env o n1 c1 (g_setTime g t) w) (processGroup env o n2 c2 g w).
Proof.
  intros env o n1 n2 c1 c2 g w t OT U. rewrite !process_eq. cbv zeta.
  destruct c1 as [wc1 pi1 bs1 st1 av1 ti1], c2 as [wc2 pi2 bs2 st2 av2 ti2]. unfold untime, ch_set_time in U. cbn in U. injection U as -> -> -> -> ->.
  assert (E : prepared o n1 (mkChannel wc2 pi2 bs2 st2 av2 ti1) (g_setTime g t) w = g_setTime (prepared o n2 (mkChannel wc2 pi2 bs2 st2 av2 ti2) g w) t).
  { unfold prepared, streamed, measured, stamped, next_avg. rewrite OT. destruct (w =? 0), (o_bler o); reflexivity. }
  rewrite E. set (g' := prepared o n2 (mkChannel wc2 pi2 bs2 st2 av2 ti2) g w).
  change (next_pi (mkChannel wc2 pi2 bs2 st2 av2 ti1) (g_setTime g' t)) with (next_pi (mkChannel wc2 pi2 bs2 st2 av2 ti2) g').
  change (tuned (mkChannel wc2 pi2 bs2 st2 av2 ti1) (g_setTime g' t)) with (tuned (mkChannel wc2 pi2 bs2 st2 av2 ti2) g').
  destruct (o_output_type o).
  - cbn [sim]. split; [reflexivity|]. unfold printAsHex. rewrite OT. reflexivity.
  - rewrite update_untimed by exact OT. destruct (updateAndPrint _ _ _ _) as [[s l]|e|]; cbn [bind sim]; [|reflexivity|reflexivity].
    split; reflexivity.
Qed.

Lemma process_untimed0 : forall env o n1 n2 c1 c2 g w, o_timestamp o = false -> untime c1 = untime c2 ->
  sim (processGroup env o n1 c1 g w) (processGroup env o n2 c2 g w).
Proof.
  intros. eapply sim_trans; [apply sim_sym; apply (process_untimed env o n1 n1 c1 c1 g w 0); [assumption|reflexivity]|].
  apply process_untimed; assumption.
Qed.

(* One bit, without regard to time *)
Definition bit_step (env : Env) (o : Options) (c : Channel) (w : N) (b : bool) : res (Channel * list bytes) :=
  s <- arr_get (ch_block_stream c) w ;;
  let '(s, og) := bst_step s b in
  let c := ch_set_stream c w s in
  match og with
  | None => Ok (c, [])
  | Some g => '(c, line) <- processGroup env o 0 c g w ;; Ok (c, printed [line])
  end.
Fixpoint bit_steps (env : Env) (o : Options) (c : Channel) (l : list (N * bool)) : res (Channel * list bytes) :=
  match l with
  | [] => Ok (c, [])
  | (w, b) :: r =>
      '(c, out) <- bit_step env o c w b ;;
      '(c, out') <- bit_steps env o c r ;;
      Ok (c, out ++ out')%list
  end.

Lemma untime_streams : forall c1 c2, untime c1 = untime c2 -> ch_block_stream c1 = ch_block_stream c2.
Proof. intros [] [] H. unfold untime, ch_set_time in H. cbn in *. congruence. Qed.
Lemma untime_set_stream : forall c1 c2 w s, untime c1 = untime c2 -> untime (ch_set_stream c1 w s) = untime (ch_set_stream c2 w s).
Proof. intros [] [] w s H. unfold untime, ch_set_time, ch_set_stream in *. cbn in *. congruence. Qed.
Lemma untime_set_time : forall c t, untime (ch_set_time c t) = untime c.
Proof. reflexivity. Qed.

Lemma bit_step_sim : forall env o c1 c2 w b, o_timestamp o = false -> untime c1 = untime c2 ->
  sim (bit_step env o c1 w b) (bit_step env o c2 w b).
Proof.
  intros env o c1 c2 w b OT U. unfold bit_step. rewrite (untime_streams c1 c2 U).
  destruct (arr_get (ch_block_stream c2) w) as [s| |]; cbn [bind sim]; [|reflexivity|reflexivity].
  destruct (bst_step s b) as [s' [g|]]; cbv zeta.
  - apply sim_bind; [apply process_untimed0; [exact OT|apply untime_set_stream; exact U]|].
    intros d1 d2 x D. cbn [sim]. split; [exact D|reflexivity].
  - cbn [sim]. split; [apply untime_set_stream; exact U|reflexivity].
Qed.
Lemma bit_steps_sim : forall env o l c1 c2, o_timestamp o = false -> untime c1 = untime c2 ->
  sim (bit_steps env o c1 l) (bit_steps env o c2 l).
Proof.
  intros env o. induction l as [|[w b] l IH]; intros c1 c2 OT U; cbn [bit_steps]; [split; [exact U|reflexivity]|].
  apply sim_bind; [apply bit_step_sim; assumption|]. intros d1 d2 x D.
  apply sim_bind; [apply IH; assumption|]. intros e1 e2 y E. split; [exact E|reflexivity].
Qed.
Lemma bit_steps_app : forall env o l1 l2 c, bit_steps env o c (l1 ++ l2) =
  ('(c, out) <- bit_steps env o c l1 ;; '(c, out') <- bit_steps env o c l2 ;; Ok (c, out ++ out')%list).
Proof.
  intros env o. induction l1 as [|[w b] l1 IH]; intros l2 c; cbn [bit_steps app bind].
  - destruct (bit_steps env o c l2) as [[d y]| |]; reflexivity.
  - destruct (bit_step env o c w b) as [[d x]| |]; cbn [bind]; [|reflexivity|reflexivity]. rewrite IH.
    destruct (bit_steps env o d l1) as [[e y]| |]; cbn [bind]; [|reflexivity|reflexivity].
    destruct (bit_steps env o e l2) as [[f z]| |]; cbn [bind]; [|reflexivity|reflexivity]. rewrite app_assoc. reflexivity.
Qed.

Definition lines_of (r : res (Channel * list (option bytes))) : res (Channel * list bytes) :=
  '(c, out) <- r ;; Ok (c, printed out).

Lemma bits_sim : forall env o t now w, o_timestamp o = false -> forall bits c, N.of_nat (length bits) < 9007199254740992 ->
  sim (lines_of (processBits env o c t now bits w)) (bit_steps env o c (map (pair w) bits)).
Proof.
  intros env o t now w OT. unfold processBits. induction bits as [|b bits IH]; intros c L; [split; reflexivity|].
  cbn [length] in L. cbn [processBits_loop map bit_steps]. unfold bit_step at 1.
  destruct (arr_get (ch_block_stream c) w) as [s| |]; cbn [bind lines_of sim]; [|reflexivity|reflexivity].
  destruct (bst_step s b) as [s' [g|]]; cbv zeta.
  - destruct (age_good (N.of_nat (length bits)) ltac:(lia)) as (z & ->). cbn [bind].
    set (tt := if (t - z * 1000000 <? ch_last_group_rx_time (ch_set_stream c w s'))%Z then _ else _).
    assert (Pg := process_untimed env o now 0 (ch_set_stream c w s') (ch_set_stream c w s') g w tt OT eq_refl).
    destruct (processGroup env o now (ch_set_stream c w s') (g_setTime g tt) w) as [[c1 l1]| |],
             (processGroup env o 0 (ch_set_stream c w s') g w) as [[c2 l2]| |]; cbn [sim bind] in *; try contradiction; try exact Pg.
    destruct Pg as [U ->].
    assert (X : sim (lines_of (processBits_loop env o t now w bits (ch_set_time c1 tt))) (bit_steps env o c2 (map (pair w) bits))).
    { eapply sim_trans; [apply IH; lia|]. apply bit_steps_sim; [exact OT|exact U]. }
    destruct (processBits_loop env o t now w bits (ch_set_time c1 tt)) as [[d1 m1]| |], (bit_steps env o c2 (map (pair w) bits)) as [[d2 m2]| |];
      cbn [sim bind lines_of] in *; try contradiction; try exact X.
    destruct X as [X1 <-]. split; [exact X1|]. unfold printed. rewrite flat_map_app. reflexivity.
  - cbn [bind]. specialize (IH (ch_set_stream c w s') ltac:(lia)).
    destruct (processBits_loop env o t now w bits (ch_set_stream c w s')) as [[d1 m1]| |], (bit_steps env o (ch_set_stream c w s') (map (pair w) bits)) as [[d2 m2]| |];
      cbn [sim bind lines_of] in *; try contradiction; try exact IH.
Qed.

Lemma session_sim : forall env o calls c1 c2, o_timestamp o = false -> untime c1 = untime c2 -> Forall feeds_bits calls -> Forall possible calls ->
  sim (session env o c1 calls) (bit_steps env o c2 (fed calls)).
Proof.
  intros env o. induction calls as [|x calls IH]; intros c1 c2 OT U B Po; [split; [exact U|reflexivity]|].
  inversion B as [|? ? Bx B']; inversion Po as [|? ? Px Po']; subst. cbn [session fed flat_map]. fold (fed calls).
  rewrite bit_steps_app. set (l := match x with Bit_in _ b w => [(w, b)] | Bits_in _ _ bits w => map (pair w) bits | _ => [] end).
  assert (X : sim (lines_of (do_call env o c1 x)) (bit_steps env o c2 l)).
  { subst l. destruct x as [|now b w|t now bits w| |]; try contradiction; cbn [do_call].
    - cbn [bit_steps]. unfold processBit, bit_step. rewrite (untime_streams c1 c2 U).
      destruct (arr_get (ch_block_stream c2) w) as [s| |]; cbn [bind lines_of sim]; [|reflexivity|reflexivity].
      destruct (bst_step s b) as [s' [g|]]; cbv zeta.
      + pose proof (process_untimed0 env o now 0 (ch_set_stream c1 w s') (ch_set_stream c2 w s') g w OT (untime_set_stream c1 c2 w s' U)) as Pg.
        destruct (processGroup env o now (ch_set_stream c1 w s') g w) as [[d1 l1]| |], (processGroup env o 0 (ch_set_stream c2 w s') g w) as [[d2 l2]| |];
          cbn [sim bind lines_of] in *; try contradiction; try exact Pg.
        destruct Pg as [V ->]. split; [exact V|]. rewrite app_nil_r. reflexivity.
      + cbn. split; [apply untime_set_stream; exact U|reflexivity].
    - eapply sim_trans; [apply bits_sim; [exact OT|apply Px]|]. apply bit_steps_sim; assumption. }
  destruct (do_call env o c1 x) as [[d1 l1]| |]; cbn [lines_of bind] in X |- *.
  2,3: destruct (bit_steps env o c2 l) as [[d2 l2]| |]; cbn [sim bind] in *; try contradiction; exact X.
  destruct (bit_steps env o c2 l) as [[d2 l2]| |]; cbn [sim bind] in *; try contradiction. destruct X as [V <-].
  apply sim_bind; [apply IH; assumption|]. intros e1 e2 y E. split; [exact E|reflexivity].
Qed.

Lemma buffering : forall env o calls1 calls2 c c1 lines, o_timestamp o = false ->
  Forall feeds_bits calls1 -> Forall possible calls1 -> Forall feeds_bits calls2 -> Forall possible calls2 ->
  fed calls1 = fed calls2 -> session env o c calls1 = Ok (c1, lines) ->
  exists c2, session env o c calls2 = Ok (c2, lines) /\ untime c1 = untime c2.
Proof.
  intros env o calls1 calls2 c c1 lines OT B1 P1 B2 P2 F E.
  pose proof (session_sim env o calls1 c c OT eq_refl B1 P1) as S1. pose proof (session_sim env o calls2 c c OT eq_refl B2 P2) as S2.
  rewrite <- F in S2. apply sim_sym in S2. pose proof (sim_trans _ _ _ _ S1 S2) as S. rewrite E in S.
  destruct (session env o c calls2) as [[c2 l2]| |]; cbn [sim] in S; try contradiction. destruct S as [U <-]. exists c2. split; [reflexivity|exact U].
Qed.

(* ---- streams do not disturb each other ---- *)
Lemma process_streams : forall env o now c g w c' line, processGroup env o now c g w = Ok (c', line) -> ch_block_stream c' = ch_block_stream c.
Proof.
  intros env o now c g w c' line P. rewrite process_eq in P. destruct (o_output_type o); [injection P as <- _; reflexivity|].
  destruct (updateAndPrint _ _ _ _) as [[s l]| |]; cbn [bind] in P; try discriminate. injection P as <- _. reflexivity.
Qed.

Lemma list_set_nth : forall (A : Type) (l : list A) i j v, (i < length l)%nat ->
  nth_error (list_set l i v) j = if Nat.eqb i j then Some v else nth_error l j.
Proof.
  induction l as [|x l IH]; intros i j v L; cbn [length] in L; [lia|]. destruct i as [|i], j as [|j]; cbn [list_set nth_error Nat.eqb]; try reflexivity.
  apply IH. lia.
Qed.

Definition stream_state (c : Channel) (w : N) : option BlockStream := nth_error (ch_block_stream c) (N.to_nat w).

Lemma step_streams : forall c w s w', w < 4 -> length (ch_block_stream c) = 4%nat ->
  stream_state (ch_set_stream c w s) w' = if w =? w' then Some s else stream_state c w'.
Proof.
  intros c w s w' Hw L. unfold stream_state. cbn [ch_block_stream ch_set_stream]. rewrite list_set_nth by lia.
  destruct (N.eqb_spec w w') as [->|N]; [rewrite Nat.eqb_refl; reflexivity|].
  destruct (Nat.eqb_spec (N.to_nat w) (N.to_nat w')); [lia|reflexivity].
Qed.

Lemma arr_get_state : forall c w s, arr_get (ch_block_stream c) w = Ok s -> stream_state c w = Some s.
Proof. intros c w s H. unfold arr_get in H. unfold stream_state. destruct (nth_error _ _); [congruence|discriminate]. Qed.

Lemma bits_streams : forall env o t now w, w < 4 -> forall bits c c' out, length (ch_block_stream c) = 4%nat ->
  processBits env o c t now bits w = Ok (c', out) ->
  length (ch_block_stream c') = 4%nat /\
  forall w', stream_state c' w' = if w =? w' then option_map (fun s => fst (bst_run s bits)) (stream_state c w') else stream_state c w'.
Proof.
  intros env o t now w Hw. unfold processBits. induction bits as [|b bits IH]; intros c c' out L E; cbn [processBits_loop] in E.
  - injection E as <- <-. split; [exact L|]. intros w'. cbn [bst_run fst]. destruct (w =? w'), (stream_state c w'); reflexivity.
  - destruct (arr_get (ch_block_stream c) w) as [s| |] eqn:Es; cbn [bind] in E; try discriminate.
    destruct (bst_step s b) as [s' og] eqn:St.
    assert (L1 : length (ch_block_stream (ch_set_stream c w s')) = 4%nat) by (cbn; rewrite list_set_length; exact L).
    assert (Fin : forall c2, ch_block_stream c2 = ch_block_stream (ch_set_stream c w s') ->
      processBits_loop env o t now w bits c2 = processBits_loop env o t now w bits c2 ->
      forall c3 o3, processBits_loop env o t now w bits c2 = Ok (c3, o3) ->
      length (ch_block_stream c3) = 4%nat /\
      forall w', stream_state c3 w' = if w =? w' then option_map (fun s => fst (bst_run s (b :: bits))) (stream_state c w') else stream_state c w').
    { intros c2 H2 _ c3 o3 E3. destruct (IH c2 c3 o3 ltac:(rewrite H2; exact L1) E3) as [L3 W3]. split; [exact L3|]. intros w'. rewrite W3.
      assert (Q : stream_state c2 w' = if w =? w' then Some s' else stream_state c w').
      { rewrite <- (step_streams c w s' w' Hw L). unfold stream_state. rewrite H2. reflexivity. }
      rewrite Q. destruct (N.eqb_spec w w') as [Ew|]; [|reflexivity]. rewrite <- Ew. rewrite (arr_get_state c w s Es). cbn [option_map bst_run].
      rewrite St. destruct (bst_run s' bits). reflexivity. }
    destruct og as [g|].
    + destruct (bit_age_ms _) as [age| |]; cbn [bind] in E; try discriminate.
      set (tt := if (t - age * 1000000 <? ch_last_group_rx_time (ch_set_stream c w s'))%Z then _ else _) in E.
      destruct (processGroup env o now (ch_set_stream c w s') (g_setTime g tt) w) as [[c2 l2]| |] eqn:P; cbn [bind] in E; try discriminate.
      destruct (processBits_loop env o t now w bits (ch_set_time c2 tt)) as [[c3 o3]| |] eqn:E3; cbn [bind] in E; try discriminate.
      injection E as <- <-. eapply Fin; [|reflexivity|exact E3]. apply (process_streams _ _ _ _ _ _ _ _ P).
    + cbn [bind] in E. destruct (processBits_loop env o t now w bits (ch_set_stream c w s')) as [[c3 o3]| |] eqn:E3; cbn [bind] in E; try discriminate.
      injection E as <- <-. eapply Fin; [reflexivity|reflexivity|exact E3].
Qed.

Lemma flush_streams : forall env o now l c c' out, flush_loop env o now l c = Ok (c', out) -> ch_block_stream c' = ch_block_stream c.
Proof.
  intros env o now. induction l as [|i l IH]; intros c c' out E; cbn [flush_loop] in E; [injection E as <- <-; reflexivity|].
  destruct (arr_get _ i) as [s| |]; cbn [bind] in E; try discriminate. destruct (g_isEmpty _).
  - cbn [bind] in E. destruct (flush_loop env o now l c) as [[c2 o2]| |] eqn:E2; cbn [bind] in E; try discriminate. injection E as <- <-.
    apply (IH c c2 o2 E2).
  - destruct (processGroup env o now c (bst_current_group s) i) as [[c1 l1]| |] eqn:P; cbn [bind] in E; try discriminate.
    destruct (flush_loop env o now l c1) as [[c2 o2]| |] eqn:E2; cbn [bind] in E; try discriminate. injection E as <- <-.
    rewrite (IH c1 c2 o2 E2). apply (process_streams _ _ _ _ _ _ _ _ P).
Qed.

Lemma bst_run_app : forall l1 l2 s, fst (bst_run s (l1 ++ l2)) = fst (bst_run (fst (bst_run s l1)) l2).
Proof.
  induction l1 as [|b l1 IH]; intros l2 s; [reflexivity|]. cbn [app bst_run]. destruct (bst_step s b) as [s1 og]. specialize (IH l2 s1).
  destruct (bst_run s1 (l1 ++ l2)), (bst_run s1 l1). exact IH.
Qed.

Lemma on_stream_app : forall w a b, on_stream w (a ++ b) = (on_stream w a ++ on_stream w b)%list.
Proof. intros. unfold on_stream. apply flat_map_app. Qed.
Lemma on_stream_map : forall w w' bits, on_stream w' (map (pair w) bits) = if w =? w' then bits else [].
Proof.
  intros w w' bits. unfold on_stream. induction bits as [|b bits IH]; cbn [map flat_map fst snd]; [destruct (w =? w'); reflexivity|].
  rewrite IH. destruct (w =? w'); reflexivity.
Qed.

Lemma session_streams : forall env o calls c c' lines, Forall possible calls -> length (ch_block_stream c) = 4%nat ->
  session env o c calls = Ok (c', lines) ->
  forall w, stream_state c' w = option_map (fun s => fst (bst_run s (on_stream w (fed calls)))) (stream_state c w).
Proof.
  intros env o. induction calls as [|x calls IH]; intros c c' lines Po L E w; cbn [session] in E.
  - injection E as <- <-. cbn. destruct (stream_state c w); reflexivity.
  - inversion Po as [|? ? Px Po']; subst. destruct (do_call env o c x) as [[c1 o1]| |] eqn:E1; cbn [bind] in E; try discriminate.
    destruct (session env o c1 calls) as [[c2 l2]| |] eqn:E2; cbn [bind] in E; try discriminate. injection E as <- <-.
    cbn [fed flat_map]. fold (fed calls). rewrite on_stream_app.
    set (bits := match x with Bit_in _ b w => [(w, b)] | Bits_in _ _ bits w => map (pair w) bits | _ => [] end).
    assert (X : length (ch_block_stream c1) = 4%nat /\ stream_state c1 w = option_map (fun s => fst (bst_run s (on_stream w bits))) (stream_state c w)).
    { assert (Keep : ch_block_stream c1 = ch_block_stream c -> bits = [] ->
        length (ch_block_stream c1) = 4%nat /\ stream_state c1 w = option_map (fun s => fst (bst_run s (on_stream w bits))) (stream_state c w)).
      { intros K ->. rewrite K. split; [exact L|]. unfold stream_state. rewrite K. cbn. destruct (nth_error _ _); reflexivity. }
      destruct x as [now g w1|now b w1|t now bs w1|now|]; cbn [do_call] in E1.
      - destruct (processGroup env o now c g w1) as [[d l]| |] eqn:P; cbn [bind] in E1; try discriminate. injection E1 as <- <-.
        apply Keep; [apply (process_streams _ _ _ _ _ _ _ _ P)|reflexivity].
      - unfold processBit in E1. destruct (arr_get (ch_block_stream c) w1) as [s| |] eqn:Es; cbn [bind] in E1; try discriminate.
        destruct (bst_step s b) as [s' og] eqn:St.
        assert (K : ch_block_stream c1 = ch_block_stream (ch_set_stream c w1 s')).
        { destruct og as [g|].
          - destruct (processGroup env o now (ch_set_stream c w1 s') g w1) as [[d l]| |] eqn:P; cbn [bind] in E1; try discriminate.
            injection E1 as <- <-. apply (process_streams _ _ _ _ _ _ _ _ P).
          - injection E1 as <- <-. reflexivity. }
        split; [rewrite K; cbn; rewrite list_set_length; exact L|].
        assert (Q : stream_state c1 w = if w1 =? w then Some s' else stream_state c w).
        { rewrite <- (step_streams c w1 s' w Px L). unfold stream_state. rewrite K. reflexivity. }
        rewrite Q. subst bits. cbn [on_stream flat_map fst snd]. destruct (N.eqb_spec w1 w) as [Ew|].
        + rewrite <- Ew. rewrite (arr_get_state _ _ _ Es). cbn [option_map bst_run app]. rewrite St. reflexivity.
        + cbn. destruct (stream_state c w); reflexivity.
      - destruct (bits_streams env o t now w1 (proj2 Px) bs c c1 o1 L E1) as [L1 W1]. split; [exact L1|]. rewrite W1. subst bits.
        rewrite on_stream_map. destruct (w1 =? w); [reflexivity|]. destruct (stream_state c w); reflexivity.
      - apply Keep; [|reflexivity]. apply (flush_streams _ _ _ _ _ _ _ E1).
      - injection E1 as <- <-. apply Keep; reflexivity. }
    destruct X as [L1 X]. rewrite (IH c1 c2 l2 Po' L1 E2 w), X. destruct (stream_state c w) as [s|]; cbn [option_map]; [|reflexivity].
    f_equal. symmetry. apply bst_run_app.
Qed.
