(* What the lines of a channel say: PI code, error rate, time; which groups are printed at all. *)
From Verif.Proofs Require Import Tac Numerals FreqP Utf8P JsonP Schema StationP TextP CleanP ClockP BlerP UpdateP SessionP LineP FrameP ChannelP.
From Verif.Model Require Import Util Float Group BlockSync Options Tables Json Tmc Station Channel.
From Verif.Spec Require Import Numerals Unicode JsonText Calendar Session Identity Quality.

Local Open Scope string_scope.
Local Open Scope N_scope.

Lemma print_cases : forall env j line, host_ok env -> print_json env j = Ok line ->
  only_error line \/ (forall p, line_at p line = option_map (value_of (env_float env)) (jget p j)).
Proof.
  intros env j line H Pr. destruct (host_env env H) as [E FL]. destruct (print_good env j E) as (j' & Pj & _ & D).
  rewrite Pj in Pr. injection Pr as <-. destruct D as [-> |[_ ->]].
  - right. intros p. rewrite line_at_dump by exact FL. destruct (jget p j); reflexivity.
  - left. eexists. rewrite read_dump by exact FL. reflexivity.
Qed.

(* What the header says of a printed line *)
Lemma process_header : forall env o now c g w c' line, host_ok env -> o_output_type o = OutJSON -> ch_ok c -> g_has_bler g = false ->
  processGroup env o now c g w = Ok (c', Some line) ->
  let g' := prepared o now c g w in
  silent (tuned c g') g' = false /\
  (only_error line \/ forall k, in_header k = true ->
     line_at [k] line = option_map (value_of (env_float env)) (obj_find k (header env o (tuned c g') g'))).
Proof.
  intros env o now c g w c' line H OJ Hc Hb P g'. destruct (host_env env H) as [E FL].
  destruct (process_station _ _ _ _ _ _ _ _ OJ P) as (_ & _ & _ & Si). fold g' in Si.
  assert (S : silent (tuned c g') g' = false) by (destruct (silent _ _); [destruct Si as [_ Si]; specialize (Si eq_refl); discriminate|reflexivity]).
  split; [exact S|]. destruct (process_spoken env o now c g w OJ E Hc Hb S) as (st' & j & line' & D & P' & _ & Pr & Hd).
  rewrite P in P'. injection P' as _ ->. destruct (print_cases env j line' H Pr) as [O|L]; [left; exact O|right].
  intros k Hk. rewrite L. rewrite Hd by exact Hk. reflexivity.
Qed.

Lemma header_pi : forall env o st g, obj_find "pi" (header env o st g) = if is_C g then None else Some (JStr (getPrefixedHexString 4 (st_pi st))).
Proof.
  intros env o st g. unfold header. rewrite !obj_find_app.
  assert (E : obj_find "pi" (if o_streams o then [("stream", JN (g_data_stream g))] else []) = None) by (destruct (o_streams o); reflexivity).
  rewrite E. destruct (is_C g) eqn:C; [|reflexivity]. cbn [obj_find].
  destruct (o_timestamp o), (g_has_bler g), (1 <? o_num_channels o), (o_show_raw o); cbn [obj_find String.eqb Ascii.eqb Bool.eqb];
    unfold basics; rewrite C; reflexivity.
Qed.

Lemma header_bler : forall env o st g, obj_find "bler" (header env o st g) = if g_has_bler g then Some (bler_value g) else None.
Proof.
  intros env o st g. unfold header. rewrite !obj_find_app.
  assert (Ec : obj_find "bler" (if is_C g then [] else call_member o st) = None).
  { destruct (is_C g); [reflexivity|apply call_find; discriminate]. }
  rewrite Ec. 
  assert (Eb : obj_find "bler" (basics o g) = None).
  { unfold basics, basics_of. destruct (is_C g); [reflexivity|]. destruct (g_has g BLOCK2); [destruct (g_has_type g); reflexivity|].
    destruct (_ && _ && _); reflexivity. }
  rewrite Eb. destruct (o_streams o), (is_C g), (o_timestamp o), (g_has_bler g), (1 <? o_num_channels o), (o_show_raw o); reflexivity.
Qed.

Lemma header_time : forall env o st g, obj_find "rx_time" (header env o st g) =
  if o_timestamp o then Some (JStr (getTimePointString env (g_time_received g) (o_time_format o))) else None.
Proof.
  intros env o st g. unfold header. rewrite !obj_find_app.
  assert (Ec : obj_find "rx_time" (if is_C g then [] else call_member o st) = None).
  { destruct (is_C g); [reflexivity|apply call_find; discriminate]. }
  rewrite Ec. 
  assert (Eb : obj_find "rx_time" (basics o g) = None).
  { unfold basics, basics_of. destruct (is_C g); [reflexivity|]. destruct (g_has g BLOCK2); [destruct (g_has_type g); reflexivity|].
    destruct (_ && _ && _); reflexivity. }
  rewrite Eb. destruct (o_streams o), (is_C g), (o_timestamp o), (g_has_bler g), (1 <? o_num_channels o), (o_show_raw o); reflexivity.
Qed.

Lemma prepared_C : forall o now c g w, is_C (prepared o now c g w) = negb (main (now, g, w)).
Proof.
  intros. unfold is_C. rewrite prepared_type. cbn [main]. destruct (w =? 0); cbn [andb negb gt_version Version_eqb]; [|reflexivity].
  rewrite Bool.negb_involutive. reflexivity.
Qed.

(* ---- runs of received groups ---- *)
Lemma received_bler : forall gs, Forall received_group gs -> Forall (fun x : Z * Group * N => g_has_bler (snd (fst x)) = false) gs.
Proof. intros gs F. eapply Forall_impl; [|exact F]. intros [[now g] w] H. apply H. Qed.

Lemma run_ok : forall env o c gs c' out, host_ok env -> ch_ok c -> Forall received_group gs ->
  run_groups env o c gs = Ok (c', out) -> ch_ok c' /\ length out = length gs.
Proof.
  intros env o c gs c' out H Hc F E. destruct (host_env env H) as [Eo _].
  destruct (run_groups_good env o gs c Eo Hc (received_bler gs F)) as ([c1 o1] & E1 & R). rewrite E in E1. injection E1 as <- <-. exact R.
Qed.

Lemma carried_16 : forall x p, received_group x -> carried_pi x = Some p -> p < 2 ^ 16.
Proof.
  intros [[now g] w] p (_ & H1 & _ & H3 & _) C. cbn [carried_pi] in C. destruct (w =? 0); [|discriminate].
  destruct (gt_version (g_type g)); try discriminate;
  (destruct (blk_is_received (g_b1 g)); [injection C as <-; exact H1|];
   destruct (_ && _); [injection C as <-; exact H3|discriminate]).
Qed.
Lemma pis_16 : forall gs, Forall received_group gs -> Forall (fun p => p < 2 ^ 16) (pis gs).
Proof.
  intros gs F. induction F as [|x gs Hx F IH]; [constructor|]. unfold pis. cbn [flat_map]. apply Forall_app. split; [|exact IH].
  destruct (carried_pi x) as [p|] eqn:E; constructor; [apply (carried_16 x p Hx E)|constructor].
Qed.
Lemma latest_16 : forall p gs, Forall received_group gs -> latest p gs -> p < 2 ^ 16.
Proof.
  intros p gs F (a & b & -> & (e & E) & _). apply Forall_app in F. destruct F as [F _]. apply pis_16 in F. rewrite E in F.
  apply Forall_app in F. destruct F as [_ F]. inversion F. assumption.
Qed.

Lemma hex4_says : forall line key n, n < 2 ^ 16 -> line_at [key] line = Some (VStr (getPrefixedHexString 4 n)) -> says_hex4 line key n.
Proof.
  intros line key n L H. destruct (getHexString_ok 4 n L ltac:(lia)) as [H1 H2]. exists (getHexString 4 n).
  split; [exact H|]. split; assumption.
Qed.

Lemma printed_line_pi : forall env o w0 gs now g w c out line, host_ok env -> o_output_type o = OutJSON ->
  Forall received_group (gs ++ [(now, g, w)]) ->
  run_groups env o (Channel_new o w0) (gs ++ [(now, g, w)]) = Ok (c, out ++ [Some line])%list ->
  exists p, latest p (gs ++ [(now, g, w)]) /\ (main (now, g, w) = true -> only_error line \/ says_hex4 line "pi" p).
Proof.
  intros env o w0 gs now g w c out line H OJ F R.
  destruct (run_snoc _ _ _ _ _ _ _ _ _ R) as (c1 & out1 & line1 & E1 & E2 & Eo). apply app_inj_tail in Eo. destruct Eo as [_ <-].
  assert (F' := F). apply Forall_app in F'. destruct F' as [F1 F2]. inversion F2 as [|? ? Fg _]; subst.
  destruct (run_ok _ _ _ _ _ _ H (channel_new_ok o w0) F1 E1) as [Hc _].
  destruct (process_header _ _ _ _ _ _ _ _ H OJ Hc (proj1 Fg) E2) as [S L].
  destruct (process_station _ _ _ _ _ _ _ _ OJ E2) as (Id & _). set (g' := prepared o now c1 g w) in *.
  assert (Hp : st_has_pi (tuned c1 g') = true).
  { unfold silent in S. destruct (st_has_pi (tuned c1 g')); [reflexivity|discriminate]. }
  assert (St : station_of c = Some (st_pi (tuned c1 g'))).
  { unfold station_of. apply same_station in Id. rewrite Id. destruct (had_station (tuned c1 g') g') as (-> & -> & _). rewrite Hp. reflexivity. }
  exists (st_pi (tuned c1 g')). pose proof (station_latest _ _ _ _ _ _ _ OJ R St) as La. split; [exact La|].
  intros M. destruct L as [L|L]; [left; exact L|right]. specialize (L "pi" eq_refl). rewrite header_pi in L.
  unfold g' in L at 1. rewrite prepared_C, M in L. cbn [negb option_map value_of] in L. apply hex4_says; [|exact L].
  apply (latest_16 _ _ F La).
Qed.

(* ---- groups without a PI code ---- *)
Lemma not_carried : forall o now c g w, main (now, g, w) = true -> carried_pi (now, g, w) = None -> g_hasPI (prepared o now c g w) = false.
Proof.
  intros o now c g w _ C. rewrite <- (prepared_pi o now c g w) in C. destruct (g_hasPI _); [discriminate|reflexivity].
Qed.

Definition quiet (st : Station) : bool := negb (st_has_pi st) || negb (st_last_group_had_pi st).

Lemma had_quiet : forall st g, is_C g = false -> g_hasPI g = false -> quiet (had st g) = true.
Proof.
  intros st g C Pi. unfold had, quiet. rewrite C, Pi. cbn [negb orb andb].
  destruct (st_has_pi st) eqn:E1; cbn [negb orb]; [|rewrite E1; reflexivity].
  destruct (st_last_group_had_pi st) eqn:E2; cbn [negb orb]; [|rewrite E1, E2; reflexivity]. cbn. apply orb_true_r.
Qed.
Lemma same_quiet : forall a b, same_id a b -> quiet b = quiet a.
Proof. intros a b (_ & H1 & _ & H2). unfold quiet. rewrite H1, H2. reflexivity. Qed.

Lemma step_quiet : forall env o now c g w c' line, o_output_type o = OutJSON -> processGroup env o now c g w = Ok (c', line) ->
  main (now, g, w) = false -> same_id (ch_station c) (ch_station c').
Proof.
  intros env o now c g w c' line OJ E M. destruct (process_station _ _ _ _ _ _ _ _ OJ E) as (Id & _).
  set (g' := prepared o now c g w) in *.
  assert (C : is_C g' = true) by (unfold g'; rewrite prepared_C, M; reflexivity).
  assert (Pi : g_hasPI g' = false) by (unfold g_hasPI; unfold is_C in C; rewrite C; reflexivity).
  unfold tuned in Id. rewrite Pi in Id. unfold had in Id. rewrite C, orb_true_r in Id. exact Id.
Qed.
Lemma run_quiet : forall env o cs c c' out, o_output_type o = OutJSON -> run_groups env o c cs = Ok (c', out) ->
  Forall (fun x => main x = false) cs -> same_id (ch_station c) (ch_station c').
Proof.
  intros env o. induction cs as [|[[now g] w] cs IH]; intros c c' out OJ E F; cbn [run_groups] in E.
  - injection E as <- <-. repeat split.
  - inversion F as [|? ? M F']; subst. destruct (processGroup env o now c g w) as [[c1 l1]| |] eqn:E1; cbn [bind] in E; try discriminate.
    destruct (run_groups env o c1 cs) as [[c2 o2]| |] eqn:E2; cbn [bind] in E; try discriminate. injection E as <- <-.
    pose proof (step_quiet _ _ _ _ _ _ _ _ OJ E1 M) as (A1 & A2 & A3 & A4). destruct (IH c1 c2 o2 OJ E2 F') as (B1 & B2 & B3 & B4).
    repeat split; congruence.
Qed.

Lemma second_piless_silent : forall env o c gs x1 cs x2 c' out, o_output_type o = OutJSON ->
  run_groups env o c (gs ++ [x1] ++ cs ++ [x2]) = Ok (c', out) ->
  main x1 = true -> carried_pi x1 = None -> Forall (fun x => main x = false) cs -> main x2 = true -> carried_pi x2 = None ->
  exists out', out = (out' ++ [None])%list.
Proof.
  intros env o c gs [[n1 g1] w1] cs [[n2 g2] w2] c' out OJ R M1 P1 F M2 P2.
  rewrite !app_assoc in R. destruct (run_snoc _ _ _ _ _ _ _ _ _ R) as (c3 & o3 & l3 & E3 & E & ->).
  rewrite run_groups_app in E3.
  destruct (run_groups env o c (gs ++ [(n1, g1, w1)])) as [[c2 o2]| |] eqn:E2; cbn [bind] in E3; try discriminate.
  destruct (run_groups env o c2 cs) as [[c3' o3']| |] eqn:E3'; cbn [bind] in E3; try discriminate. injection E3 as <- <-.
  destruct (run_snoc _ _ _ _ _ _ _ _ _ E2) as (c1 & o1 & l1 & _ & E1 & _).
  destruct (process_station _ _ _ _ _ _ _ _ OJ E1) as (Id1 & _).
  assert (Q1 : quiet (ch_station c2) = true).
  { rewrite (same_quiet _ _ Id1). apply had_quiet; [rewrite prepared_C, M1; reflexivity|apply not_carried; assumption]. }
  assert (Q3 : quiet (ch_station c3') = true).
  { rewrite (same_quiet _ _ (run_quiet _ _ _ _ _ _ OJ E3' F)). exact Q1. }
  exists (o2 ++ o3')%list. f_equal. f_equal.
  destruct (process_station _ _ _ _ _ _ _ _ OJ E) as (_ & _ & _ & Si). apply Si.
  unfold tuned. rewrite (not_carried o n2 c3' g2 w2 M2 P2). unfold silent. rewrite prepared_C, M2, (not_carried o n2 c3' g2 w2 M2 P2).
  unfold quiet in Q3. cbn [negb andb]. destruct (st_has_pi (ch_station c3')); cbn [negb orb] in *; [rewrite Q3; reflexivity|reflexivity].
Qed.

(* A printed group without a PI code follows one with a PI code *)
Definition recent_pi (gs : list (Z * Group * N)) : Prop :=
  exists a x cs, gs = (a ++ [x] ++ cs)%list /\ main x = true /\ carried_pi x <> None /\ Forall (fun y => main y = false) cs.

Lemma run_recent : forall env o w0 gs c out, o_output_type o = OutJSON -> run_groups env o (Channel_new o w0) gs = Ok (c, out) ->
  quiet (ch_station c) = false -> recent_pi gs.
Proof.
  intros env o w0 gs. induction gs as [|[[now g] w] gs IH] using rev_ind; intros c out OJ R Q.
  - injection R as <- <-. discriminate.
  - destruct (run_snoc _ _ _ _ _ _ _ _ _ R) as (c1 & o1 & l1 & E1 & E2 & ->).
    destruct (main (now, g, w)) eqn:M.
    + destruct (carried_pi (now, g, w)) as [p|] eqn:P.
      * exists gs, (now, g, w), []. split; [reflexivity|]. split; [exact M|]. split; [rewrite P; discriminate|constructor].
      * destruct (process_station _ _ _ _ _ _ _ _ OJ E2) as (Id & _). rewrite (same_quiet _ _ Id) in Q.
        rewrite had_quiet in Q; [discriminate|rewrite prepared_C, M; reflexivity|apply not_carried; assumption].
    + pose proof (step_quiet _ _ _ _ _ _ _ _ OJ E2 M) as Id. rewrite (same_quiet _ _ Id) in Q.
      destruct (IH c1 o1 OJ E1 Q) as (a & x & cs & -> & Mx & Px & F). exists a, x, (cs ++ [(now, g, w)])%list.
      split; [rewrite <- !app_assoc; reflexivity|]. split; [exact Mx|]. split; [exact Px|].
      apply Forall_app. split; [exact F|repeat constructor; exact M].
Qed.

Lemma piless_printed : forall env o w0 gs x c out line, o_output_type o = OutJSON ->
  run_groups env o (Channel_new o w0) (gs ++ [x]) = Ok (c, out ++ [Some line])%list ->
  main x = true -> carried_pi x = None -> recent_pi gs.
Proof.
  intros env o w0 gs [[now g] w] c out line OJ R M P.
  destruct (run_snoc _ _ _ _ _ _ _ _ _ R) as (c1 & o1 & l1 & E1 & E2 & Eo). apply app_inj_tail in Eo. destruct Eo as [_ <-].
  apply (run_recent _ _ _ _ _ _ OJ E1). destruct (process_station _ _ _ _ _ _ _ _ OJ E2) as (_ & _ & _ & Si).
  destruct (quiet (ch_station c1)) eqn:Q; [|reflexivity]. exfalso.
  assert (N : Some line = None); [|discriminate]. apply Si. unfold tuned, silent.
  rewrite (not_carried o now c1 g w M P), prepared_C, M. cbn [negb andb]. unfold quiet in Q.
  destruct (st_has_pi (ch_station c1)); cbn [negb orb] in *; [rewrite Q; reflexivity|reflexivity].
Qed.

Lemma empty_silent : forall env o now c g w c' line, o_output_type o = OutJSON -> main (now, g, w) = true -> nothing_received g ->
  processGroup env o now c g w = Ok (c', line) -> line = None.
Proof.
  intros env o now c g w c' line OJ M (B1 & B2 & B3 & B4) E. destruct (process_station _ _ _ _ _ _ _ _ OJ E) as (_ & _ & _ & Si).
  apply Si. unfold silent. rewrite prepared_C, M. unfold g_isEmpty, g_has. rewrite !prepared_block. cbn [g_block].
  rewrite B1, B2, B3, B4. cbn [orb negb andb]. rewrite !orb_true_r. reflexivity.
Qed.

(* In hexadecimal output empty groups are left out as well *)
Lemma empty_silent_hex : forall env o now c g w c' line, nothing_received g -> o_output_type o = OutHex ->
  processGroup env o now c g w = Ok (c', line) -> line = None.
Proof.
  intros env o now c g w c' line (B1 & B2 & B3 & B4) OH E. rewrite process_eq in E. rewrite OH in E. injection E as _ <-.
  unfold printAsHex, g_isEmpty, g_has. rewrite !prepared_block. cbn [g_block]. rewrite B1, B2, B3, B4. reflexivity.
Qed.

(* ---- error rate ---- *)
Lemma bad_blocks_errors : forall g, bad_blocks g = g_getNumErrors g.
Proof.
  intros g. unfold bad_blocks, g_getNumErrors, blk_error_count. cbn [filter].
  destruct (blk_had_errors (g_b1 g) || _), (blk_had_errors (g_b2 g) || _), (blk_had_errors (g_b3 g) || _), (blk_had_errors (g_b4 g) || _); reflexivity.
Qed.

Definition last12 (l : list N) : list N := firstn 12 (l ++ repeat 0 12).

Lemma removelast_firstn : forall (A : Type) n (l : list A), (S n <= length l)%nat -> removelast (firstn (S n) l) = firstn n l.
Proof. intros. apply removelast_firstn. lia. Qed.

Lemma tl_rev : forall (A : Type) (l : list A), tl (rev l) = rev (removelast l).
Proof.
  intros A l. destruct l as [|x l] using rev_ind; [reflexivity|]. rewrite rev_app_distr, removelast_last. reflexivity.
Qed.

Lemma last12_push : forall x l, rev (last12 (x :: l)) = (tl (rev (last12 l)) ++ [x])%list.
Proof.
  intros x l. unfold last12. rewrite <- app_comm_cons. rewrite firstn_cons. cbn [rev]. f_equal. rewrite tl_rev. f_equal.
  symmetry. apply removelast_firstn. rewrite app_length, repeat_length. lia.
Qed.

Lemma run_avg : forall env o w0 gs c out, o_bler o = true -> run_groups env o (Channel_new o w0) gs = Ok (c, out) ->
  ra_rep (ch_bler_average c) (rev (last12 (rev (map (fun x => bad_blocks (snd (fst x))) gs)))).
Proof.
  intros env o w0 gs. induction gs as [|[[now g] w] gs IH] using rev_ind; intros c out OB R.
  - injection R as <- <-. apply ra_init_rep.
  - destruct (run_snoc _ _ _ _ _ _ _ _ _ R) as (c1 & o1 & l1 & E1 & E2 & ->). specialize (IH c1 o1 OB E1).
    assert (A : ch_bler_average c = next_avg o c1 g).
    { rewrite process_eq in E2. destruct (o_output_type o); [injection E2 as <- _; reflexivity|].
      destruct (updateAndPrint _ _ _ _) as [[s l]| |]; cbn [bind] in E2; try discriminate. injection E2 as <- _. reflexivity. }
    rewrite A. rewrite map_app, rev_app_distr. cbn [map rev app fst snd]. rewrite last12_push, bad_blocks_errors.
    pose proof (avg_next o c1 g _ IH) as N. rewrite OB in N. exact N.
Qed.

Lemma sumN_rev : forall l, sumN (rev l) = sumN l.
Proof.
  induction l as [|x l IH]; [reflexivity|]. cbn [rev]. rewrite sumN_app, IH. cbn [sumN fold_right]. fold (sumN l). lia.
Qed.
Lemma sumN_zeros : forall n l, sumN (l ++ repeat 0 n) = sumN l.
Proof. intros n l. rewrite sumN_app. assert (sumN (repeat 0 n) = 0) by (induction n; [reflexivity|exact IHn]). lia. Qed.
Lemma firstn_zeros : forall n k, exists m, firstn n (repeat 0 k) = repeat 0 m.
Proof. induction n as [|n IH]; intros [|k]; try (exists 0%nat; reflexivity). destruct (IH k) as (m & E). exists (S m). cbn. rewrite E. reflexivity. Qed.
Lemma last12_sum : forall l, sumN (last12 l) = total (firstn 12 l).
Proof.
  intros l. unfold last12. rewrite firstn_app. destruct (firstn_zeros (12 - length l) 12) as (m & ->). apply sumN_zeros.
Qed.

Lemma percentage_ok : forall n, percentage n (percent n).
Proof.
  intros n. unfold percentage, percent.
  pose proof (N.div_mod (2 * 100 * n + 48) (2 * 48) ltac:(discriminate)).
  pose proof (N.mod_lt (2 * 100 * n + 48) (2 * 48) ltac:(discriminate)). lia.
Qed.

Lemma dec_string_Z_of_N : forall n, dec_string_Z (Z.of_N n) = dec_string n.
Proof. intros n. unfold dec_string_Z. replace (Z.of_N n <? 0)%Z with false by (symmetry; apply Z.ltb_ge; lia). rewrite ?N2Z.id, ?Zabs2N.id. reflexivity. Qed.

Lemma printed_bler : forall env o w0 gs x c out line, host_ok env -> o_output_type o = OutJSON -> o_bler o = true ->
  Forall received_group (gs ++ [x]) ->
  run_groups env o (Channel_new o w0) (gs ++ [x]) = Ok (c, out ++ [Some line])%list ->
  only_error line \/ exists n, says_number line "bler" n /\ percentage (recently_bad (gs ++ [x])) n /\ n <= 100.
Proof.
  intros env o w0 gs [[now g] w] c out line H OJ OB F R.
  destruct (run_snoc _ _ _ _ _ _ _ _ _ R) as (c1 & out1 & line1 & E1 & E2 & Eo). apply app_inj_tail in Eo. destruct Eo as [_ <-].
  assert (F' := F). apply Forall_app in F'. destruct F' as [F1 F2]. inversion F2 as [|? ? Fg _]; subst.
  destruct (run_ok _ _ _ _ _ _ H (channel_new_ok o w0) F1 E1) as [Hc _].
  destruct (process_header _ _ _ _ _ _ _ _ H OJ Hc (proj1 Fg) E2) as [S L]. destruct L as [L|L]; [left; exact L|right].
  specialize (L "bler" eq_refl). rewrite header_bler in L.
  destruct (prepared_bler o now c1 g w Hc (proj1 Fg)) as [Hb _]. rewrite Hb, OB in L. cbn [option_map] in L.
  pose proof (run_avg _ _ _ _ _ _ OB R) as A.
  assert (Ea : ch_bler_average c = next_avg o c1 g).
  { rewrite process_json in E2 by exact OJ. destruct (updateAndPrint _ _ _ _) as [[s l]| |]; cbn [bind] in E2; try discriminate.
    injection E2 as <- _. reflexivity. }
  rewrite Ea in A. pose proof (ra_bler _ _ A) as B. rewrite sumN_rev, last12_sum in B. fold (recently_bad (gs ++ [(now, g, w)])) in B.
  assert (Eb : g_bler (prepared o now c1 g w) = f32_mul (f32_of_Z 100) (ra_getAverage (next_avg o c1 g))).
  { unfold prepared, streamed, measured, next_avg. rewrite OB, stamped_errors. destruct (w =? 0); reflexivity. }
  unfold bler_value in L. rewrite Eb, B in L. cbn [value_of] in L. rewrite dec_string_Z_of_N in L.
  exists (percent (recently_bad (gs ++ [(now, g, w)]))). split; [|split; [apply percentage_ok|]].
  - eexists. split; [exact L|apply dec_string_value].
  - assert (Sum : recently_bad (gs ++ [(now, g, w)]) <= 48).
    { unfold recently_bad. rewrite <- last12_sum. pose proof A as (La & Fa & _). rewrite <- sumN_rev.
      pose proof (sum_bound _ Fa). rewrite La in H0. lia. }
    pose proof (percentage_ok (recently_bad (gs ++ [(now, g, w)]))) as [P1 _]. lia.
Qed.
