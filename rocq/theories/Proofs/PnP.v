(* The programme type name and the long programme service name. *)
From Verif.Model Require Import Util Group Options Tables Json RdsString Tmc Station Channel.
From Verif.Spec Require Import Unicode JsonText Session Identity History Quality Texts.
From Verif.Proofs Require Import Tac Numerals JsonP Schema StationP TextP CleanP UpdateP SessionP LineP FrameP ChannelP LinesP HistoryP ShowP TraceP KeysP StringP PsP RtP EndP.

Local Open Scope string_scope.
Local Open Scope N_scope.
Local Open Scope list_scope.

#[local] Strategy 1000 [set_all s_set s_isComplete s_str s_last_complete_string header decodeType10A].
Definition pn_put (u : bytes -> option bytes) (s : RDSString * bool) (q : rt_part) : RDSString * bool :=
  (set_all u (if Bool.eqb (snd s) (p_flag q) then fst s else s_clear (fst s)) (place (p_pos q) (p_chars q)), p_flag q).
Definition pn_of (st : Station) : RDSString * bool := (pn_text (st_ptyname st), pn_ab (st_ptyname st)).
Definition pn_parts (h : list (Group * N)) : list rt_part := flat_map pn_segment h.
Definition pn_inv (u : bytes -> option bytes) (h : list (Group * N)) (st : Station) : Prop :=
  Forall (fun x => received_group (0%Z, fst x, snd x)) h /\ pn_of st = fold_left (pn_put u) (pn_parts h) (RDSString_new 8, false).

Definition pn_is (g : Group) : bool :=
  g_has_type g && (gt_number (g_type g) =? 10) && Version_eqb (gt_version (g_type g)) VA.
Definition pn_part (g : Group) : rt_part :=
  mkPart (getBool (g_get g BLOCK2) 4) VA (getBits 1 (g_get g BLOCK2) 0 * 4)
    [getUint8 (g_get g BLOCK3) 8; getUint8 (g_get g BLOCK3) 0; getUint8 (g_get g BLOCK4) 8; getUint8 (g_get g BLOCK4) 0].

Lemma pn_prepared : forall o now c g w, received_group (now, g, w) -> let g' := prepared o now c g w in
  pn_segment (g, w) = if pn_is g' && (g_has g' BLOCK3 && g_has g' BLOCK4) then [pn_part g'] else [].
Proof.
  intros o now c g w (_ & R1 & R2 & R3 & R4) g'. unfold pn_segment, pn_is. rewrite (carries_prepared 10 o now c g w). fold g'.
  destruct (w =? 0) eqn:Ew.
  2: { unfold g'. rewrite prepared_type, Ew. cbn [gt_number gt_version Version_eqb N.eqb negb]. rewrite !andb_false_r. reflexivity. }
  assert (Ty : g_type g' = g_type g) by (unfold g'; rewrite prepared_type, Ew; reflexivity). rewrite Ty.
  destruct (g_has_type g'); [|reflexivity]. destruct (gt_number (g_type g) =? 10); [|reflexivity]. cbn [andb].
  destruct (gt_version (g_type g)); cbn [Version_eqb negb andb]; [|destruct (g_has g' BLOCK3 && g_has g' BLOCK4); reflexivity|reflexivity].
  destruct (g_has g' BLOCK3 && g_has g' BLOCK4); [|reflexivity]. unfold pn_part, g'. rewrite !prepared_get. unfold g_get. cbn [g_block].
  destruct (hi_bits _ R4) as [-> _]. destruct (lo_bits (blk_data (g_b4 g))) as [-> _]. destruct (hi_bits _ R3) as [-> _]. destruct (lo_bits (blk_data (g_b3 g))) as [-> _].
  rewrite getBits_arith, getBool_testbit. change (2 ^ 0) with 1. change (2 ^ 1) with 2. rewrite N.div_1_r, (N.mul_comm _ 4). reflexivity.
Qed.

Lemma pn_place : forall x, received_group (0%Z, fst x, snd x) -> Forall (fun q => Forall (fun pb => fst pb < 8 /\ snd pb < 256) (place (p_pos q) (p_chars q)) /\ p_chars q <> [] /\ p_version q = VA) (pn_segment x).
Proof.
  intros [g w] (_ & R1 & R2 & R3 & R4). cbn [fst snd] in *. unfold pn_segment. destruct (carries 10 g w); [|constructor]. destruct (gt_version (g_type g)); try constructor; [|constructor].
  cbn [p_pos p_chars p_version place]. split; [|split; [discriminate|reflexivity]]. pose proof (N.mod_lt (blk_data (g_b2 g)) 2 ltac:(discriminate)).
  destruct (hi_bits _ R4) as [_ X1]. destruct (lo_bits (blk_data (g_b4 g))) as [_ X2]. destruct (hi_bits _ R3) as [_ X3]. destruct (lo_bits (blk_data (g_b3 g))) as [_ X4].
  repeat constructor; cbn [fst snd]; try assumption; lia.
Qed.
Lemma pn_places : forall h, Forall (fun x => received_group (0%Z, fst x, snd x)) h ->
  Forall (fun q => Forall (fun pb => fst pb < 8 /\ snd pb < 256) (place (p_pos q) (p_chars q)) /\ p_chars q <> [] /\ p_version q = VA) (pn_parts h).
Proof. intros h F. unfold pn_parts. apply Forall_flat_map. eapply Forall_impl; [|exact F]. intros x R. apply pn_place, R. Qed.

Lemma decodeType10A_eq : forall env st g j, decodeType10A env st g j =
  if g_has g BLOCK3 && g_has g BLOCK4 then
    let s := pn_put (env_ucs2 env) (pn_of st) (pn_part g) in
    let st' := set_ptyname st (mkPTYName (fst s) (snd s)) in
    if s_isComplete (fst s) then j <- jset ["pty_name"] (JStr (s_last_complete_string (fst s))) j ;; Ok (st', j) else Ok (st', j)
  else Ok (st, j).
Proof.
  intros env st g j. unfold decodeType10A. rewrite <- negb_andb. destruct (g_has g BLOCK3 && g_has g BLOCK4); [|reflexivity]. cbn [negb]. cbv zeta.
  unfold pn_put, pn_of, pn_part. cbn [fst snd p_pos p_chars p_flag place]. unfold pn_update, s_set2, set_all. cbn [fold_left fst snd].
  rewrite <- !N.add_assoc. reflexivity.
Qed.

Lemma type10_cases : forall env o st g st' j, decoded env o st g = Ok (st', j) ->
  (pn_is g = true /\ decodeType10A env (had st g) g (JObj (header env o st g)) = Ok (st', j)) \/
  (pn_is g = false /\ st_ptyname st' = st_ptyname st /\ (g_has_type g = true -> existsb (String.eqb "pty_name") (type_keys o st g) = false)).
Proof.
  intros env o st g st' j D. pose proof (decoded_frame env o st g _ D) as Fr. cbn [fst] in Fr. destruct Fr as (_ & _ & _ & _ & _ & _ & Fp & _).
  assert (Hp : st_ptyname (had st g) = st_ptyname st) by (unfold had; destruct (_ || _); reflexivity). unfold pn_is.
  destruct (g_has_type g) eqn:Ht; [|right; split; [auto|split; [rewrite Fp by reflexivity; exact Hp|discriminate]]]. cbn [andb].
  destruct ((gt_number (g_type g) =? 10) && Version_eqb (gt_version (g_type g)) VA) eqn:Hn.
  - left. split; [reflexivity|]. apply andb_prop in Hn. destruct Hn as [Hn Hv]. apply N.eqb_eq in Hn. unfold decoded in D. rewrite Ht in D. unfold decodeByType in D. cbv zeta in D.
    rewrite Hn in D. destruct (gt_version (g_type g)); try discriminate Hv. exact D.
  - right. split; [reflexivity|]. split.
    + rewrite Fp; [exact Hp|]. unfold off, group_fields, app_fields, oda_type. cbv zeta. apply andb_false_iff in Hn.
      destruct (gt_number (g_type g) =? 10) eqn:E10; [|by_cases]. destruct Hn as [Hn|Hn]; [discriminate|]. apply N.eqb_eq in E10. rewrite E10.
      destruct (gt_version (g_type g)); [discriminate Hn| |reflexivity]. cbn [Version_eqb N.eqb Pos.eqb andb orb negb]. by_cases.
    + intros _. unfold type_keys, app_keys. cbv zeta. destruct (Version_eqb _ VC); [reflexivity|]. rewrite Hn. by_cases.
Qed.

Lemma pn_step : forall env o h st now c g w st' j, pn_inv (env_ucs2 env) h st -> st_ok st -> received_group (now, g, w) ->
  bler_ok (prepared o now c g w) -> decoded env o st (prepared o now c g w) = Ok (st', j) -> pn_inv (env_ucs2 env) (h ++ [(g, w)]) st'.
Proof.
  intros env o h st now c g w st' j (F & I) So R B D. set (g' := prepared o now c g w) in *.
  split; [apply Forall_app; split; [exact F|constructor; [exact R|constructor]]|].
  assert (P : pn_parts (h ++ [(g, w)]) = pn_parts h ++ pn_segment (g, w)) by (unfold pn_parts; rewrite flat_map_app; cbn [flat_map]; rewrite app_nil_r; reflexivity).
  rewrite P, fold_left_app, <- I. rewrite (pn_prepared o now c g w R). cbv zeta. fold g'.
  destruct (type10_cases env o st g' st' j D) as [(Is & D0)|(Is & Ps & _)]; rewrite Is; cbn [andb].
  2: { cbn [fold_left]. unfold pn_of. rewrite Ps. reflexivity. }
  rewrite decodeType10A_eq in D0. assert (Hp : pn_of (had st g') = pn_of st) by (unfold pn_of, had; destruct (_ || _); reflexivity).
  destruct (g_has g' BLOCK3 && g_has g' BLOCK4); cbn [fold_left].
  2: { assert (st' = had st g') as -> by congruence. exact Hp. }
  rewrite <- Hp. cbv zeta in D0. set (s := pn_put _ _ _) in *. destruct (s_isComplete (fst s)).
  - destruct (jset _ _ _) as [j1| |]; cbn [bind] in D0; try discriminate. assert (st' = set_ptyname (had st g') (mkPTYName (fst s) (snd s))) as -> by congruence. symmetry. apply surjective_pairing.
  - assert (st' = set_ptyname (had st g') (mkPTYName (fst s) (snd s))) as -> by congruence. symmetry. apply surjective_pairing.
Qed.
Lemma pn_new : forall u w, pn_inv u [] (Station_new w).
Proof. intros u w. split; [constructor|reflexivity]. Qed.
Lemma pn_new_pi : forall u w p, pn_inv u [] (Station_new_pi w p).
Proof. intros u w p. split; [constructor|reflexivity]. Qed.
Lemma pn_had : forall u h st g, pn_inv u h st -> pn_inv u h (had st g).
Proof. intros u h st g [F I]. split; [exact F|]. rewrite <- I. unfold pn_of, had. destruct (_ || _); reflexivity. Qed.

Lemma pn_fold : forall u ps, Forall (fun q => Forall (fun pb => fst pb < 8 /\ snd pb < 256) (place (p_pos q) (p_chars q)) /\ p_chars q <> [] /\ p_version q = VA) ps ->
  let s := fold_left (pn_put u) ps (RDSString_new 8, false) in
  s_encoding (fst s) = EncBasic /\ exists e m, ps = e ++ m /\ uniform (snd s) VA m /\ tracks 8 (fst s) (part_writes m).
Proof.
  intros u ps. induction ps as [|q ps IH] using rev_ind; intros F.
  - split; [reflexivity|]. exists [], []. split; [reflexivity|]. split; [constructor|]. apply (new_tracks 8).
  - apply Forall_app in F. destruct F as [F Fq]. inversion Fq as [|? ? (Pp & _ & Pv) _]; subst. destruct (IH F) as (En & e & m & -> & U & T). rewrite fold_left_app. cbn [fold_left].
    set (s := fold_left _ _ _) in *. cbv zeta. unfold pn_put. cbn [fst snd].
    split; [rewrite set_all_encoding; destruct (Bool.eqb _ _); exact En|].
    destruct (Bool.eqb (snd s) (p_flag q)) eqn:Eb.
    + apply Bool.eqb_prop in Eb. exists e, (m ++ [q]). split; [rewrite app_assoc; reflexivity|]. rewrite Eb in U. split; [apply Forall_app; split; [exact U|constructor; [split; [reflexivity|exact Pv]|constructor]]|].
      rewrite part_writes_app. change (part_writes [q]) with (place (p_pos q) (p_chars q) ++ []). rewrite app_nil_r. apply set_all_tracks; assumption.
    + exists (e ++ m), [q]. split; [reflexivity|]. split; [constructor; [split; [reflexivity|exact Pv]|constructor]|].
      change (part_writes [q]) with (place (p_pos q) (p_chars q) ++ []). rewrite app_nil_r. apply (set_all_tracks u 8 _ _ []); [|exact Pp]. exact (clear_tracks 8 _ _ [] T).
Qed.

Lemma pn_complete : forall env o w0 gs now g w c out line v, host_ok env -> o_output_type o = OutJSON -> Forall received_group (gs ++ [(now, g, w)]) ->
  run_groups env o (Channel_new o w0) (gs ++ [(now, g, w)]) = Ok (c, out ++ [Some line]) -> says line ["pty_name"] v ->
  exists earlier msg l f, flat_map pn_segment (decoded_in (gs ++ [(now, g, w)]) (out ++ [Some line])) = earlier ++ msg /\ uniform f VA msg /\
    complete_text 8 (part_writes msg) l /\ v = VStr (rds_text l).
Proof.
  intros env o w0 gs now g w c out line v H OJ F E S. destruct (host_env env H) as [Ee _].
  destruct (last_group (pn_inv (env_ucs2 env)) env o H OJ (pn_new _) (pn_new_pi _) (pn_had _) (fun h st now c g w st' j => pn_step env o h st now c g w st' j) gs now g w w0 c out line F E)
    as (old & h & st & c1 & j & D & I & So & Dd & Pj & B & Hc & _).
  set (g' := prepared o now c1 g w) in *. pose proof (says_decoded env j line "pty_name" [] v H Pj ltac:(discriminate) S) as J.
  assert (R : received_group (now, g, w)) by (apply Forall_app in F; destruct F as [_ F2]; inversion F2; assumption).
  pose proof (pn_step env o h st now c1 g w (ch_station c) j I So R B Dd) as I'.
  destruct (type10_cases env o st g' _ j Dd) as [(Is & D0)|(_ & _ & No)].
  2: { rewrite (decoded_absent env o st g' _ j "pty_name" Ee So B Dd eq_refl No) in J. discriminate. }
  pose proof (header_absent env o st g' "pty_name" B eq_refl) as Ch. rewrite decodeType10A_eq in D0.
  destruct (g_has g' BLOCK3 && g_has g' BLOCK4) eqn:H34.
  2: { assert (j = JObj (header env o st g')) as -> by congruence. rewrite (conf_get _ _ _ "pty_name" Ch eq_refl) in J. discriminate J. }
  assert (Hp : pn_of (had st g') = pn_of st) by (unfold pn_of, had; destruct (_ || _); reflexivity). rewrite Hp in D0.
  pose proof (pn_prepared o now c1 g w R) as Sg. cbv zeta in Sg. fold g' in Sg. rewrite Is, H34 in Sg. cbn [andb] in Sg.
  assert (P : pn_parts (h ++ [(g, w)]) = pn_parts h ++ [pn_part g']) by (unfold pn_parts; rewrite flat_map_app; cbn [flat_map]; rewrite Sg, app_nil_r; reflexivity).
  destruct I as [Fh I]. destruct I' as [Fh' I']. pose proof (pn_places _ Fh') as Pl. rewrite P in Pl.
  cbv zeta in D0. remember (pn_put (env_ucs2 env) (pn_of st) (pn_part g')) as s eqn:Sd.
  assert (Es : s = fold_left (pn_put (env_ucs2 env)) (pn_parts h ++ [pn_part g']) (RDSString_new 8, false)) by (rewrite fold_left_app, <- I; cbn [fold_left]; exact Sd).
  destruct (pn_fold (env_ucs2 env) _ Pl) as (En & e & m & Em & U & T). rewrite <- Es in En, U, T.
  destruct (s_isComplete (fst s)) eqn:Cp.
  2: { assert (j = JObj (header env o st g')) as -> by congruence. rewrite (conf_get _ _ _ "pty_name" Ch eq_refl) in J. discriminate J. }
  cbn [jset jupd bind] in D0. assert (Ej : jget ["pty_name"] j = Some (JStr (s_last_complete_string (fst s)))).
  { assert (j = JObj (obj_put "pty_name" (JStr (s_last_complete_string (fst s))) (header env o st g'))) as -> by congruence. cbn [jget]. rewrite find_put. reflexivity. }
  rewrite Ej in J. injection J as <-. exists (pn_parts old ++ e), m, (shown_bytes (fst s)), (snd s).
  split; [change (flat_map pn_segment) with pn_parts; rewrite D; unfold pn_parts at 1; rewrite flat_map_app; fold pn_parts; change (flat_map pn_segment old) with (pn_parts old); change (flat_map pn_segment (h ++ [(g, w)])) with (pn_parts (h ++ [(g, w)])); rewrite P, Em, app_assoc; reflexivity|].
  split; [exact U|]. split; [apply complete_spec; [exact T|lia|exact Cp]|]. cbn [value_of]. f_equal.
  pose proof (complete_str (env_ucs2 env) _ (proj2 (tracks_sized _ _ _ T)) Cp) as X. rewrite En in X.
  assert (Some (s_last_complete_string (fst s)) = Some (rds_text (shown_bytes (fst s)))) as Y; [|injection Y; auto].
  rewrite <- X. symmetry. rewrite Sd in Cp |- *. unfold pn_put in Cp |- *. cbn [fst] in Cp |- *. apply Forall_app in Pl. destruct Pl as [Pl1 Pl2]. inversion Pl2 as [|? ? (Pq & Pn & _) _]; subst.
  eapply (set_all_last _ 8); [|lia| |exact Pq|exact Cp].
  - destruct (pn_fold (env_ucs2 env) _ Pl1) as (_ & e0 & m0 & _ & _ & T0). rewrite <- I in T0. destruct (Bool.eqb _ _); [|apply clear_sized]; exact (tracks_sized _ _ _ T0).
  - destruct (p_chars (pn_part g')); [congruence|discriminate].
Qed.

Lemma pn_sized : forall u ps s0, sized 8 (fst s0) -> s_encoding (fst s0) = EncBasic ->
  Forall (fun q => Forall (fun pb => fst pb < 8 /\ snd pb < 256) (place (p_pos q) (p_chars q)) /\ p_chars q <> [] /\ p_version q = VA) ps ->
  sized 8 (fst (fold_left (pn_put u) ps s0)) /\ s_encoding (fst (fold_left (pn_put u) ps s0)) = EncBasic.
Proof.
  intros u ps. induction ps as [|q ps IH] using rev_ind; intros s0 Z En F; [split; assumption|].
  apply Forall_app in F. destruct F as [F Fq]. inversion Fq as [|? ? (Pp & _ & _) _]; subst. destruct (IH s0 Z En F) as [Z1 En1]. rewrite fold_left_app. cbn [fold_left].
  remember (fold_left _ _ _) as s. unfold pn_put. cbn [fst].
  split; [apply set_all_sized; [destruct (Bool.eqb _ _); [exact Z1|apply clear_sized; exact Z1]|eapply Forall_impl; [|exact Pp]; intros x X; apply X]|].
  rewrite set_all_encoding. destruct (Bool.eqb _ _); exact En1.
Qed.

Lemma pn_round_trip : forall env o w0 gs0 gs1 now g w c out p f earlier n0 n1 n2 n3 n4 n5 n6 n7,
  host_ok env -> host_text env -> o_output_type o = OutJSON ->
  let gs := gs1 ++ [(now, g, w)] in
  Forall received_group (gs0 ++ gs) -> p <> 0 -> three p (pis gs0) -> Forall (stays p) gs ->
  Forall (fun x => pn_segment (snd (fst x), snd x) <> [] -> carried_pi x = Some p) gs ->
  pn_segment (g, w) <> [] ->
  flat_map pn_segment (groups_of gs) = earlier ++ [mkPart f VA 0 [n0; n1; n2; n3]; mkPart f VA 4 [n4; n5; n6; n7]] ->
  ~ In end_of_text [n0; n1; n2; n3; n4; n5; n6; n7] ->
  run_groups env o (Channel_new o w0) (gs0 ++ gs) = Ok (c, out) ->
  exists out' line, out = out' ++ [Some line] /\ says line ["pty_name"] (VStr (rds_text [n0; n1; n2; n3; n4; n5; n6; n7])).
Proof.
  intros env o w0 gs0 gs1 now g w c out p f earlier n0 n1 n2 n3 n4 n5 n6 n7 H HT OJ gs F Np T3 S P Pl Sg Nt E.
  pose proof P as P'. apply Forall_app in P'. destruct P' as [_ P2]. inversion P2 as [|? ? Pg _]; subst. cbn [fst snd] in Pg. specialize (Pg Pl).
  destruct (last_shown (pn_inv (env_ucs2 env)) env o H HT OJ (pn_new _) (pn_new_pi _) (pn_had _) (fun h st now c g w st' j => pn_step env o h st now c g w st' j) w0 gs0 gs1 now g w c out p F Np T3 S Pg E)
    as (old & h0 & out0 & out1 & ln & c1 & st & j & D0 & -> & L0 & L1 & I & So & B & _ & Dd & Lj & _ & Ad).
  exists (out0 ++ out1), ln. split; [rewrite app_assoc; reflexivity|]. set (g' := prepared o now c1 g w) in *.
  specialize (Ad _ pn_segment P). fold gs in Ad. rewrite Sg in Ad.
  assert (R : received_group (now, g, w)) by (apply Forall_app in F; destruct F as [_ F2]; apply Forall_app in F2; destruct F2 as [_ F2]; inversion F2; assumption).
  pose proof (pn_prepared o now c1 g w R) as Sp. cbv zeta in Sp. fold g' in Sp.
  destruct (pn_is g' && (g_has g' BLOCK3 && g_has g' BLOCK4)) eqn:Is; [|congruence]. apply andb_prop in Is. destruct Is as [Is H34].
  assert (Rw : raw_group st g' = false).
  { apply raw_fixed. unfold pn_is in Is. apply andb_prop in Is. destruct Is as [Is Hv]. apply andb_prop in Is. destruct Is as [_ Hn]. apply N.eqb_eq in Hn. unfold oda_type. cbv zeta. rewrite Hn, Hv. cbn [N.eqb Pos.eqb orb andb negb]. rewrite andb_false_r. reflexivity. }
  unfold says. rewrite (Lj (or_introl Rw)).
  unfold gs in Ad. rewrite (decoded_in_app gs1 [(now, g, w)] out1 [Some ln] L1) in Ad. rewrite flat_map_app in Ad. change (decoded_in [(now, g, w)] [Some ln]) with [(g, w)] in Ad. cbn [flat_map] in Ad. rewrite Sp, app_nil_r in Ad.
  change (earlier ++ [mkPart f VA 0 [n0; n1; n2; n3]; mkPart f VA 4 [n4; n5; n6; n7]]) with (earlier ++ [mkPart f VA 0 [n0; n1; n2; n3]] ++ [mkPart f VA 4 [n4; n5; n6; n7]]) in Ad.
  rewrite app_assoc in Ad. apply app_inj_tail in Ad. destruct Ad as [Ad1 Ad2].
  destruct (type10_cases env o st g' _ j Dd) as [(_ & D1)|(X & _)]; [|congruence].
  rewrite decodeType10A_eq, H34 in D1. assert (Hp : pn_of (had st g') = pn_of st) by (unfold pn_of, had; destruct (_ || _); reflexivity). rewrite Hp, Ad2 in D1.
  destruct I as [Fh I]. pose proof (pn_places _ Fh) as Ok1.
  assert (Pp : pn_parts (h0 ++ decoded_in gs1 out1) = (pn_parts h0 ++ earlier) ++ [mkPart f VA 0 [n0; n1; n2; n3]]).
  { unfold pn_parts. rewrite flat_map_app, Ad1, app_assoc. reflexivity. }
  rewrite Pp in I, Ok1. rewrite fold_left_app in I. cbn [fold_left] in I. pose proof Ok1 as Ok2. apply Forall_app in Ok2. destruct Ok2 as [Ok2 Ok3].
  destruct (pn_sized (env_ucs2 env) (pn_parts h0 ++ earlier) (RDSString_new 8, false) (tracks_sized 8 _ _ (new_tracks 8)) eq_refl Ok2) as [Z0 En0].
  remember (fold_left (pn_put (env_ucs2 env)) (pn_parts h0 ++ earlier) (RDSString_new 8, false)) as s0 eqn:Es0. clear Es0.
  set (name := [n0; n1; n2; n3; n4; n5; n6; n7]) in *.
  assert (Fn : Forall (fun b => b < 256) name).
  { pose proof (pn_place (g, w) R) as X. rewrite Sp in X. inversion X as [|? ? (X1 & _) _]; subst. rewrite Ad2 in X1. inversion Ok3 as [|? ? (X2 & _) _]; subst. cbn [p_pos p_chars place] in X1, X2.
    repeat match goal with X : Forall _ (_ :: _) |- _ => inversion X; clear X; subst end. cbn [fst snd] in *. unfold name. repeat constructor; tauto. }
  set (s1 := if Bool.eqb (snd s0) f then fst s0 else s_clear (fst s0)) in *.
  assert (Z1 : sized 8 s1) by (unfold s1; destruct (Bool.eqb _ _); [exact Z0|apply clear_sized; exact Z0]).
  assert (En1 : s_encoding s1 = EncBasic) by (unfold s1; destruct (Bool.eqb _ _); exact En0).
  destruct (run_full (env_ucs2 env) 8 s1 name Z1 En1 ltac:(lia) Fn eq_refl Nt) as [Cp Lc].
  assert (Ep : pn_put (env_ucs2 env) (pn_of st) (mkPart f VA 4 [n4; n5; n6; n7]) = (set_all (env_ucs2 env) s1 (place 0 name), f)).
  { rewrite I. unfold pn_put. cbn [fst snd p_flag p_pos p_chars]. rewrite Bool.eqb_reflx. fold s1. rewrite <- set_all_app. reflexivity. }
  rewrite Ep in D1. cbn [fst snd] in D1. rewrite Cp, Lc in D1. cbn [jset jupd bind] in D1.
  assert (Ej : jget ["pty_name"] j = Some (JStr (rds_text name))).
  { assert (j = JObj (obj_put "pty_name" (JStr (rds_text name)) (header env o st g'))) as -> by congruence. cbn [jget]. rewrite find_put. reflexivity. }
  rewrite Ej. reflexivity.
Qed.
