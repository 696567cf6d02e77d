(* RadioText, programme type name and long name of which parts are lost or repeated (C111). *)
From Verif.Model Require Import Util Group Options Tables Json RdsString Tmc Station Channel.
From Verif.Spec Require Import Unicode JsonText Session Identity History Quality Texts.
From Verif.Proofs Require Import Tac Numerals JsonP Utf8P Schema StationP TextP CleanP UpdateP SessionP LineP FrameP ChannelP LinesP HistoryP ShowP TraceP KeysP StringP FreqP PsP RtP PnP LpsP EndP LossyP.

Local Open Scope string_scope.
Local Open Scope N_scope.
Local Open Scope list_scope.

(* ---- a buffer of any content, once position 0 has been received ---- *)
Lemma zero_tracks : forall u n s ws b, sized n s -> 0 < n -> s_encoding s <> EncUCS2 -> b < 256 ->
  tracks n (s_set u s 0 b) (ws ++ [(0, b)]) /\ notices (s_set u s 0 b) (ws ++ [(0, b)]).
Proof.
  intros u n s ws b Z Hn En Hb. destruct (set_basic u n s 0 b Z En Hn) as (D & P & Q). cbn [N.eqb orb] in Q. split.
  - destruct (set_sized u n s 0 b Z Hb) as [Zl Zb]. split; [exact Zl|]. split; [lia|]. split; [exact Zb|]. intros _. rewrite Q, P. split; [apply in_start|]. split; [eexists _, _; reflexivity|].
    intros i Hi. assert (i = 0) as -> by lia. rewrite last_at_snoc, D. cbn [N.eqb]. destruct Z as [Zl0 _]. destruct (s_data s) as [|x d]; [cbn in Zl0; lia|reflexivity].
  - intros k H. rewrite Q. destruct (in_sequence_snoc _ _ _ _ H) as [(_ & ->)|[(m & w0 & c & X & _)|(X & _)]]; lia.
Qed.
Lemma in_sequence_zero : forall k ws, in_sequence k ws -> exists b, In (0, b) ws.
Proof.
  intros k ws H. induction H as [ws b|ws n c b H (b0 & IH)|ws n p b H (b0 & IH) _].
  - exists b. apply in_or_app. right. left. reflexivity.
  - exists b0. apply in_app_or in IH. apply in_or_app. destruct IH as [IH|[IH|[]]]; [left; exact IH|right; left; exact IH].
  - exists b0. apply in_or_app. left. exact IH.
Qed.
(* How far a sequence has got, counted up to [size] *)
Fixpoint sequence_from (size : N) (prev : option N) (k : N) (ws : Texts.writes) : N :=
  match ws with
  | [] => k
  | (p, _) :: r => sequence_from size (Some p) (if p =? 0 then 1 else if (k <? size) && (p =? k) && (match prev with Some q => q + 1 =? p | None => false end) then k + 1 else k) r
  end.
Lemma sequence_from_ok : forall size r ws k prev, in_sequence k ws -> (forall q, prev = Some q -> exists w0 c, ws = w0 ++ [(q, c)]) -> in_sequence (sequence_from size prev k r) (ws ++ r).
Proof.
  intros size. induction r as [|[p b] r IH]; intros ws k prev H L; [rewrite app_nil_r; exact H|]. cbn [sequence_from].
  replace (ws ++ (p, b) :: r) with ((ws ++ [(p, b)]) ++ r) by (rewrite <- app_assoc; reflexivity).
  apply IH; [|intros q X; injection X as <-; exists ws, b; reflexivity].
  destruct (p =? 0) eqn:P0; [apply N.eqb_eq in P0; subst p; apply in_start|]. apply N.eqb_neq in P0.
  destruct (_ && _) eqn:C; [|apply in_other; assumption]. apply andb_prop in C. destruct C as [C D]. apply andb_prop in C. destruct C as [_ C]. apply N.eqb_eq in C. subst k.
  destruct prev as [q|]; [|discriminate]. apply N.eqb_eq in D. subst p. destruct (L q eq_refl) as (w0 & c & ->). rewrite <- app_assoc. cbn [app].
  replace (q + 1 + 1) with (q + 2) by lia. apply in_next. exact H.
Qed.
Lemma sequence_ok : forall size a b r, in_sequence (sequence_from size (Some 0) 1 r) (a ++ (0, b) :: r).
Proof.
  intros size a b r. replace (a ++ (0, b) :: r) with ((a ++ [(0, b)]) ++ r) by (rewrite <- app_assoc; reflexivity).
  apply sequence_from_ok; [apply in_start|]. intros q X. injection X as <-. exists a, b. reflexivity.
Qed.
Lemma sequence_is : forall n ws a b r, ws = a ++ (0, b) :: r -> sequence_from n (Some 0) 1 r = n -> in_sequence n ws.
Proof. intros n ws a b r -> <-. apply sequence_ok. Qed.
Lemma any_buffer : forall u n ws s k, sized n s -> 0 < n -> s_encoding s <> EncUCS2 -> Forall (fun pb => fst pb < n /\ snd pb < 256) ws -> in_sequence k ws ->
  tracks n (set_all u s ws) ws /\ notices (set_all u s ws) ws.
Proof.
  intros u n ws s k Z Hn En F H. destruct (in_sequence_zero _ _ H) as (b & I). apply in_split in I. destruct I as (a & r & ->).
  apply Forall_app in F. destruct F as [Fa Fr]. inversion Fr as [|? ? [_ Fb] Fr']; subst. cbn [snd] in Fb.
  assert (Z1 : sized n (set_all u s a)) by (apply set_all_sized; [exact Z|eapply Forall_impl; [|exact Fa]; intros ? X; apply X]).
  destruct (zero_tracks u n (set_all u s a) a b Z1 Hn ltac:(rewrite set_all_encoding; exact En) Fb) as [T K].
  rewrite set_all_app. change (set_all u (set_all u s a) ((0, b) :: r)) with (set_all u (s_set u (set_all u s a) 0 b) r).
  replace (a ++ (0, b) :: r) with ((a ++ [(0, b)]) ++ r) by (rewrite <- app_assoc; reflexivity).
  split; [apply set_all_tracks; assumption|]. apply (set_all_notices u n); [exact T|rewrite set_encoding, set_all_encoding; exact En|exact Fr'|exact K].
Qed.
(* So a complete text is recognised whatever was in the buffer before *)
Lemma any_complete : forall u n ws s l, sized n s -> 0 < n -> s_encoding s <> EncUCS2 -> Forall (fun pb => fst pb < n /\ snd pb < 256) ws -> complete_text n ws l ->
  s_isComplete (set_all u s ws) = true /\ s_str u (set_all u s ws) = Some (s_last_complete_string (set_all u s ws)) /\ shown_bytes (set_all u s ws) = l /\ Forall (fun b => b < 256) (s_data (set_all u s ws)).
Proof.
  intros u n ws s l Z Hn En F C. pose proof C as [[Sq _] _]. destruct (any_buffer u n ws s _ Z Hn En F Sq) as [T K]. destruct (complete_noticed n _ ws l T Hn K C) as [Cp Sb].
  split; [exact Cp|]. split; [|split; [exact Sb|exact (proj2 (tracks_sized _ _ _ T))]]. apply (set_all_last u n ws s Z Hn); [|exact F|exact Cp].
  destruct (in_sequence_zero _ _ Sq) as (b & I). intros ->. destruct I.
Qed.

(* ---- RadioText ---- *)
Lemma rt_any_order : forall env o w0 gs0 gs1 now g c out p f v l,
  host_ok env -> host_text env -> o_output_type o = OutJSON ->
  let gs := gs1 ++ [(now, g, 0)] in
  Forall received_group (gs0 ++ gs) -> p <> 0 -> three p (pis gs0) -> Forall (stays p) gs ->
  Forall (fun x => rt_segment (snd (fst x), snd x) <> [] -> carried_pi x = Some p) gs ->
  rt_segment (g, 0) <> [] ->
  uniform f v (flat_map rt_segment (groups_of gs)) -> complete_text (rt_size v) (part_writes (flat_map rt_segment (groups_of gs))) l ->
  no_plus (groups_of (gs0 ++ gs)) (groups_of gs) ->
  run_groups env o (Channel_new o w0) (gs0 ++ gs) = Ok (c, out) ->
  exists out' line s, out = out' ++ [Some line] /\ says line ["radiotext"] (VStr s) /\ trimmed (rds_text l) s.
Proof.
  intros env o w0 gs0 gs1 now g c out p f v l H HT OJ gs F Np T3 S P Pl Un Cm Pf E.
  destruct (host_env env H) as [Ee _]. pose proof (host_text_txt env HT) as Et.
  apply Forall_app in F. destruct F as [F0 F].
  rewrite run_groups_app in E. destruct (run_groups env o (Channel_new o w0) gs0) as [[c0 out0]| |] eqn:E0; cbn [bind] in E; try discriminate.
  destruct (run_groups env o c0 gs) as [[c2 out2]| |] eqn:E1; cbn [bind] in E; try discriminate. injection E as <- <-.
  pose proof (three_locked _ _ _ _ _ _ _ OJ E0 Np T3) as L.
  destruct (station_history any_rt env o H OJ (fun w => any_new (Station_new w) eq_refl eq_refl) (fun w p => any_new (Station_new_pi w p) eq_refl eq_refl) any_had (fun h st now c g w st' j => any_step env o h st now c g w st' j) gs0 w0 c0 out0 F0 E0)
    as (old & h0 & D0 & I0).
  assert (W0 : win (env_ucs2 env) h0 f v [] (ch_station c0)).
  { split; [constructor|]. split; [rewrite app_nil_r; exact I0|]. intros _ _ X. exfalso. apply X. reflexivity. }
  pose proof (run_fine env o gs0 _ _ _ H Et (created_fine o _ (or_introl (ex_intro _ w0 eq_refl))) F0 E0) as Fc0.
  destruct (run_snoc _ _ _ _ _ _ _ _ _ E1) as (c1 & out1 & line & Ea & Eb & ->).
  pose proof S as S'. apply Forall_app in S'. destruct S' as [S1 S2]. pose proof (Forall_inv S2) as Sg0.
  pose proof F as F'. apply Forall_app in F'. destruct F' as [F1 F2]. pose proof (Forall_inv F2) as R.
  destruct (steady_history (win (env_ucs2 env) h0 f v) env o p H OJ (win_had (env_ucs2 env) h0 f v) (fun h st now c g w st' j => win_step env o h0 f v h st now c g w st' j) gs1 [] c0 c1 out1 (proj1 Fc0) L W0 F1 S1 Ea)
    as (L1 & Hc1 & I1).
  destruct (steady_history (win (env_ucs2 env) h0 f v) env o p H OJ (win_had (env_ucs2 env) h0 f v) (fun h st now c g w st' j => win_step env o h0 f v h st now c g w st' j) gs [] c0 c2 _ (proj1 Fc0) L W0 F S E1)
    as (L2 & Hc2 & I2).
  pose proof P as P'. apply Forall_app in P'. destruct P' as [P1 P2]. pose proof (Forall_inv P2) as Pg. cbn [fst snd] in Pg. specialize (Pg Pl).
  destruct (locked_printed _ _ _ _ _ _ _ _ _ H OJ Hc1 (proj1 R) L1 Pg Eb) as (ln & ->).
  pose proof (all_decoded _ rt_segment env o p H OJ gs c0 c2 _ (proj1 Fc0) L F S P E1) as Sd. change (map grp gs) with (groups_of gs) in Sd.
  cbn [app] in I1, I2. destruct I2 as (Fk & A2 & W2). pose proof (parts_ok _ Fk) as Pok. unfold parts in W2, Pok. rewrite Sd in W2, Pok.
  destruct W2 as (s0 & Z0 & En0 & T0 & A0).
  { exact Un. }
  { intros x X Ht An. apply (Pf x); [apply (decoded_sub _ _ _ X)|exact Ht|]. apply in_flat_map in An. destruct An as (y & Y1 & Y2). apply in_flat_map. exists y. split; [|exact Y2].
    unfold groups_of. rewrite map_app. apply in_or_app. apply in_app_or in Y1. destruct Y1 as [Y1|Y1]; [left|right; exact (decoded_sub _ _ _ Y1)].
    apply (decoded_sub gs0 out0). rewrite D0. apply in_or_app. right. exact Y1. }
  { unfold gs, groups_of. rewrite map_app, flat_map_app. cbn [map fst snd flat_map]. rewrite app_nil_r. destruct (rt_segment (g, 0)); [congruence|]. intros X. apply app_eq_nil in X. destruct X as [_ X]. discriminate X. }
  assert (Wok : Forall (fun pb => fst pb < rt_size v /\ snd pb < 256) (part_writes (flat_map rt_segment (groups_of gs)))).
  { unfold part_writes. apply Forall_flat_map. pose proof (both _ _ _ _ Pok Un) as X. eapply Forall_impl; [|exact X]. intros q (Pk & _ & <-). exact (part_place q Pk). }
  destruct (any_complete (env_ucs2 env) (rt_size v) _ s0 l Z0 (rt_size_pos v) ltac:(congruence) Wok Cm) as (Cp & Ls & Sb & Fb).
  pose proof (complete_str (env_ucs2 env) _ Fb Cp) as X. rewrite set_all_encoding, En0, Sb in X. rewrite <- T0 in Cp, Ls, X.
  assert (Lc : s_last_complete_string (text_of (ch_station c2)) = rds_text l) by congruence.
  exists (out0 ++ out1), ln, (rtrim (s_last_complete_string (text_of (ch_station c2)))). split; [rewrite app_assoc; reflexivity|]. split; [|rewrite Lc; apply rtrim_trimmed].
  (* the line *)
  pose proof (run_fine env o gs1 _ _ _ H Et Fc0 F1 Ea) as Fc1. destruct I1 as (_ & (_ & En1 & _) & _).
  set (g' := prepared o now c1 g 0).
  assert (Tn : tuned c1 g' = ch_station c1) by (apply (locked_tuned p c1 o now g 0 L1 (or_intror Pg))).
  pose proof (part_prepared o now c1 g 0 R) as Sg. cbv zeta in Sg. fold g' in Sg.
  destruct (g_has_type g' && negb (Version_eqb (gt_version (g_type g')) VC) && (gt_number (g_type g') =? 2) && (g_has g' BLOCK3 && g_has g' BLOCK4)) eqn:Cr; [|congruence].
  apply andb_prop in Cr. destruct Cr as [Cr H34]. apply andb_prop in Cr. destruct Cr as [Cr Hn]. apply andb_prop in Cr. destruct Cr as [Ht Hv]. apply negb_true_iff in Hv. apply N.eqb_eq in Hn.
  destruct (process_shows env o now c1 g 0 c2 ln H Et OJ Fc1 (proj1 R) Eb (or_introl (type2_raw _ _ Hn))) as (j & Dd & Lj). fold g' in Dd.
  pose proof (prepared_bler o now c1 g 0 Hc1 (proj1 R)) as [_ B]. fold g' in B. rewrite Tn in Dd.
  destruct (type2_cases env o _ g' _ j Dd) as [(_ & _ & _ & D1)|([Y|[Y|Y]] & _)]; [|congruence|congruence|contradiction].
  assert (Hr : text_of (had (ch_station c1) g') = text_of (ch_station c1)) by (unfold text_of; rewrite had_rt; reflexivity).
  destruct (decodeType2_rt env o (had (ch_station c1) g') g' _ (header_rt env o (ch_station c1) g' B) ltac:(rewrite Hr; exact En1) H34) as ([s1 j1] & D2 & T1 & _ & _ & J1).
  rewrite D1 in D2. injection D2 as <- <-. cbn [fst snd] in T1, J1. rewrite <- T1, Cp in J1. unfold says. rewrite Lj, J1. reflexivity.
Qed.

(* ---- the programme type name ---- *)
Lemma pn_window : forall u f ms s0, uniform f VA ms -> ms <> [] -> sized 8 (fst s0) -> s_encoding (fst s0) = EncBasic ->
  exists s1, sized 8 s1 /\ s_encoding s1 = EncBasic /\ fold_left (pn_put u) ms s0 = (set_all u s1 (part_writes ms), f).
Proof.
  intros u f ms s0 U Ne Z En. destruct ms as [|q ms]; [congruence|]. inversion U as [|? ? [Qf _] Um]; subst. clear Ne U.
  exists (if Bool.eqb (snd s0) (p_flag q) then fst s0 else s_clear (fst s0)). split; [destruct (Bool.eqb _ _); [exact Z|apply clear_sized; exact Z]|]. split; [destruct (Bool.eqb _ _); exact En|].
  cbn [fold_left]. unfold pn_put at 2. unfold part_writes. cbn [flat_map]. fold (part_writes ms). rewrite set_all_app.
  generalize (set_all u (if Bool.eqb (snd s0) (p_flag q) then fst s0 else s_clear (fst s0)) (place (p_pos q) (p_chars q))). clear Z En.
  induction ms as [|x ms IH]; intros s; [reflexivity|]. inversion Um as [|? ? [Xf _] Um']; subst. cbn [fold_left]. unfold pn_put at 2. cbn [fst snd]. rewrite Xf, Bool.eqb_reflx.
  rewrite (IH Um'). unfold part_writes. cbn [flat_map]. rewrite set_all_app. reflexivity.
Qed.
Lemma pn_any_order : forall env o w0 gs0 gs1 now g w c out p f l,
  host_ok env -> host_text env -> o_output_type o = OutJSON ->
  let gs := gs1 ++ [(now, g, w)] in
  Forall received_group (gs0 ++ gs) -> p <> 0 -> three p (pis gs0) -> Forall (stays p) gs ->
  Forall (fun x => pn_segment (snd (fst x), snd x) <> [] -> carried_pi x = Some p) gs ->
  pn_segment (g, w) <> [] ->
  uniform f VA (flat_map pn_segment (groups_of gs)) -> complete_text 8 (part_writes (flat_map pn_segment (groups_of gs))) l ->
  run_groups env o (Channel_new o w0) (gs0 ++ gs) = Ok (c, out) ->
  exists out' line, out = out' ++ [Some line] /\ says line ["pty_name"] (VStr (rds_text l)).
Proof.
  intros env o w0 gs0 gs1 now g w c out p f l H HT OJ gs F Np T3 S P Pl Un Cm E.
  pose proof P as P'. apply Forall_app in P'. destruct P' as [_ P2]. pose proof (Forall_inv P2) as Pg. cbn [fst snd] in Pg. specialize (Pg Pl).
  destruct (last_shown (pn_inv (env_ucs2 env)) env o H HT OJ (pn_new _) (pn_new_pi _) (pn_had _) (fun h st now c g w st' j => pn_step env o h st now c g w st' j) w0 gs0 gs1 now g w c out p F Np T3 S Pg E)
    as (old & h0 & out0 & out1 & ln & c1 & st & j & D0 & -> & L0 & L1 & I & So & B & _ & Dd & Lj & _ & Ad).
  exists (out0 ++ out1), ln. split; [rewrite app_assoc; reflexivity|]. set (g' := prepared o now c1 g w) in *.
  specialize (Ad _ pn_segment P). fold gs in Ad.
  apply Forall_app in F. destruct F as [F0 F].
  assert (R : received_group (now, g, w)) by (apply Forall_app in F; destruct F as [_ F2]; exact (Forall_inv F2)).
  pose proof (pn_prepared o now c1 g w R) as Sp. cbv zeta in Sp. fold g' in Sp.
  destruct (pn_is g' && (g_has g' BLOCK3 && g_has g' BLOCK4)) eqn:Is; [|congruence]. apply andb_prop in Is. destruct Is as [Is H34].
  assert (Rw : raw_group st g' = false).
  { apply raw_fixed. unfold pn_is in Is. apply andb_prop in Is. destruct Is as [Is Hv]. apply andb_prop in Is. destruct Is as [_ Hn]. apply N.eqb_eq in Hn. unfold oda_type. cbv zeta. rewrite Hn, Hv. cbn [N.eqb Pos.eqb orb andb negb]. rewrite andb_false_r. reflexivity. }
  unfold says. rewrite (Lj (or_introl Rw)).
  destruct (type10_cases env o st g' _ j Dd) as [(_ & D1)|(X & _)]; [|congruence].
  rewrite decodeType10A_eq, H34 in D1. assert (Hp : pn_of (had st g') = pn_of st) by (unfold pn_of, had; destruct (_ || _); reflexivity). rewrite Hp in D1.
  destruct I as [Fh I].
  assert (Dc : decoded_in gs (out1 ++ [Some ln]) = decoded_in gs1 out1 ++ [(g, w)]) by (unfold gs; rewrite (decoded_in_app gs1 [(now, g, w)] out1 [Some ln] L1); reflexivity).
  assert (Pa : pn_put (env_ucs2 env) (pn_of st) (pn_part g') = fold_left (pn_put (env_ucs2 env)) (flat_map pn_segment (groups_of gs)) (fold_left (pn_put (env_ucs2 env)) (pn_parts h0) (RDSString_new 8, false))).
  { rewrite I, <- Ad, Dc. unfold pn_parts. rewrite !flat_map_app, !fold_left_app. cbn [flat_map]. rewrite Sp, app_nil_r. reflexivity. }
  pose proof Fh as Fh'. apply Forall_app in Fh'. destruct Fh' as [Fh0 _].
  destruct (pn_sized (env_ucs2 env) (pn_parts h0) (RDSString_new 8, false) (tracks_sized 8 _ _ (new_tracks 8)) eq_refl (pn_places _ Fh0)) as [Z0 En0].
  assert (Nn : flat_map pn_segment (groups_of gs) <> []).
  { rewrite <- Ad, Dc, flat_map_app. cbn [flat_map]. rewrite Sp. intros X. apply app_eq_nil in X. destruct X as [_ X]. discriminate X. }
  destruct (pn_window (env_ucs2 env) f _ _ Un Nn Z0 En0) as (s1 & Z1 & En1 & Ef). rewrite Ef in Pa.
  assert (Wok : Forall (fun pb => fst pb < 8 /\ snd pb < 256) (part_writes (flat_map pn_segment (groups_of gs)))).
  { rewrite <- Ad. unfold part_writes. apply Forall_flat_map. eapply Forall_impl; [|exact (pn_places _ (decoded_received gs (out1 ++ [Some ln]) F))]. intros q X. apply X. }
  destruct (any_complete (env_ucs2 env) 8 _ s1 l Z1 ltac:(lia) ltac:(congruence) Wok Cm) as (Cp & Ls & Sb & Fb).
  pose proof (complete_str (env_ucs2 env) _ Fb Cp) as X. rewrite set_all_encoding, En1, Sb in X.
  assert (Lc : s_last_complete_string (set_all (env_ucs2 env) s1 (part_writes (flat_map pn_segment (groups_of gs)))) = rds_text l) by congruence.
  rewrite Pa in D1. cbn [fst snd] in D1. rewrite Cp, Lc in D1. cbn [jset jupd bind] in D1.
  assert (Ej : jget ["pty_name"] j = Some (JStr (rds_text l))).
  { assert (j = JObj (obj_put "pty_name" (JStr (rds_text l)) (header env o st g'))) as -> by congruence. cbn [jget]. rewrite find_put. reflexivity. }
  rewrite Ej. reflexivity.
Qed.

(* ---- the long name ---- *)
Lemma lps_any_order : forall env o w0 gs0 gs1 now g w c out p cs l,
  host_ok env -> host_text env -> o_output_type o = OutJSON ->
  let gs := gs1 ++ [(now, g, w)] in
  Forall received_group (gs0 ++ gs) -> p <> 0 -> three p (pis gs0) -> Forall (stays p) gs ->
  Forall (fun x => long_segment (snd (fst x), snd x) <> [] -> carried_pi x = Some p) gs ->
  long_segment (g, w) <> [] -> not_announced t15A (groups_of (gs0 ++ gs)) ->
  complete_text 32 (flat_map long_segment (groups_of gs)) l -> Forall scalar cs -> map visible l = utf8_text cs ->
  run_groups env o (Channel_new o w0) (gs0 ++ gs) = Ok (c, out) ->
  exists out' line s, out = out' ++ [Some line] /\ says line ["long_ps"] (VStr s) /\ trimmed (utf8_text cs) s.
Proof.
  intros env o w0 gs0 gs1 now g w c out p cs l H HT OJ gs F Np T3 S P Pl Na Cm Fc Vl E.
  pose proof P as P'. apply Forall_app in P'. destruct P' as [_ P2]. pose proof (Forall_inv P2) as Pg. cbn [fst snd] in Pg. specialize (Pg Pl).
  destruct (last_shown (lps_inv (env_ucs2 env)) env o H HT OJ (lps_new _) (lps_new_pi _) (lps_had _) (fun h st now c g w st' j => lps_step env o h st now c g w st' j) w0 gs0 gs1 now g w c out p F Np T3 S Pg E)
    as (old & h0 & out0 & out1 & ln & c1 & st & j & D0 & -> & L0 & L1 & I & So & B & _ & Dd & _ & Pj & Ad).
  exists (out0 ++ out1), ln. set (g' := prepared o now c1 g w) in *.
  specialize (Ad _ long_segment P). fold gs in Ad.
  apply Forall_app in F. destruct F as [F0 F].
  assert (R : received_group (now, g, w)) by (apply Forall_app in F; destruct F as [_ F2]; exact (Forall_inv F2)).
  pose proof (lps_prepared o now c1 g w R) as Sp. cbv zeta in Sp. fold g' in Sp.
  destruct (lps_is g') eqn:Is; [|congruence].
  destruct I as (Fh & Io & I).
  assert (Na1 : not_announced t15A (h0 ++ decoded_in gs1 out1)).
  { intros a X. apply (Na a). apply in_flat_map in X. destruct X as (y & Y1 & Y2). apply in_flat_map. exists y. split; [|exact Y2].
    unfold groups_of. rewrite map_app. apply in_or_app. apply in_app_or in Y1. destruct Y1 as [Y1|Y1].
    - left. apply (decoded_sub gs0 out0). rewrite D0. apply in_or_app. right. exact Y1.
    - right. unfold gs. rewrite map_app. apply in_or_app. left. exact (decoded_sub _ _ _ Y1). }
  specialize (I Na1).
  destruct (type15_cases env o st g' _ j Dd) as [(_ & _ & D1)|([X|X] & _)]; [|congruence|pose proof (proj1 (not_announced_none t15A _ st Io) Na1); contradiction].
  destruct (decodeType15A_text env o (had st g') g' _ (header_absent env o st g' "long_ps" B eq_refl)) as ([s1 j1] & D2 & _ & J1).
  rewrite D1 in D2. injection D2 as <- <-. cbn [snd] in J1.
  pose proof (had_lps st g') as Hp. rewrite Hp, I, <- Sp in J1.
  set (ws := flat_map long_segment (groups_of gs)) in *.
  assert (Wr : set_all (env_ucs2 env) (set_all (env_ucs2 env) LongPS_default (lps_writes (h0 ++ decoded_in gs1 out1))) (long_segment (g, w)) =
    set_all (env_ucs2 env) (set_all (env_ucs2 env) LongPS_default (lps_writes h0)) ws).
  { rewrite <- !set_all_app. f_equal. unfold lps_writes. rewrite flat_map_app, <- !app_assoc. f_equal. rewrite <- Ad. unfold gs.
    rewrite (decoded_in_app gs1 [(now, g, w)] out1 [Some ln] L1), flat_map_app. cbn [decoded_in combine flat_map app]. rewrite app_nil_r. reflexivity. }
  rewrite Wr in J1. apply Forall_app in Fh. destruct Fh as [Fh0 _].
  assert (W1 : Forall (fun pb => fst pb < 32 /\ snd pb < 256) ws) by (rewrite <- Ad; apply lps_ok, decoded_received; exact F).
  pose proof (tracks_sized _ _ _ (set_all_tracks (env_ucs2 env) 32 _ LongPS_default [] long_tracks (lps_ok _ Fh0))) as Z0.
  assert (En0 : s_encoding (set_all (env_ucs2 env) LongPS_default (lps_writes h0)) = EncUTF8) by (rewrite set_all_encoding; reflexivity).
  remember (set_all (env_ucs2 env) LongPS_default (lps_writes h0)) as s0 eqn:Es0. clear Es0.
  destruct (any_complete (env_ucs2 env) 32 ws s0 l Z0 ltac:(lia) ltac:(congruence) W1 Cm) as (Cp & Ls & Sb & Fb).
  pose proof (complete_str (env_ucs2 env) _ Fb Cp) as X. rewrite set_all_encoding, En0, Sb, Vl in X.
  remember (set_all (env_ucs2 env) s0 ws) as s' eqn:Es'.
  assert (Lc : s_last_complete_string s' = utf8_text cs) by congruence.
  assert (H34 : g_has g' BLOCK3 || g_has g' BLOCK4 = true).
  { rewrite Sp in Pl. unfold lps_seg in Pl. destruct (g_has g' BLOCK3), (g_has g' BLOCK4); try reflexivity. exfalso. apply Pl. reflexivity. }
  rewrite H34, Cp in J1. cbn [andb] in J1.
  exists (rtrim (s_last_complete_string s')). split; [rewrite app_assoc; reflexivity|]. split; [|rewrite Lc; apply rtrim_trimmed].
  assert (Cj : clean j).
  { rewrite decodeType15A_eq in D1. cbv zeta in D1. rewrite Hp, I, <- Sp, Wr in D1. rewrite H34, Cp in D1. cbn [andb bind jset jupd] in D1.
    assert (Ej : j = JObj (obj_put "long_ps" (JStr (rtrim (s_last_complete_string s'))) (header env o st g'))) by congruence. rewrite Ej.
    apply put_clean; [apply header_clean; apply host_text_txt; exact HT|reflexivity|].
    unfold clean. cbn [json_utf8]. rewrite Lc. apply txt_rtrim. apply valid_is_utf8. exists cs. split; [exact Fc|reflexivity]. }
  unfold says. rewrite (clean_shows env j ln H Cj Pj), J1. reflexivity.
Qed.
