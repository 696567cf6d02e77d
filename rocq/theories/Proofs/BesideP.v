(* RadioText beside RadioText Plus: the groups of one item do not disturb the text. *)
From Verif.Model Require Import Util Group Options Tables Json RdsString Tmc Station Channel.
From Verif.Spec Require Import Unicode JsonText Session Identity History Quality Texts Apps Plus.
From Verif.Proofs Require Import Tac Numerals JsonP Schema StationP TextP CleanP UpdateP SessionP LineP FrameP ChannelP LinesP HistoryP ShowP TraceP KeysP GetP FieldsP StringP FreqP PsP RtP PnP LpsP EndP AfP AppsP TmcP LossyP PlusP PartsP.

Local Open Scope string_scope.
Local Open Scope N_scope.
Local Open Scope list_scope.

Lemma text_beside : forall env o w0 gs0 ga now1 g1 gb now g c out p f v l,
  host_ok env -> host_text env -> o_output_type o = OutJSON ->
  let gs := (ga ++ (now1, g1, 0) :: gb) ++ [(now, g, 0)] in
  Forall received_group (gs0 ++ gs) -> p <> 0 -> three p (pis gs0) -> Forall (stays p) gs ->
  Forall (fun x => matters (snd (fst x), snd x) = true -> carried_pi x = Some p) gs ->
  app_group (g1, 0) = true -> assigned_last (g_type g1) (flat_map announcement (groups_of ga)) rtplus ->
  (forall x, In x (groups_of gb) -> of_plus (groups_of (gs0 ++ gs)) x -> item_bits (fst x) = item_bits g1) ->
  rt_segment (g, 0) <> [] ->
  uniform f v (flat_map rt_segment (groups_of (gb ++ [(now, g, 0)]))) ->
  complete_text (rt_size v) (part_writes (flat_map rt_segment (groups_of (gb ++ [(now, g, 0)])))) l ->
  run_groups env o (Channel_new o w0) (gs0 ++ gs) = Ok (c, out) ->
  exists out' line s, out = out' ++ [Some line] /\ says line ["radiotext"] (VStr s) /\ trimmed (rds_text l) s.
Proof.
  intros env o w0 gs0 ga now1 g1 gb now g c out p f v l H HT OJ gs F Np T3 S P A1 L1 Sm Pl Un Cm E.
  assert (Mg : matters (g, 0) = true) by (unfold matters; destruct (rt_segment (g, 0)); [contradiction|rewrite orb_true_r; reflexivity]).
  assert (Mg1 : matters (g1, 0) = true) by (unfold matters; rewrite A1; reflexivity).
  assert (Pg : carried_pi (now, g, 0) = Some p).
  { unfold gs in P. apply Forall_app in P. destruct P as [_ P]. inversion P as [|? ? X _]; subst. apply X. exact Mg. }
  destruct (last_shown (pl (env_ucs2 env) f v) env o H HT OJ (fun w => pl_new _ f v (Station_new w) eq_refl eq_refl) (fun w p => pl_new _ f v (Station_new_pi w p) eq_refl eq_refl) (pl_had _ f v)
    (fun h st now c g w st' j => pl_step env o f v h st now c g w st' j) w0 gs0 (ga ++ (now1, g1, 0) :: gb) now g 0 c out p F Np T3 S Pg E)
    as (old & h0 & out0 & out1 & ln & c1 & st & j & D0 & -> & Ln0 & Ln1 & I & So & B & _ & Dd & Lj & Pj & Ad).
  assert (R : received_group (now, g, 0)) by (apply Forall_app in F; destruct F as [_ F']; apply Forall_app in F'; destruct F' as [_ F']; inversion F'; assumption).
  pose proof (pl_step env o f v _ st now c1 g 0 _ j I So R B Dd) as I2.
  assert (Fd : filter matters (decoded_in (ga ++ (now1, g1, 0) :: gb) out1) = filter matters (groups_of ga) ++ (g1, 0) :: filter matters (groups_of gb)).
  { specialize (Ad _ (fun x => if matters x then [x] else [])). rewrite !pick_filter in Ad. unfold gs in Ad.
    rewrite (decoded_in_app _ [(now, g, 0)] out1 [Some ln] Ln1) in Ad. change (decoded_in [(now, g, 0)] [Some ln]) with [(g, 0)] in Ad.
    unfold groups_of in Ad. rewrite !map_app, !filter_app in Ad. cbn [map fst snd filter] in Ad. rewrite Mg, Mg1 in Ad.
    apply app_inv_tail in Ad; [exact Ad|]. unfold gs in P. rewrite Forall_forall in P |- *. intros x X Y. apply (P x X). change (matters (grp x) = true). destruct (matters (grp x)); [reflexivity|exfalso; apply Y; reflexivity]. }
  destruct I as (_ & _ & En1 & _ & _).
  destruct I2 as (Fr & Io & _ & _ & W). cbv zeta in Fr, Io, W. rewrite !filter_app, Fd in Fr, Io, W. cbn [filter] in Fr, Io, W. rewrite Mg in Fr, Io, W.
  set (h1 := filter matters h0 ++ filter matters (groups_of ga)) in *.
  assert (Eh : (filter matters h0 ++ filter matters (groups_of ga) ++ (g1, 0) :: filter matters (groups_of gb)) ++ [(g, 0)] = h1 ++ (g1, 0) :: (filter matters (groups_of gb) ++ [(g, 0)])).
  { unfold h1. rewrite <- !app_assoc. reflexivity. }
  rewrite Eh in Fr, W.
  assert (Sub0 : forall x, In x h0 -> In x (groups_of gs0)) by (intros x X; apply (decoded_sub gs0 out0); rewrite D0; apply in_or_app; right; exact X).
  assert (Gs : groups_of (gs0 ++ gs) = groups_of gs0 ++ (groups_of ga ++ (g1, 0) :: groups_of gb) ++ [(g, 0)]) by (unfold groups_of, gs; rewrite !map_app; reflexivity).
  assert (Sub : forall x, In x (h1 ++ (g1, 0) :: (filter matters (groups_of gb) ++ [(g, 0)])) -> In x (groups_of (gs0 ++ gs))).
  { intros x X. rewrite Gs. unfold h1 in X. rewrite <- app_assoc in X. apply in_app_or in X. apply in_or_app. destruct X as [X|X]; [left; apply filter_In in X; apply Sub0, X|right].
    rewrite <- app_assoc. apply in_app_or in X. apply in_or_app. destruct X as [X|X]; [left; apply filter_In in X; apply X|right]. destruct X as [X|X]; [left; exact X|right].
    apply in_app_or in X. apply in_or_app. destruct X as [X|X]; [left; apply filter_In in X; apply X|right; exact X]. }
  assert (N1 : plus_now h1 (g1, 0)).
  { split; [exact A1|]. cbn [fst]. unfold h1. rewrite flat_map_app, !filter_ann. apply find_last. exact L1. }
  assert (Ng : app_group (g, 0) = false).
  { destruct (app_group (g, 0)) eqn:X; [exfalso|reflexivity]. unfold app_group in X. cbn [fst snd] in X. apply andb_prop in X. destruct X as [_ X].
    unfold rt_segment in Pl. destruct (carries 2 g 0) eqn:Cr; [|contradiction]. unfold carries in Cr. repeat (apply andb_prop in Cr; destruct Cr as [Cr ?]).
    apply for_apps_small in X. destruct (g_type g) as [gn gv]. cbn [gt_number] in *. repeat match goal with Y : (gn =? 2) = true |- _ => apply N.eqb_eq in Y; subst gn end. repeat (destruct X as [X|X]; [discriminate X|]). destruct X. }
  destruct (W h1 (g1, 0) _ eq_refl N1) as [_ Tx].
  { intros y Y1 [Y2 Y3]. cbn [fst]. apply in_app_or in Y1. destruct Y1 as [Y1|[<-|[]]]; [|congruence]. apply filter_In in Y1. apply Sm; [apply Y1|]. split; [exact Y2|].
    apply in_flat_map in Y3. destruct Y3 as (z & Z1 & Z2). apply in_flat_map. exists z. split; [apply Sub, Z1|exact Z2]. }
  assert (Ps : parts (filter matters (groups_of gb) ++ [(g, 0)]) = flat_map rt_segment (groups_of (gb ++ [(now, g, 0)]))).
  { unfold parts, groups_of. rewrite map_app, !flat_map_app. cbn [map fst snd flat_map]. f_equal. exact (filter_parts (groups_of gb)). }
  rewrite Ps in Tx.
  assert (Pok : Forall part_ok (flat_map rt_segment (groups_of (gb ++ [(now, g, 0)])))).
  { rewrite <- Ps. apply parts_ok. apply Forall_app in Fr. destruct Fr as [_ Fr]. inversion Fr; assumption. }
  destruct (Tx Un) as (s0 & Z0 & En0 & T0 & A0).
  { unfold groups_of. rewrite map_app, flat_map_app. cbn [map fst snd flat_map]. rewrite app_nil_r. destruct (rt_segment (g, 0)); [congruence|]. intros X. apply app_eq_nil in X. destruct X as [_ X]. discriminate X. }
  assert (Wok : Forall (fun pb => fst pb < rt_size v /\ snd pb < 256) (part_writes (flat_map rt_segment (groups_of (gb ++ [(now, g, 0)]))))).
  { unfold part_writes. apply Forall_flat_map. pose proof (both _ _ _ _ Pok Un) as X. eapply Forall_impl; [|exact X]. intros q (Pk & _ & <-). exact (part_place q Pk). }
  destruct (any_complete (env_ucs2 env) (rt_size v) _ s0 l Z0 (rt_size_pos v) ltac:(congruence) Wok Cm) as (Cp & Ls & Sb & Fb).
  pose proof (complete_str (env_ucs2 env) _ Fb Cp) as X. rewrite set_all_encoding, En0, Sb in X. rewrite <- T0 in Cp, Ls, X.
  assert (Lc : s_last_complete_string (text_of (ch_station c)) = rds_text l) by congruence.
  exists (out0 ++ out1), ln, (rtrim (s_last_complete_string (text_of (ch_station c)))). split; [rewrite app_assoc; reflexivity|]. split; [|rewrite Lc; apply rtrim_trimmed].
  (* the line *)
  set (g' := prepared o now c1 g 0) in *.
  pose proof (part_prepared o now c1 g 0 R) as Sg. cbv zeta in Sg. fold g' in Sg.
  destruct (g_has_type g' && negb (Version_eqb (gt_version (g_type g')) VC) && (gt_number (g_type g') =? 2) && (g_has g' BLOCK3 && g_has g' BLOCK4)) eqn:Cr; [|congruence].
  apply andb_prop in Cr. destruct Cr as [Cr H34]. apply andb_prop in Cr. destruct Cr as [Cr Hn]. apply andb_prop in Cr. destruct Cr as [Ht Hv]. apply negb_true_iff in Hv. apply N.eqb_eq in Hn.
  specialize (Lj (or_introl (type2_raw _ _ Hn))).
  destruct (type2_cases env o _ g' _ j Dd) as [(_ & _ & _ & D1)|([Y|[Y|Y]] & _)]; [|congruence|congruence|contradiction].
  assert (Hr : text_of (had st g') = text_of st) by (unfold text_of; rewrite had_rt; reflexivity).
  destruct (decodeType2_rt env o (had st g') g' _ (header_rt env o st g' B) ltac:(rewrite Hr; exact En1) H34) as ([s1 j1] & D2 & T1 & _ & _ & J1).
  rewrite D1 in D2. injection D2 as <- <-. cbn [fst snd] in T1, J1. rewrite <- T1, Cp in J1. unfold says. rewrite Lj, J1. reflexivity.
Qed.
