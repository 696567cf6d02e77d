(* Errors in PI codes (C89). *)
From Verif.Model Require Import Base Util Float Group BlockSync Options Tables Freq RdsString Rft Json Tmc Station Channel.
From Verif.Spec Require Import Session Identity Texts History Noise.
From Verif.Proofs Require Import Tac Schema StationP UpdateP SessionP LineP FrameP ChannelP LinesP HistoryP.
Local Open Scope N_scope.
Local Open Scope list_scope.

Section Coded.
  Variables (raw q : N) (g : Group).
  Local Notation g' := (coded raw q g).
  Lemma cd_0 : forall env o st j, decodeType0 env o st g' j = decodeType0 env o st g j.
  Proof. intros. unfold decodeType0. reflexivity. Qed.
  Lemma cd_1 : forall st j, decodeType1 st g' j = decodeType1 st g j.
  Proof. intros. unfold decodeType1. reflexivity. Qed.
  Lemma cd_2 : forall env o st j, decodeType2 env o st g' j = decodeType2 env o st g j.
  Proof. intros. unfold decodeType2. reflexivity. Qed.
  Lemma cd_3 : forall st j, decodeType3A st g' j = decodeType3A st g j.
  Proof. intros. unfold decodeType3A. reflexivity. Qed.
  Lemma cd_4 : forall env j, decodeType4A env g' j = decodeType4A env g j.
  Proof. intros. unfold decodeType4A. reflexivity. Qed.
  Lemma cd_10 : forall env st j, decodeType10A env st g' j = decodeType10A env st g j.
  Proof. intros. unfold decodeType10A. reflexivity. Qed.
  Lemma cd_14 : forall env o st j, decodeType14 env o st g' j = decodeType14 env o st g j.
  Proof. intros. unfold decodeType14. reflexivity. Qed.
  Lemma cd_15B : forall j, decodeType15B g' j = decodeType15B g j.
  Proof. intros. unfold decodeType15B. change (g_has g' BLOCK2) with (g_has g BLOCK2). destruct (g_has g BLOCK2); reflexivity. Qed.
  Lemma cd_oda : forall env st j, decodeODAGroup env st g' j = decodeODAGroup env st g j.
  Proof. intros. unfold decodeODAGroup. reflexivity. Qed.
  Lemma cd_5 : forall env st j, decodeType5 env st g' j = decodeType5 env st g j.
  Proof. intros. unfold decodeType5. reflexivity. Qed.
  Lemma cd_6 : forall j, decodeType6 g' j = decodeType6 g j.
  Proof. intros. unfold decodeType6. reflexivity. Qed.
  Lemma cd_8 : forall env st j, receiveTMC env st g' j = receiveTMC env st g j.
  Proof. intros. unfold receiveTMC. reflexivity. Qed.
  Lemma cd_15A : forall env o st j, decodeType15A env o st g' j = decodeType15A env o st g j.
  Proof. intros. unfold decodeType15A. reflexivity. Qed.
  Lemma cd_basics : forall o j, decodeBasics o g' j = decodeBasics o g j.
  Proof. intros. unfold decodeBasics. change (g_has g' BLOCK2) with (g_has g BLOCK2). destruct (g_has g BLOCK2); reflexivity. Qed.
  Lemma cd_update : forall env o st, o_show_raw o = false -> gt_version (g_type g) <> VC -> blk_is_received (g_b1 g) = true -> updateAndPrint env o st g' = updateAndPrint env o st g.
  Proof.
    intros env o st R V B. unfold updateAndPrint. change (g_type g') with (g_type g). change (g_data_stream g') with (g_data_stream g). change (g_isEmpty g') with (g_isEmpty g).
    assert (P : forall x, gt_version (g_type x) <> VC -> blk_is_received (g_b1 x) = true -> g_hasPI x = true) by (intros x X Y; unfold g_hasPI; rewrite Y; destruct (gt_version (g_type x)); [reflexivity|reflexivity|contradiction]).
    rewrite (P g V B). rewrite (P g' V B). cbv zeta.
    assert (X : forall st j, (j <- decodeHeader env o st g' j ;; j <- decodeBasics o g' j ;; '(st, j) <- (if g_has_type g' then decodeByType env o st g' j else Ok (st, j)) ;; text <- print_json env j ;; Ok (st, Some text)) =
      (j <- decodeHeader env o st g j ;; j <- decodeBasics o g j ;; '(st, j) <- (if g_has_type g then decodeByType env o st g j else Ok (st, j)) ;; text <- print_json env j ;; Ok (st, Some text))).
    { intros s j. assert (Hd : decodeHeader env o s g' j = decodeHeader env o s g j) by (unfold decodeHeader; rewrite R; reflexivity). rewrite Hd. destruct (decodeHeader env o s g j) as [j1| |]; cbn [bind]; [|reflexivity|reflexivity].
      rewrite cd_basics. destruct (decodeBasics o g j1) as [j2| |]; cbn [bind]; [|reflexivity|reflexivity]. change (g_has_type g') with (g_has_type g).
      assert (Bt : decodeByType env o s g' j2 = decodeByType env o s g j2).
      { unfold decodeByType. change (g_type g') with (g_type g). cbv zeta. rewrite cd_0, cd_1, cd_2, cd_3, cd_4, cd_10, cd_14, cd_15B, cd_oda, cd_5, cd_6, cd_8, cd_15A. destruct (gt_version (g_type g)); [reflexivity|reflexivity|contradiction]. }
      rewrite Bt. reflexivity. }
    destruct (negb (st_has_pi st)); [reflexivity|].
    match goal with |- bind ?a _ = bind ?a _ => destruct a as [j0| |]; cbn [bind]; [|reflexivity|reflexivity] end. rewrite X.
    match goal with |- (if ?b then _ else _) = _ => destruct b; [reflexivity|] end. 
    match goal with |- (if ?b then _ else _) = _ => destruct b; [reflexivity|] end.
    match goal with |- (if ?b then _ else _) = _ => destruct b; [reflexivity|] end.
    match goal with |- bind ?a _ = bind ?a _ => destruct a as [j1| |]; cbn [bind]; [|reflexivity|reflexivity] end.
    match goal with |- bind ?a _ = bind ?a _ => destruct a as [j2| |]; cbn [bind]; [|reflexivity|reflexivity] end. apply X.
  Qed.
End Coded.

(* ---- a run with isolated wrong codes ---- *)
Definition near (p : N) (c c' : Channel) : Prop :=
  pi_confirmed (ch_cached_pi c) = p /\ pi_has_previous (ch_cached_pi c) = true /\ pi_prev1 (ch_cached_pi c) = p /\
  pi_confirmed (ch_cached_pi c') = p /\ pi_has_previous (ch_cached_pi c') = true /\
  c' = mkChannel (ch_which_channel c) (ch_cached_pi c') (ch_block_stream c) (ch_station c) (ch_bler_average c) (ch_last_group_rx_time c).
Lemma update_same : forall p k q, pi_confirmed k = p -> pi_has_previous k = true -> pi_prev1 k = p \/ q = p ->
  snd (pi_update k q) <> ChangeConfirmed /\ pi_confirmed (fst (pi_update k q)) = p /\ pi_has_previous (fst (pi_update k q)) = true /\ pi_prev1 (fst (pi_update k q)) = q.
Proof.
  intros p k q C H D. unfold pi_update. cbv zeta. rewrite C, H. cbn [andb]. destruct D as [D| ->].
  - rewrite D. destruct (N.eqb_spec p (pi_prev2 k)) as [E|E]; cbn [andb].
    + destruct (N.eqb_spec q p) as [->|Nq]; rewrite ?N.eqb_refl; cbn [negb andb]; rewrite ?andb_false_r; cbn [negb andb fst snd pi_confirmed pi_has_previous pi_prev1]; repeat split; discriminate.
    + rewrite N.eqb_refl. cbn [negb andb]. rewrite andb_false_r. cbn [andb fst snd pi_confirmed pi_has_previous pi_prev1]. repeat split; discriminate.
  - rewrite N.eqb_refl. destruct ((pi_prev1 k =? pi_prev2 k) && (p =? pi_prev1 k)); rewrite N.eqb_refl; cbn [negb andb fst snd pi_confirmed pi_has_previous pi_prev1]; repeat split; discriminate.
Qed.
Lemma coded_prepared : forall o now c raw q g w, prepared o now c (coded raw q g) w = coded raw q (prepared o now c g w).
Proof. intros. unfold prepared, streamed, measured, stamped. change (g_has_time (coded raw q g)) with (g_has_time g). destruct (o_timestamp o && negb (g_has_time g)), (o_bler o), (w =? 0); reflexivity. Qed.
Lemma near_prepared : forall p o now c c' g w, near p c c' -> prepared o now c' g w = prepared o now c g w.
Proof. intros p o now c c' g w (_ & _ & _ & _ & _ & E). rewrite E. reflexivity. Qed.
(* one group, with the right code (or none) and with another *)
Lemma near_step : forall env o p now c c' g w g' d l, o_output_type o = OutJSON -> o_show_raw o = false -> near p c c' -> stays p (now, g, w) -> misread (now, g, w) (now, g', w) ->
  match carried_pi (now, g', w) with Some q => pi_prev1 (ch_cached_pi c') = p \/ q = p | None => True end ->
  processGroup env o now c g w = Ok (d, l) ->
  exists d', processGroup env o now c' g' w = Ok (d', l) /\ near p d d' /\ pi_prev1 (ch_cached_pi d') = match carried_pi (now, g', w) with Some q => q | None => pi_prev1 (ch_cached_pi c') end.
Proof.
  intros env o p now c c' g w g' d l OJ R Nr S M D P. pose proof Nr as (N1 & N2 & N3 & N4 & N5 & N6).
  assert (U : forall st, updateAndPrint env o st (prepared o now c' g' w) = updateAndPrint env o st (prepared o now c g w)).
  { intros st. rewrite (near_prepared p o now c c' g' w Nr). destruct M as [M|(raw & q & Mm & Mb & M)]; [congruence|]. cbn [fst snd] in *. assert (g' = coded raw q g) as -> by congruence. rewrite coded_prepared.
    apply cd_update; [exact R| |].
    - rewrite prepared_type. unfold main in Mm. apply andb_prop in Mm. destruct Mm as [-> Mm]. destruct (gt_version (g_type g)); [discriminate|discriminate|discriminate Mm].
    - change (g_b1 (prepared o now c g w)) with (g_block (prepared o now c g w) BLOCK1). rewrite prepared_block. exact Mb. }
  assert (A : next_avg o c' g' = next_avg o c g /\ stamp_time o now c' g' = stamp_time o now c g).
  { rewrite N6. destruct M as [M|(raw & q & Mm & Mb & M)]; [assert (g' = g) as -> by congruence; split; reflexivity|]. cbn [fst snd] in *. assert (g' = coded raw q g) as -> by congruence. split; reflexivity. }
  destruct A as [A1 A2].
  pose proof (prepared_pi o now c g w) as Q. pose proof (prepared_pi o now c' g' w) as Q'.
  rewrite process_eq in P |- *. cbv zeta in *. rewrite OJ in *. rewrite U, A1, A2.
  assert (T : tuned c (prepared o now c g w) = ch_station c /\ pi_confirmed (next_pi c (prepared o now c g w)) = p /\ pi_has_previous (next_pi c (prepared o now c g w)) = true /\ pi_prev1 (next_pi c (prepared o now c g w)) = p).
  { unfold tuned, next_pi. destruct (g_hasPI (prepared o now c g w)); [|auto]. destruct S as [S|S]; rewrite S in Q; [discriminate|]. injection Q as ->.
    destruct (update_same p _ p N1 N2 (or_intror eq_refl)) as (X1 & X2 & X3 & X4). split; [|auto]. destruct (snd (pi_update (ch_cached_pi c) p)); try reflexivity. contradiction. }
  assert (T' : tuned c' (prepared o now c' g' w) = ch_station c /\ pi_confirmed (next_pi c' (prepared o now c' g' w)) = p /\ pi_has_previous (next_pi c' (prepared o now c' g' w)) = true /\
    pi_prev1 (next_pi c' (prepared o now c' g' w)) = match carried_pi (now, g', w) with Some q => q | None => pi_prev1 (ch_cached_pi c') end).
  { assert (E6 : ch_station c' = ch_station c) by (rewrite N6; reflexivity). unfold tuned, next_pi. destruct (g_hasPI (prepared o now c' g' w)).
    - destruct (carried_pi (now, g', w)) as [q|]; [|discriminate]. injection Q' as ->. destruct (update_same p _ q N4 N5 D) as (X1 & X2 & X3 & X4). split; [|auto]. rewrite E6. destruct (snd (pi_update (ch_cached_pi c') q)); try reflexivity. contradiction.
    - rewrite <- Q'. auto. }
  destruct T as (T1 & T2 & T3 & T4). destruct T' as (T1' & T2' & T3' & T4'). rewrite T1 in P. rewrite T1'.
  destruct (updateAndPrint env o (ch_station c) (prepared o now c g w)) as [[st k]| |]; cbn [bind] in *; try discriminate. injection P as <- <-.
  eexists. split; [reflexivity|]. split; [|exact T4'].
  split; [exact T2|]. split; [exact T3|]. split; [exact T4|]. split; [exact T2'|]. split; [exact T3'|]. cbn [ch_which_channel ch_cached_pi ch_block_stream ch_station ch_bler_average ch_last_group_rx_time].
  rewrite N6. reflexivity.
Qed.
Lemma isolated_tail : forall p x l, isolated p (x :: l) -> isolated p l.
Proof. intros p x l I before a b after E. apply (I (x :: before) a b after). rewrite E. reflexivity. Qed.
Lemma near_run : forall env o p gs gs', Forall2 misread gs gs' -> forall c c' d out, o_output_type o = OutJSON -> o_show_raw o = false -> Forall (stays p) gs ->
  near p c c' -> isolated p (pi_prev1 (ch_cached_pi c') :: pis gs') -> run_groups env o c gs = Ok (d, out) ->
  exists d', run_groups env o c' gs' = Ok (d', out).
Proof.
  intros env o p gs gs' F. induction F as [|[[now g] w] [[now' g'] w'] gs gs' M F IH]; intros c c' d out OJ R S Nr Is E; cbn [run_groups] in *.
  - exists c'. congruence.
  - apply Forall_cons_iff in S. destruct S as [S1 S].
    assert (now' = now /\ w' = w) as [-> ->] by (destruct M as [M|(raw & q & _ & _ & M)]; cbn [fst snd] in M; split; congruence).
    destruct (processGroup env o now c g w) as [[c1 l1]| |] eqn:P; cbn [bind] in E; try discriminate. destruct (run_groups env o c1 gs) as [[c2 o2]| |] eqn:Q; cbn [bind] in E; try discriminate. injection E as <- <-.
    unfold pis in Is. cbn [flat_map] in Is. fold (pis gs') in Is.
    assert (D : match carried_pi (now, g', w) with Some q => pi_prev1 (ch_cached_pi c') = p \/ q = p | None => True end).
    { destruct (carried_pi (now, g', w)) as [q|]; [|exact I]. exact (Is [] _ _ _ eq_refl). }
    destruct (near_step env o p now c c' g w g' c1 l1 OJ R Nr S1 M D P) as (d' & -> & Nr' & Pv). cbn [bind].
    assert (Is' : isolated p (pi_prev1 (ch_cached_pi d') :: pis gs')).
    { rewrite Pv. destruct (carried_pi (now, g', w)) as [q|]; [exact (isolated_tail _ _ _ Is)|exact Is]. }
    destruct (IH c1 d' c2 o2 OJ R S Nr' Is' Q) as [e ->]. cbn [bind]. exists e. reflexivity.
Qed.
Lemma three_near : forall env o w0 gs c out p, o_output_type o = OutJSON -> run_groups env o (Channel_new o w0) gs = Ok (c, out) -> p <> 0 -> three p (pis gs) -> near p c c.
Proof.
  intros env o w0 gs. induction gs as [|[[now g] w] gs IH] using rev_ind; intros c out p OJ H Np T; [destruct T as (e & T); destruct e; discriminate|].
  destruct (run_snoc _ _ _ _ _ _ _ _ _ H) as (c1 & out1 & line & E1 & E2 & _). pose proof (run_pi _ _ _ _ _ _ OJ E1) as (I1 & I2 & I3 & _ & _). pose proof (process_pi _ _ _ _ _ _ _ _ OJ E2) as P.
  rewrite pis_app in T. unfold pis at 2 in T. cbn [flat_map] in T. rewrite app_nil_r in T. destruct (carried_pi (now, g, w)) as [q|].
  - destruct P as [P _]. apply three_rev in T. destruct T as (r & E). rewrite rev_app_distr in E. cbn [rev app] in E. injection E as -> E.
    assert (Tt : pi_has_previous (ch_cached_pi c1) && (pi_prev1 (ch_cached_pi c1) =? pi_prev2 (ch_cached_pi c1)) && (p =? pi_prev1 (ch_cached_pi c1)) = true).
    { destruct (pi_has_previous (ch_cached_pi c1)) eqn:Hp.
      - destruct (I2 eq_refl) as [(r' & E')|(E' & _)]; rewrite E in E'; [|discriminate]. injection E' as F1 F2 _. rewrite <- F1, <- F2, N.eqb_refl. reflexivity.
      - destruct (I3 eq_refl) as [E'|(a & b & r' & E' & N')]; rewrite E in E'; [discriminate|]. injection E' as F1 F2 _. subst. contradiction. }
    assert (X : ch_cached_pi c = mkCachedPI p p (pi_prev1 (ch_cached_pi c1)) true).
    { rewrite P. unfold pi_update. cbv zeta. rewrite Tt, N.eqb_refl. cbn [negb andb]. rewrite andb_false_r. reflexivity. }
    unfold near. rewrite X. cbn [pi_confirmed pi_has_previous pi_prev1]. repeat split. rewrite <- X. destruct c; reflexivity.
  - rewrite app_nil_r in T. destruct P as [P _]. destruct (IH c1 out1 p OJ E1 Np T) as (N1 & N2 & N3 & _). unfold near. rewrite P. repeat split; auto. rewrite <- P. destruct c; reflexivity.
Qed.
Theorem isolated_errors : forall env o w0 gs0 gs gs' c out p, o_output_type o = OutJSON -> o_show_raw o = false -> p <> 0 -> three p (pis gs0) ->
  Forall (stays p) gs -> Forall2 misread gs gs' -> isolated p (pis gs') -> run_groups env o (Channel_new o w0) (gs0 ++ gs) = Ok (c, out) ->
  exists c', run_groups env o (Channel_new o w0) (gs0 ++ gs') = Ok (c', out).
Proof.
  intros env o w0 gs0 gs gs' c out p OJ R Np T S M Is E. rewrite run_groups_app in E. destruct (run_groups env o (Channel_new o w0) gs0) as [[c1 o1]| |] eqn:E1; cbn [bind] in E; try discriminate.
  destruct (run_groups env o c1 gs) as [[c2 o2]| |] eqn:E2; cbn [bind] in E; try discriminate. injection E as <- <-. pose proof (three_near _ _ _ _ _ _ _ OJ E1 Np T) as Nr.
  assert (Is' : isolated p (pi_prev1 (ch_cached_pi c1) :: pis gs')).
  { destruct Nr as (_ & _ & -> & _). intros [|b before] x y after X; cbn [app] in X; injection X as X1 X2; [left; symmetry; exact X1|]. apply (Is before x y after X2). }
  destruct (near_run env o p gs gs' M c1 c1 c2 o2 OJ R S Nr Is' E2) as [d Ed]. exists d. rewrite run_groups_app, E1. cbn [bind]. rewrite Ed. reflexivity.
Qed.
