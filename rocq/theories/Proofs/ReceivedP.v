(* What is shown does not depend on the contents of blocks that were not received (C66). *)
From Verif.Model Require Import Base Util Float Group BlockSync Options Tables Freq RdsString Rft Json Tmc Station Channel.
From Verif.Spec Require Import Session Identity Texts History Received.
From Verif.Proofs Require Import Tac Schema StationP UpdateP SessionP LineP FrameP ChannelP LinesP HistoryP TraceP HostP RtP.

(* Two groups that are the same for the decoder *)
Definition alike (o : Options) (g g' : Group) : Prop :=
  (forall b, g_has g' b = g_has g b) /\ (forall b, g_has g b = true -> g_get g' b = g_get g b) /\
  g_type g' = g_type g /\ g_has_type g' = g_has_type g /\
  (o_timestamp o = true -> g_time_received g' = g_time_received g /\ g_has_time g' = g_has_time g) /\
  g_has_bler g' = g_has_bler g /\ g_bler g' = g_bler g /\ g_data_stream g' = g_data_stream g /\
  (o_bler o = true -> g_getNumErrors g' = g_getNumErrors g) /\ g_hasPI g' = g_hasPI g /\ g_getPI g' = g_getPI g.

Lemma same_alike : forall o g g', same_received g g' -> alike o g g'.
Proof.
  intros o g g' A. destruct A as (B1 & B2 & B3 & B4 & A).
  assert (Hh : forall b, g_has g' b = g_has g b) by (intros b; unfold g_has; destruct b; cbn [g_block]; symmetry; [apply B1|apply B2|apply B3|apply B4]).
  assert (Hk : forall b, g_has g b = true -> g_block g' b = g_block g b) by (intros b; unfold g_has; destruct b; cbn [g_block]; intros H; symmetry; [apply B1|apply B2|apply B3|apply B4]; exact H).
  assert (Ty : g_type g' = g_type g) by (rewrite A; reflexivity).
  split; [exact Hh|]. split; [intros b H; unfold g_get; rewrite (Hk b H); reflexivity|]. split; [exact Ty|]. split; [rewrite A; reflexivity|].
  split; [intros _; split; rewrite A; reflexivity|]. split; [rewrite A; reflexivity|]. split; [rewrite A; reflexivity|]. split; [rewrite A; reflexivity|].
  clear A. pose proof (Hh BLOCK1) as H1. pose proof (Hh BLOCK3) as H3. pose proof (Hk BLOCK1) as K1. pose proof (Hk BLOCK3) as K3. unfold g_has in *. cbn [g_block] in H1, H3, K1, K3.
  split; [|split].
  - intros _. assert (E : forall b, blk_error_count (g_block g' b) = blk_error_count (g_block g b)).
    { intros b. specialize (Hh b). specialize (Hk b). unfold blk_error_count. rewrite Hh.
      destruct (blk_is_received (g_block g b)); [rewrite Hk by reflexivity; reflexivity|]. rewrite !orb_true_r. reflexivity. }
    pose proof (E BLOCK1) as E1. pose proof (E BLOCK2) as E2. pose proof (E BLOCK3) as E3. pose proof (E BLOCK4) as E4. cbn [g_block] in *. unfold g_getNumErrors. rewrite E1, E2, E3, E4. reflexivity.
  - unfold g_hasPI. rewrite Ty, H1, H3. destruct (blk_is_received (g_b3 g)); [rewrite K3 by reflexivity|]; reflexivity.
  - unfold g_getPI. rewrite H1, H3. destruct (blk_is_received (g_b1 g)); [rewrite K1 by reflexivity; reflexivity|]. destruct (blk_is_received (g_b3 g)); [rewrite K3 by reflexivity|]; reflexivity.
Qed.

Section Alike.
  Variables (o : Options) (g g' : Group).
  Hypothesis A : alike o g g'.

  Lemma al_has : forall b, g_has g' b = g_has g b.
  Proof. apply A. Qed.
  Lemma al_get : forall b, g_has g b = true -> g_get g' b = g_get g b.
  Proof. apply A. Qed.
  Lemma al_type : g_type g' = g_type g.
  Proof. apply A. Qed.
  Lemma al_has_type : g_has_type g' = g_has_type g.
  Proof. apply A. Qed.
  Lemma al_time : o_timestamp o = true -> g_time_received g' = g_time_received g.
  Proof. apply A. Qed.
  Lemma al_has_time : o_timestamp o && negb (g_has_time g') = o_timestamp o && negb (g_has_time g).
  Proof. destruct (o_timestamp o) eqn:E; [|reflexivity]. replace (g_has_time g') with (g_has_time g); [reflexivity|]. symmetry. destruct A as (_ & _ & _ & _ & T & _). apply T, E. Qed.
  Lemma al_has_bler : g_has_bler g' = g_has_bler g.
  Proof. apply A. Qed.
  Lemma al_bler : g_bler g' = g_bler g.
  Proof. apply A. Qed.
  Lemma al_stream : g_data_stream g' = g_data_stream g.
  Proof. apply A. Qed.
  Lemma al_hex : forall b, blk_hex (g_block g' b) = blk_hex (g_block g b).
  Proof.
    intros b. pose proof (al_has b) as H. pose proof (al_get b) as K. unfold g_has, g_get in *. unfold blk_hex. rewrite H.
    destruct (blk_is_received (g_block g b)); [rewrite K by reflexivity|]; reflexivity.
  Qed.
  Lemma al_printHex : g_printHex g' = g_printHex g.
  Proof. pose proof (al_hex BLOCK1) as H1. pose proof (al_hex BLOCK2) as H2. pose proof (al_hex BLOCK3) as H3. pose proof (al_hex BLOCK4) as H4. cbn [g_block] in *. unfold g_printHex. rewrite H1, H2, H3, H4. reflexivity. Qed.
  Lemma al_empty : g_isEmpty g' = g_isEmpty g.
  Proof. unfold g_isEmpty. rewrite !al_has. reflexivity. Qed.
  Lemma al_hasPI : g_hasPI g' = g_hasPI g.
  Proof. apply A. Qed.
  Lemma al_getPI : g_getPI g' = g_getPI g.
  Proof. apply A. Qed.

  (* rewriting with what is known to have been received *)
  Ltac block b := let H := fresh "Hb" in destruct (g_has g b) eqn:H; [pose proof (al_get b H)|].
  Ltac alike := cbv zeta; rewrite ?al_type, ?al_has, ?al_printHex, ?al_bler, ?al_has_bler, ?al_stream;
    cbn [negb andb orb]; repeat match goal with E : g_get g' _ = _ |- _ => rewrite E; clear E end; try reflexivity.

  Lemma al_header : forall env st j, decodeHeader env o st g' j = decodeHeader env o st g j.
  Proof. intros. unfold decodeHeader. pose proof al_time as T. destruct (o_timestamp o); [rewrite T by reflexivity|]; alike. Qed.
  Lemma al_basics : forall j, decodeBasics o g' j = decodeBasics o g j.
  Proof.
    intros. unfold decodeBasics. rewrite al_has_type, al_type, !al_has. block BLOCK2; block BLOCK4; alike; cbv zeta;
      destruct (Version_eqb (gt_version (g_type g)) VC); rewrite ?andb_false_r; reflexivity.
  Qed.

  Hypothesis R2 : g_has g BLOCK2 = true.
  Let G2 : g_get g' BLOCK2 = g_get g BLOCK2 := al_get BLOCK2 R2.

  Lemma al_0 : forall env st j, decodeType0 env o st g' j = decodeType0 env o st g j.
  Proof. intros. unfold decodeType0. rewrite !G2, !al_has. block BLOCK3; block BLOCK4; alike. Qed.
  Lemma al_1 : forall st j, decodeType1 st g' j = decodeType1 st g j.
  Proof. intros. unfold decodeType1. rewrite !al_has. block BLOCK3; block BLOCK4; alike. Qed.
  Lemma al_2 : forall env st j, decodeType2 env o st g' j = decodeType2 env o st g j.
  Proof. intros. unfold decodeType2. rewrite !G2, !al_has. block BLOCK3; block BLOCK4; alike. Qed.
  Lemma al_3A : forall st j, decodeType3A st g' j = decodeType3A st g j.
  Proof. intros. unfold decodeType3A. rewrite !G2, !al_has. block BLOCK3; block BLOCK4; alike. Qed.
  Lemma al_4A : forall env j, decodeType4A env g' j = decodeType4A env g j.
  Proof. intros. unfold decodeType4A. rewrite !G2, !al_has. block BLOCK3; block BLOCK4; alike. Qed.
  Lemma al_6 : forall j, decodeType6 g' j = decodeType6 g j.
  Proof. intros. unfold decodeType6. rewrite !G2, !al_has. block BLOCK3; block BLOCK4; alike. Qed.
  Lemma al_10A : forall env st j, decodeType10A env st g' j = decodeType10A env st g j.
  Proof. intros. unfold decodeType10A. rewrite !G2, !al_has. block BLOCK3; block BLOCK4; alike. Qed.
  Lemma al_14 : forall env st j, decodeType14 env o st g' j = decodeType14 env o st g j.
  Proof. intros. unfold decodeType14. rewrite !G2, !al_has. block BLOCK3; block BLOCK4; alike. Qed.
  Lemma al_15A : forall env st j, decodeType15A env o st g' j = decodeType15A env o st g j.
  Proof. intros. unfold decodeType15A. rewrite !G2, !al_has. block BLOCK3; block BLOCK4; alike. Qed.
  Lemma al_15B : forall j, decodeType15B g' j = decodeType15B g j.
  Proof. intros. unfold decodeType15B. rewrite !al_has, R2, !G2. reflexivity. Qed.
  Lemma al_plus : forall rt path j, parseRadioTextPlus g' rt path j = parseRadioTextPlus g rt path j.
  Proof. intros. unfold parseRadioTextPlus. rewrite !G2, !al_has. block BLOCK3; block BLOCK4; alike. Qed.
  Lemma al_tmc : forall env st j, receiveTMC env st g' j = receiveTMC env st g j.
  Proof. intros. unfold receiveTMC. rewrite !G2, !al_has, R2. block BLOCK3; block BLOCK4; alike. Qed.
  Lemma al_raw : oda_raw g' = oda_raw g.
  Proof. unfold oda_raw. rewrite !G2, !al_has. block BLOCK3; block BLOCK4; alike. Qed.

  Section Unchecked.
    Variable st : Station.
    Hypothesis U : (gt_number (g_type g) = 5 \/ find_type (g_type g) (st_oda_app_for_group st) = Some 0x0093 \/ find_type (g_type g) (st_oda_app_for_group st) = Some 0x6552) ->
      g_has g BLOCK3 = true /\ g_has g BLOCK4 = true.

    Lemma al_oda : forall env j, decodeODAGroup env st g' j = decodeODAGroup env st g j.
    Proof.
      intros. unfold decodeODAGroup. rewrite al_type, al_raw, al_tmc, !al_plus. destruct (find_type (g_type g) (st_oda_app_for_group st)) as [a|]; [|reflexivity].
      destruct (N.eqb_spec a 0x0093) as [->|_].
      { destruct U as [H3 H4]; [right; left; reflexivity|]. unfold parseDAB. rewrite !G2, (al_get _ H3), (al_get _ H4). reflexivity. }
      destruct (a =? 0x4BD7); [reflexivity|]. destruct (a =? 0x4BD8); [reflexivity|].
      destruct (N.eqb_spec a 0x6552) as [->|_]; [|reflexivity].
      destruct U as [H3 H4]; [right; right; reflexivity|]. unfold parseEnhancedRT. rewrite !G2, !al_has, (al_get _ H3), (al_get _ H4). reflexivity.
    Qed.
    Lemma al_5 : forall env j, gt_number (g_type g) = 5 -> decodeType5 env st g' j = decodeType5 env st g j.
    Proof. intros env j N5. destruct U as [H3 H4]; [left; exact N5|]. unfold decodeType5. rewrite !G2, al_type, (al_get _ H3), (al_get _ H4). reflexivity. Qed.
    Lemma al_AB : forall env j, gt_version (g_type g) <> VC -> decodeByType env o st g' j = decodeByType env o st g j.
    Proof.
      intros env j V. unfold decodeByType. cbv zeta. rewrite al_type, al_0, al_1, al_2, al_3A, al_4A, al_10A, al_14, al_15B, !al_oda, al_6, al_tmc, al_15A.
      replace (Version_eqb (gt_version (g_type g)) VC) with false by (destruct (gt_version (g_type g)); [reflexivity|reflexivity|congruence]).
      destruct (N.eqb_spec (gt_number (g_type g)) 5) as [N5|_]; [rewrite (al_5 env j N5)|]; reflexivity.
    Qed.
  End Unchecked.
End Alike.

Lemma al_C : forall o g g', alike o g g' -> forall st j, decodeC st g' j = decodeC st g j.
Proof.
  intros o g g' A st j. unfold decodeC. rewrite !(al_has o g g' A).
  destruct (g_has g BLOCK1) eqn:H1; [|reflexivity]. destruct (g_has g BLOCK2) eqn:H2; [|reflexivity].
  destruct (g_has g BLOCK3) eqn:H3; [|reflexivity]. destruct (g_has g BLOCK4) eqn:H4; [|reflexivity].
  cbn [negb orb]. unfold decodeC_rft, decodeC_assign. rewrite (al_get o g g' A _ H1), (al_get o g g' A _ H2), (al_get o g g' A _ H3), (al_get o g g' A _ H4). reflexivity.
Qed.

(* What is needed of a group: its type is known from block 2; blocks 3 and 4 received if the decoder does not check *)
Definition needs (st : Station) (g : Group) : Prop :=
  g_has_type g = true -> gt_version (g_type g) <> VC ->
  g_has g BLOCK2 = true /\
  ((gt_number (g_type g) = 5 \/ find_type (g_type g) (st_oda_app_for_group st) = Some 0x0093 \/ find_type (g_type g) (st_oda_app_for_group st) = Some 0x6552) ->
   g_has g BLOCK3 = true /\ g_has g BLOCK4 = true).
Lemma al_by_type : forall env o g g' st j, alike o g g' -> g_has_type g = true -> needs st g -> decodeByType env o st g' j = decodeByType env o st g j.
Proof.
  intros env o g g' st j A T Nd. destruct (Version_eqb (gt_version (g_type g)) VC) eqn:V.
  - unfold decodeByType. cbv zeta. rewrite (al_type o g g' A), V. exact (al_C o g g' A st j).
  - assert (V' : gt_version (g_type g) <> VC) by (intros X; rewrite X in V; discriminate).
    destruct (Nd T V') as [R2 U]. exact (al_AB o g g' A R2 st U env j V').
Qed.
Lemma al_update : forall env o g g' st, alike o g g' -> needs st g -> updateAndPrint env o st g' = updateAndPrint env o st g.
Proof.
  intros env o g g' st A Nd. unfold updateAndPrint. cbv zeta.
  rewrite (al_hasPI o g g' A), (al_empty o g g' A), (al_type o g g' A), (al_has_type o g g' A), (al_stream o g g' A).
  destruct (negb (st_has_pi st)); [reflexivity|].
  destruct (if o_streams o then _ else _) as [j|m|m]; cbn [bind]; [|reflexivity|reflexivity].
  assert (F : forall st0 j, needs st0 g ->
    (j0 <- decodeHeader env o st0 g' j ;; j1 <- decodeBasics o g' j0 ;; '(st1, j2) <- (if g_has_type g then decodeByType env o st0 g' j1 else Ok (st0, j1)) ;; text <- print_json env j2 ;; Ok (st1, Some text)) =
    (j0 <- decodeHeader env o st0 g j ;; j1 <- decodeBasics o g j0 ;; '(st1, j2) <- (if g_has_type g then decodeByType env o st0 g j1 else Ok (st0, j1)) ;; text <- print_json env j2 ;; Ok (st1, Some text))).
  { intros st0 j1 Nd0. rewrite (al_header o g g' A). apply bind_ext. intros j2. rewrite (al_basics o g g' A). apply bind_ext. intros j3.
    destruct (g_has_type g) eqn:T; [|reflexivity]. rewrite (al_by_type env o g g' st0 j3 A T Nd0). reflexivity. }
  destruct (Version_eqb _ VC); [apply F, Nd|]. destruct (_ && _); [reflexivity|]. destruct (g_isEmpty g); [reflexivity|].
  apply bind_ext. intros j1. apply bind_ext. intros j2. apply F. exact Nd.
Qed.

Lemma al_prepared : forall o now now' c g g' w, (o_timestamp o = true -> now = now') -> alike o g g' -> alike o (prepared o now c g w) (prepared o now' c g' w).
Proof.
  intros o now now' c g g' w N A. destruct A as (Ah & Ag & At & Aht & Atm & Ab & Abl & Ads & Ae & Ap & Ap').
  assert (Hh : forall x n b, g_has (prepared o n c x w) b = g_has x b) by (intros; unfold g_has; rewrite prepared_block; reflexivity).
  assert (Hg : forall x n b, g_get (prepared o n c x w) b = g_get x b) by (intros; unfold g_get; rewrite prepared_block; reflexivity).
  assert (Hp : forall x n, g_getPI (prepared o n c x w) = g_getPI x).
  { intros x n. pose proof (prepared_block o n c x w BLOCK1) as P1. pose proof (prepared_block o n c x w BLOCK3) as P3. cbn [g_block] in P1, P3. unfold g_getPI. rewrite P1, P3. reflexivity. }
  assert (Hq : forall x n, g_hasPI (prepared o n c x w) = (w =? 0) && g_hasPI x).
  { intros x n. pose proof (prepared_block o n c x w BLOCK1) as P1. pose proof (prepared_block o n c x w BLOCK3) as P3. cbn [g_block] in P1, P3. unfold g_hasPI. rewrite P1, P3, prepared_type. destruct (w =? 0); reflexivity. }
  assert (He : forall x n, g_getNumErrors (prepared o n c x w) = g_getNumErrors x).
  { intros x n. pose proof (prepared_block o n c x w BLOCK1) as P1. pose proof (prepared_block o n c x w BLOCK2) as P2. pose proof (prepared_block o n c x w BLOCK3) as P3. pose proof (prepared_block o n c x w BLOCK4) as P4.
    cbn [g_block] in P1, P2, P3, P4. unfold g_getNumErrors. rewrite P1, P2, P3, P4. reflexivity. }
  split; [intros b; rewrite !Hh; apply Ah|]. split; [intros b; rewrite Hh, !Hg; apply Ag|]. split; [rewrite !prepared_type, At; reflexivity|]. split; [rewrite !prepared_has_type, Aht; reflexivity|].
  assert (AE : o_bler o = true -> next_avg o c (stamped o now' c g') = next_avg o c (stamped o now c g)).
  { intros Hb. unfold next_avg. rewrite Hb, !stamped_errors, (Ae Hb). reflexivity. }
  split.
  { intros Ht. destruct (Atm Ht) as [T1 T2]. rewrite <- (N Ht). unfold prepared, streamed, measured, stamped. rewrite Ht, T2.
    destruct (g_has_time g) eqn:Q, (o_bler o), (w =? 0); cbn; split; congruence. }
  split; [unfold prepared, streamed, measured, stamped; destruct (o_timestamp o && negb (g_has_time g)), (o_timestamp o && negb (g_has_time g')), (o_bler o), (w =? 0); cbn; congruence|].
  split.
  { unfold prepared. assert (S : forall x, g_bler (streamed x w) = g_bler x) by (intros x; unfold streamed; destruct (w =? 0); reflexivity). rewrite !S. unfold measured.
    destruct (o_bler o) eqn:Hb; [cbn [g_bler g_setAverageBLER]; rewrite (AE eq_refl); reflexivity|]. unfold stamped. destruct (o_timestamp o && negb (g_has_time g)), (o_timestamp o && negb (g_has_time g')); exact Abl. }
  split; [unfold prepared, streamed; destruct (w =? 0); reflexivity|]. split; [intros Hb; rewrite !He; apply Ae, Hb|]. split; [rewrite !Hq, Ap; reflexivity|rewrite !Hp; exact Ap'].
Qed.
Lemma al_process : forall env o now now' c g g' w, (o_timestamp o = true -> now = now') -> alike o g g' -> (let g1 := prepared o now c g w in needs (tuned c g1) g1) ->
  processGroup env o now' c g' w = processGroup env o now c g w.
Proof.
  intros env o now now' c g g' w N A Nd. pose proof (al_prepared o now now' c g g' w N A) as P. cbv zeta in Nd. rewrite !process_eq. cbv zeta.
  assert (Ev : next_avg o c g' = next_avg o c g).
  { unfold next_avg. destruct A as (_ & _ & _ & _ & _ & _ & _ & _ & Ae & _). destruct (o_bler o); [rewrite Ae by reflexivity|]; reflexivity. }
  assert (Et : stamp_time o now' c g' = stamp_time o now c g).
  { unfold stamp_time. rewrite (al_has_time o g g' A). destruct (o_timestamp o) eqn:T; [rewrite (N eq_refl)|]; reflexivity. }
  rewrite Ev, Et. set (g1 := prepared o now c g w) in *. set (g1' := prepared o now' c g' w) in *.
  assert (T : tuned c g1' = tuned c g1) by (unfold tuned, next_pi; rewrite (al_hasPI o g1 g1' P), (al_getPI o g1 g1' P); reflexivity).
  assert (Np : next_pi c g1' = next_pi c g1) by (unfold next_pi; rewrite (al_hasPI o g1 g1' P), (al_getPI o g1 g1' P); reflexivity).
  rewrite T, Np. destruct (o_output_type o).
  - unfold printAsHex. rewrite (al_empty o g1 g1' P), (al_stream o g1 g1' P), (al_printHex o g1 g1' P). pose proof (al_time o g1 g1' P) as Tm.
    destruct (o_timestamp o); [rewrite Tm by reflexivity|]; reflexivity.
  - rewrite (al_update env o g1 g1' _ P Nd). reflexivity.
Qed.

(* Applications known to the station were announced *)
Definition known (h : list (Group * N)) (c : Channel) : Prop := exists h', incl h' h /\ oda_inv h' (ch_station c).
Lemma known_step : forall env o now c g w c' line h, host_ok env -> ch_ok c -> received_group (now, g, w) ->
  processGroup env o now c g w = Ok (c', line) -> known h c -> known (h ++ [(g, w)]) c'.
Proof.
  intros env o now c g w c' line h H Hc R E (h' & I & O). set (g1 := prepared o now c g w).
  assert (Tn : exists h', incl h' h /\ oda_inv h' (tuned c g1)).
  { destruct (tuned_cases c g1) as [->|[p ->]]; [exists h'; split; assumption|]. exists []. split; [intros x []|reflexivity]. }
  destruct Tn as (h2 & I2 & O2).
  assert (Mono : incl h2 (h ++ [(g, w)])) by (intros x X; apply in_or_app; left; apply I2, X).
  destruct (o_output_type o) eqn:OT.
  - rewrite process_eq in E. cbv zeta in E. rewrite OT in E. injection E as <- _. exists h2. split; [exact Mono|exact O2].
  - assert (Hb : g_has_bler g = false) by apply R.
    destruct (process_cases env o now c g w c' line H OT Hc Hb E) as [[_ S]|(l & j & _ & D & _)].
    + exists h2. split; [exact Mono|]. rewrite S. unfold oda_inv. fold g1. rewrite had_oda. exact O2.
    + exists (h2 ++ [(g, w)]). split.
      * intros x X. apply in_app_or in X. apply in_or_app. destruct X as [X|X]; [left; apply I2, X|right; exact X].
      * eapply oda_step; eassumption.
Qed.

Definition alike_reception (o : Options) (x x' : Z * Group * N) : Prop :=
  (o_timestamp o = true -> fst (fst x) = fst (fst x')) /\ snd x = snd x' /\ alike o (snd (fst x)) (snd (fst x')).
Lemma al_run : forall env o gs gs' h c, host_ok env -> ch_ok c -> Forall received_group gs -> Forall2 (alike_reception o) gs gs' -> known h c ->
  Forall (fun x => snd x = 0 -> g_has_type (snd (fst x)) = true -> blk_is_received (g_b2 (snd (fst x))) = true) gs ->
  (forall gs1 x gs2, gs = gs1 ++ x :: gs2 -> unchecked (h ++ groups_of gs1) (snd (fst x), snd x) ->
     blk_is_received (g_b3 (snd (fst x))) = true /\ blk_is_received (g_b4 (snd (fst x))) = true) ->
  run_groups env o c gs' = run_groups env o c gs.
Proof.
  intros env o gs. induction gs as [|[[now g] w] gs IH]; intros gs' h c H Hc F Al K T U; inversion Al as [|? [[now' g'] w'] ? gs1 A1 A2]; subst; [reflexivity|].
  destruct A1 as (E1 & E2 & A1). cbn [fst snd] in E1, E2, A1. subst w'. cbn [run_groups].
  inversion F as [|? ? R F']; subst. inversion T as [|? ? T1 T']; subst. cbn [fst snd] in T1.
  assert (P : processGroup env o now' c g' w = processGroup env o now c g w).
  { apply al_process; [exact E1|exact A1|]. cbv zeta. intros Ht V. rewrite prepared_has_type in Ht. rewrite prepared_type in V |- *.
    destruct (N.eqb_spec w 0) as [->|_]; [|exfalso; apply V; reflexivity].
    unfold g_has. rewrite !prepared_block. cbn [g_block]. split; [apply T1; [reflexivity|exact Ht]|].
    intros Q. apply (U [] (now, g, 0) gs eq_refl). split; [reflexivity|]. cbn [fst snd]. split; [exact Ht|].
    assert (Fnd : forall a, find_type (g_type g) (st_oda_app_for_group (tuned c (prepared o now c g 0))) = Some a -> In (g_type g, a) (flat_map announcement (h ++ groups_of []))).
    { intros a X. destruct (tuned_cases c (prepared o now c g 0)) as [Y|[p Y]]; rewrite Y in X; [|discriminate X].
      destruct K as (h' & Ih & Oh). unfold oda_inv in Oh. rewrite Oh in X. apply find_rev in X. rewrite in_flat_map in X |- *. destruct X as (y & Y1 & Y2).
      exists y. split; [apply in_or_app; left; apply Ih, Y1|exact Y2]. }
    destruct Q as [Q|[Q|Q]]; [left; exact Q|right; left; apply Fnd, Q|right; right; apply Fnd, Q]. }
  rewrite P. destruct (processGroup env o now c g w) as [[c1 l1]|m|m] eqn:E; cbn [bind]; [|reflexivity|reflexivity].
  rewrite (IH gs1 (h ++ [(g, w)]) c1 H); [reflexivity| |exact F'|exact A2| |exact T'|].
  - destruct (host_env env H) as [Ee _]. exact (process_kept env o now c g w c1 l1 Ee Hc (proj1 R) E).
  - eapply known_step; eassumption.
  - intros a x b -> Q. apply (U ((now, g, w) :: a) x b eq_refl). rewrite <- app_assoc in Q. exact Q.
Qed.
Lemma same_receptions : forall o gs gs', Forall2 same_reception gs gs' -> Forall2 (alike_reception o) gs gs'.
Proof.
  intros o gs gs' F. induction F as [|x x' gs gs' (E1 & E2 & S) _ IH]; constructor; [|exact IH].
  split; [intros _; exact E1|]. split; [exact E2|apply same_alike, S].
Qed.
