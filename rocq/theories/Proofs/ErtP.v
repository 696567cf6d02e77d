(* Enhanced RadioText. *)
From Verif.Model Require Import Util Group Options Tables Json Freq RdsString Tmc Station Channel.
From Verif.Spec Require Import Numerals Unicode JsonText Session Identity History Quality Texts Apps Traffic Enhanced.
From Verif.Proofs Require Import Tac Numerals JsonP Utf8P Schema StationP TextP CleanP UpdateP SessionP LineP FrameP ChannelP LinesP HistoryP ShowP TraceP KeysP GetP FieldsP StringP PsP RtP EndP LpsP AppsP TmcP.

Local Open Scope string_scope.
Local Open Scope N_scope.
Local Open Scope list_scope.

#[local] Strategy 1000 [set_all s_set s_isComplete s_str s_last_complete_string header].

(* The bytes written by the program: block 3 is taken whether or not it was received *)
Definition ert_written (t : GroupType) (x : Group * N) : Texts.writes :=
  let '(g, w) := x in
  if (w =? 0) && g_has_type g && GroupType_eqb (g_type g) t then
    let n := 4 * (blk_data (g_b2 g) mod 32) in
    [(n, hi (blk_data (g_b3 g))); (n + 1, lo (blk_data (g_b3 g)))] ++
    (if blk_is_received (g_b4 g) then [(n + 2, hi (blk_data (g_b4 g))); (n + 3, lo (blk_data (g_b4 g)))] else [])
  else [].
Definition ert_seg (g : Group) : Texts.writes :=
  let n := getBits 5 (g_get g BLOCK2) 0 * 4 in
  [(n, getUint8 (g_get g BLOCK3) 8); (n + 1, getUint8 (g_get g BLOCK3) 0)] ++
  (if g_has g BLOCK4 then [(n + 2, getUint8 (g_get g BLOCK4) 8); (n + 3, getUint8 (g_get g BLOCK4) 0)] else []).
Lemma eqb_types : forall a b, GroupType_eqb a b = true -> a = b.
Proof.
  intros [n v] [n' v'] E. unfold GroupType_eqb in E. cbn [gt_number gt_version] in E. apply andb_prop in E. destruct E as [E1 E2]. apply N.eqb_eq in E1. subst. f_equal.
  destruct v, v'; try discriminate; reflexivity.
Qed.
Lemma apps_not_C : forall t, In t for_applications -> gt_version t <> VC.
Proof. intros t X. repeat (destruct X as [<-|X]; [discriminate|]). destruct X. Qed.
Lemma apps_not_3A : forall t, In t for_applications -> (gt_number t =? 3) && Version_eqb (gt_version t) VA = false.
Proof. intros t X. repeat (destruct X as [<-|X]; [reflexivity|]). destruct X. Qed.
Lemma written_prepared : forall t o now c g w, In t for_applications -> received_group (now, g, w) -> let g' := prepared o now c g w in
  ert_written t (g, w) = if g_has_type g' && GroupType_eqb (g_type g') t then ert_seg g' else [].
Proof.
  intros t o now c g w Ta (_ & R1 & R2 & R3 & R4) g'. unfold ert_written, ert_seg, g_has, g'.
  rewrite !prepared_type, !prepared_has_type, !prepared_get, !prepared_block. destruct (w =? 0) eqn:Ew; cbn [andb].
  2: { match goal with |- context [GroupType_eqb ?a t] => destruct (GroupType_eqb a t) eqn:E end; [|rewrite ?andb_false_r; reflexivity].
       apply eqb_types in E. exfalso. apply (apps_not_C t Ta). rewrite <- E. reflexivity. }
  destruct (g_has_type g && GroupType_eqb (g_type g) t); [|reflexivity].
  unfold g_get. cbn [g_block].
  destruct (hi_bits _ R4) as [-> _]. destruct (lo_bits (blk_data (g_b4 g))) as [-> _]. destruct (hi_bits _ R3) as [-> _]. destruct (lo_bits (blk_data (g_b3 g))) as [-> _].
  rewrite getBits_arith. change (2 ^ 0) with 1. change (2 ^ 5) with 32. rewrite N.div_1_r, (N.mul_comm _ 4). reflexivity.
Qed.
Lemma written_bytes : forall t h, Forall (fun x => received_group (0%Z, fst x, snd x)) h -> Forall (fun pb => snd pb < 256) (flat_map (ert_written t) h).
Proof.
  intros t h F. apply Forall_flat_map. eapply Forall_impl; [|exact F]. intros [g w] (_ & R1 & R2 & R3 & R4). cbn [fst snd] in *. unfold ert_written.
  destruct ((w =? 0) && _ && _); [|constructor].
  destruct (hi_bits _ R4) as [_ X1]. destruct (lo_bits (blk_data (g_b4 g))) as [_ X2]. destruct (hi_bits _ R3) as [_ X3]. destruct (lo_bits (blk_data (g_b3 g))) as [_ X4].
  apply Forall_app. split; [|destruct (blk_is_received _); [|constructor]]; repeat constructor; cbn [fst snd]; assumption.
Qed.
Lemma whole_written : forall t h, ert_whole t h -> flat_map (ert_written t) h = flat_map (ert_segment t) h.
Proof.
  intros t h. induction h as [|[g w] h IH]; intros H; [reflexivity|]. cbn [flat_map]. rewrite IH by (intros g0 X; apply H; right; exact X). f_equal.
  unfold ert_written, ert_segment. destruct (N.eqb_spec w 0) as [->|_]; [|reflexivity]. destruct (g_has_type g) eqn:Ht; [|reflexivity]. destruct (GroupType_eqb (g_type g) t) eqn:E; [|reflexivity].
  cbn [andb]. rewrite (H g (or_introl eq_refl) Ht (eqb_types _ _ E)). reflexivity.
Qed.

(* What happens to the text *)
Inductive event := Assigned | Sent (w : N * N).
Definition events (t : GroupType) (x : Group * N) : list event :=
  flat_map (fun ta => if GroupType_eqb (fst ta) t then [Assigned] else []) (announcement x) ++ map Sent (ert_written t x).
Definition start (m : N) (s : RDSString) : RDSString :=
  s_setDirection (s_setEncoding s (if getBool m 0 then EncUTF8 else EncUCS2)) (if getBool m 1 then RTL else LTR).
Definition ev_do (u : bytes -> option bytes) (m : N) (s : bool * RDSString) (e : event) : bool * RDSString :=
  let '(on, s) := s in
  match e with
  | Assigned => (true, start m s)
  | Sent w => (on, if on then s_set u s (fst w) (snd w) else s)
  end.
Definition sents (l : list event) : Texts.writes := flat_map (fun e => match e with Assigned => [] | Sent w => [w] end) l.
Lemma sents_app : forall a b, sents (a ++ b) = sents a ++ sents b.
Proof. intros a b. apply flat_map_app. Qed.
Lemma sents_events : forall t h, sents (flat_map (events t) h) = flat_map (ert_written t) h.
Proof.
  intros t h. induction h as [|x h IH]; [reflexivity|]. cbn [flat_map]. rewrite sents_app, IH. f_equal. unfold events. rewrite sents_app.
  assert (X : forall l : list (GroupType * N), sents (flat_map (fun ta => if GroupType_eqb (fst ta) t then [Assigned] else []) l) = []).
  { induction l as [|a l IHl]; [reflexivity|]. cbn [flat_map]. rewrite sents_app, IHl. destruct (GroupType_eqb _ _); reflexivity. }
  rewrite X. cbn [app]. induction (ert_written t x) as [|e l IHl]; [reflexivity|]. cbn [map sents flat_map app]. f_equal. exact IHl.
Qed.
Definition settled (m : N) (s : RDSString) : Prop :=
  s_encoding s = (if getBool m 0 then EncUTF8 else EncUCS2) /\ s_direction s = (if getBool m 1 then RTL else LTR).
Lemma settled_start : forall m s, settled m (start m s).
Proof. split; reflexivity. Qed.
Lemma start_id : forall m s, settled m s -> start m s = s.
Proof. intros m [e d x p q r] [E1 E2]. cbn [s_encoding s_direction] in *. unfold start, s_setEncoding, s_setDirection. cbn. rewrite E1, E2. reflexivity. Qed.
Lemma settled_set : forall m u s p b, settled m s -> settled m (s_set u s p b).
Proof.
  intros m u s p b [E1 E2]. unfold s_set. cbv zeta. destruct (_ <=? p); [split; assumption|]. destruct (s_isComplete _); [destruct (s_str u _)|]; split; assumption.
Qed.
Lemma fold_on : forall u m l s, settled m s -> fold_left (ev_do u m) l (true, s) = (true, set_all u s (sents l)).
Proof.
  intros u m l. induction l as [|e l IH]; intros s S; [reflexivity|]. cbn [fold_left ev_do]. destruct e as [|w].
  - rewrite IH by apply settled_start. rewrite (start_id _ _ S). reflexivity.
  - rewrite IH by (apply settled_set, S). reflexivity.
Qed.
Lemma fold_off : forall u m l s, (~ In Assigned l /\ fold_left (ev_do u m) l (false, s) = (false, s)) \/
  exists a b, l = a ++ Assigned :: b /\ ~ In Assigned a /\ fold_left (ev_do u m) l (false, s) = (true, set_all u (start m s) (sents b)).
Proof.
  intros u m l. induction l as [|e l IH]; intros s; [left; split; [intros []|reflexivity]|]. cbn [fold_left ev_do]. destruct e as [|w].
  - right. exists [], l. split; [reflexivity|]. split; [intros []|]. apply fold_on, settled_start.
  - destruct (IH s) as [[N0 E]|(a & b & E & N0 & F)].
    + left. split; [|exact E]. intros [X|X]; [discriminate|exact (N0 X)].
    + right. exists (Sent w :: a), b. split; [rewrite E; reflexivity|]. split; [|exact F]. intros [X|X]; [discriminate|exact (N0 X)].
Qed.
Lemma set_all_events : forall u m on l s, fold_left (ev_do u m) (map Sent l) (on, s) = (on, if on then set_all u s l else s).
Proof.
  intros u m on l. induction l as [|w l IH]; intros s; [destruct on; reflexivity|]. cbn [map fold_left ev_do]. rewrite IH. destruct on; reflexivity.
Qed.

(* The application of a group type *)
Lemma only_found : forall t m h st tt a, ert_only t m h -> oda_inv h st -> find_type tt (st_oda_app_for_group st) = Some a -> (a = 0x6552 \/ tt = t -> tt = t /\ a = 0x6552) /\ a <> 0x4BD8.
Proof.
  intros t m h st tt a O I E. unfold oda_inv in I. rewrite I in E. apply find_rev in E.
  assert (X : exists mm, In (Announced tt a mm) (flat_map app_items h)).
  { apply in_flat_map in E. destruct E as ([g w] & X1 & X2). exists (blk_data (g_b3 g)). apply in_flat_map. exists (g, w). split; [exact X1|]. unfold app_items. apply in_or_app. left.
    apply in_map_iff. exists (tt, a). split; [reflexivity|exact X2]. }
  destruct X as [mm X]. destruct (O _ _ _ X) as [O1 O2]. split; [|exact O2]. intros Y. destruct (O1 Y) as (A & B & _). auto.
Qed.
Lemma only_sub : forall t m a b, (forall x, In x a -> In x b) -> ert_only t m b -> ert_only t m a.
Proof.
  intros t m a b S O t' x y X. apply (O t' x y). apply in_flat_map in X. destruct X as (z & X1 & X2). apply in_flat_map. exists z. split; [apply S, X1|exact X2].
Qed.
Lemma no_ert_fields : forall st g, (gt_number (g_type g) =? 3) && Version_eqb (gt_version (g_type g)) VA = false ->
  (forall a, find_type (g_type g) (st_oda_app_for_group st) = Some a -> a <> 0x6552 /\ a <> 0x4BD8) -> off (group_fields st g) Fert.
Proof.
  intros st g E3 T. unfold off, group_fields. cbv zeta. destruct (Version_eqb (gt_version (g_type g)) VC) eqn:Hv; [reflexivity|].
  destruct (gt_number (g_type g) =? 0); [reflexivity|]. destruct (gt_number (g_type g) =? 1); [reflexivity|]. destruct (gt_number (g_type g) =? 2); [reflexivity|].
  destruct (oda_type g) eqn:Od.
  - destruct (find_type _ _) as [a|].
    + destruct (T a eq_refl) as [T1 T2]. apply N.eqb_neq in T1, T2. unfold app_fields. rewrite T1, T2. destruct (a =? 0x4BD7); [reflexivity|]. cbn [orb]. by_cases.
    + by_cases.
  - destruct (gt_number (g_type g) =? 3) eqn:Z3; [|by_cases].
    exfalso. cbn [andb] in E3. apply N.eqb_eq in Z3. unfold oda_type in Od. cbv zeta in Od. rewrite Hv, Z3, E3 in Od. cbn in Od. rewrite andb_false_r in Od. discriminate.
Qed.

Lemma parseEnhanced_eq : forall env st g j, parseEnhancedRT env st g j =
  let t := set_all (env_ucs2 env) (rt_text (st_ert st)) (ert_seg g) in
  let st := set_ert st (rt_set_text (st_ert st) t) in
  if s_isComplete t then
    j <- jset ["enhanced_radiotext"%string] (JStr (rtrim (s_last_complete_string t))) j ;; Ok (st, j)
  else Ok (st, j).
Proof.
  intros env st g j. unfold parseEnhancedRT, ert_seg, rt_update, s_set2. cbv zeta.
  destruct (g_has g BLOCK4); unfold set_all; cbn [app fold_left fst snd]; rewrite <- ?N.add_assoc; reflexivity.
Qed.
Lemma had_ert : forall st g, st_ert (had st g) = st_ert st.
Proof. intros st g. unfold had. destruct (_ || _); reflexivity. Qed.

Definition found (t : GroupType) (st : Station) : bool := match find_type t (st_oda_app_for_group st) with Some _ => true | None => false end.
Definition ert_inv (u : bytes -> option bytes) (t : GroupType) (m : N) (h : list (Group * N)) (st : Station) : Prop :=
  Forall (fun x => received_group (0%Z, fst x, snd x)) h /\ oda_inv h st /\
  (ert_only t m h -> (found t st, rt_text (st_ert st)) = fold_left (ev_do u m) (flat_map (events t) h) (false, RDSString_new 64)).
Lemma ert_new : forall u t m w, ert_inv u t m [] (Station_new w).
Proof. intros u t m w. split; [constructor|]. split; reflexivity. Qed.
Lemma ert_new_pi : forall u t m w p, ert_inv u t m [] (Station_new_pi w p).
Proof. intros u t m w p. split; [constructor|]. split; reflexivity. Qed.
Lemma ert_had : forall u t m h st g, ert_inv u t m h st -> ert_inv u t m h (had st g).
Proof.
  intros u t m h st g (F & Io & I). split; [exact F|]. split; [unfold oda_inv in *; rewrite had_oda; exact Io|]. intros O. rewrite <- (I O). unfold found. rewrite had_oda, had_ert. reflexivity.
Qed.

Lemma ert_step : forall t m env o h st now c g w st' j, In t for_applications -> ert_inv (env_ucs2 env) t m h st -> received_group (now, g, w) ->
  decoded env o st (prepared o now c g w) = Ok (st', j) -> ert_inv (env_ucs2 env) t m (h ++ [(g, w)]) st'.
Proof.
  intros t m env o h st now c g w st' j Ta (F & Io & I) R D. pose proof (oda_step env o h st now c g w st' j Io R D) as Io'.
  split; [apply Forall_app; split; [exact F|constructor; [exact R|constructor]]|]. split; [exact Io'|].
  intros O'. assert (O : ert_only t m h) by (eapply only_sub; [|exact O']; intros x X; apply in_or_app; auto). specialize (I O).
  rewrite flat_map_app, fold_left_app, <- I. cbn [flat_map]. rewrite app_nil_r. clear I.
  assert (Eo : st_oda_app_for_group st' = rev (announcement (g, w)) ++ st_oda_app_for_group st).
  { unfold oda_inv in Io, Io'. rewrite Io', Io, flat_map_app, rev_app_distr. cbn [flat_map]. rewrite app_nil_r. reflexivity. }
  unfold events. rewrite fold_left_app, (written_prepared t o now c g w Ta R). cbv zeta.
  assert (Oa : forall t' a, announcement (g, w) = [(t', a)] -> (a = 0x6552 \/ t' = t -> t' = t /\ a = 0x6552 /\ g_get (prepared o now c g w) BLOCK3 = m)).
  { intros t' a An X. destruct (O' t' a (blk_data (g_b3 g))) as [Y _]; [|rewrite prepared_get; exact (Y X)].
    rewrite flat_map_app. apply in_or_app. right. cbn [flat_map]. rewrite app_nil_r. unfold app_items. rewrite An. left. reflexivity. }
  pose proof (announce_prepared o now c g w R) as An. cbv zeta in An. set (g' := prepared o now c g w) in *.
  pose proof (decoded_frame env o st g' _ D) as Fr. cbn [fst] in Fr. destruct Fr as (_ & _ & _ & _ & _ & Fe & _). rewrite had_ert in Fe.
  unfold decoded in D. destruct (g_has_type g') eqn:Ht; cbn [negb orb andb] in *.
  2: { rewrite An in *. cbn [flat_map map fold_left app rev] in *. unfold found. rewrite Eo, Fe by reflexivity. reflexivity. }
  destruct ((gt_number (g_type g') =? 3) && Version_eqb (gt_version (g_type g')) VA) eqn:E3.
  - assert (Nt : GroupType_eqb (g_type g') t = false).
    { destruct (GroupType_eqb (g_type g') t) eqn:E; [|reflexivity]. apply eqb_types in E. rewrite <- E in Ta. rewrite (apps_not_3A _ Ta) in E3. discriminate. }
    rewrite Nt. cbn [andb map fold_left]. apply andb_prop in E3. destruct E3 as [E3 Ea].
    assert (Hv : Version_eqb (gt_version (g_type g')) VC = false) by (destruct (gt_version (g_type g')); try discriminate; reflexivity).
    rewrite Hv, E3, Ea in An. cbn [andb negb] in An. rewrite andb_true_r in An.
    unfold decodeByType in D. cbv zeta in D. apply N.eqb_eq in E3. rewrite Hv, E3, Ea in D. cbn [N.eqb Pos.eqb andb] in D.
    unfold decodeType3A in D. cbv zeta in D. rewrite Ea in D. cbn [negb] in D.
    destruct (g_has g' BLOCK3 && g_has g' BLOCK4); cbn [negb] in D.
    2: { rewrite An in *. cbn [flat_map fold_left rev app] in *. unfold found. rewrite Eo. injection D as <- _. rewrite had_ert. reflexivity. }
    specialize (Oa _ _ An). rewrite An in *. cbn [flat_map rev app fst] in *. rewrite app_nil_r. unfold found. rewrite Eo. cbn [find_type].
    set (t' := GroupType_of (getBits 5 (g_get g' BLOCK2) 0)) in *. remember (g_get g' BLOCK4) as a eqn:Eqa.
    assert (Sw : GroupType_eqb t t' = GroupType_eqb t' t).
    { destruct (GroupType_eqb t' t) eqn:E; [apply eqb_types in E; rewrite E; apply eqb_type|]. destruct (GroupType_eqb t t') eqn:E2; [|reflexivity]. apply eqb_types in E2. rewrite E2, eqb_type in E. discriminate. }
    rewrite Sw. unbind D. unbind D.
    assert (Tx : rt_text (st_ert st') = if a =? 0x6552 then start (g_get g' BLOCK3) (rt_text (st_ert st)) else rt_text (st_ert st)).
    { rewrite <- (had_ert st g'). destruct (N.eqb_spec a 0x0093) as [->|_]; [injection D as <- _; reflexivity|].
      destruct (N.eqb_spec a 0x4BD7) as [->|_]; [injection D as <- _; reflexivity|].
      destruct (N.eqb_spec a 0x4BD8) as [->|_]; [injection D as <- _; reflexivity|].
      destruct (N.eqb_spec a 0x6552) as [->|_]; [injection D as <- _; reflexivity|].
      destruct ((a =? 0xCD46) || (a =? 0xCD47)).
      - unbind D. destruct y1 as [s1 j1]. injection D as <- _. reflexivity.
      - unbind D. unbind D. injection D as <- _. reflexivity. }
    rewrite Tx. destruct (GroupType_eqb t' t) eqn:Et.
    + apply eqb_types in Et. destruct (Oa (or_intror Et)) as (_ & -> & ->). reflexivity.
    + cbn [fold_left]. destruct (N.eqb_spec a 0x6552) as [X|_]; [|reflexivity]. destruct (Oa (or_introl X)) as (Y & _). rewrite Y, eqb_type in Et. discriminate.
  - assert (An0 : announcement (g, w) = []).
    { rewrite An. replace (negb (Version_eqb (gt_version (g_type g')) VC) && (gt_number (g_type g') =? 3) && (g_has g' BLOCK3 && g_has g' BLOCK4 && Version_eqb (gt_version (g_type g')) VA)) with false; [reflexivity|].
      destruct (gt_number (g_type g') =? 3); [|rewrite andb_false_r; reflexivity]. cbn [andb] in E3. rewrite E3, !andb_false_r. reflexivity. }
    rewrite An0 in *. cbn [flat_map rev app fold_left] in *. unfold found. rewrite Eo.
    destruct (GroupType_eqb (g_type g') t) eqn:Et.
    + apply eqb_types in Et. rewrite set_all_events. destruct (find_type t (st_oda_app_for_group st)) as [a|] eqn:Ef.
      * destruct (only_found t m h st t a O Io Ef) as [Y _]. destruct (Y (or_intror eq_refl)) as [_ ->].
        rewrite (oda_dispatch env o (had st g') g' _ 0x6552) in D; [|apply for_apps; rewrite Et; exact Ta|rewrite had_oda, Et; exact Ef].
        unfold decodeODAGroup in D. rewrite had_oda, Et, Ef in D. cbn [N.eqb Pos.eqb] in D. rewrite parseEnhanced_eq in D. cbv zeta in D. rewrite had_ert in D.
        destruct (s_isComplete _); [unbind D|]; injection D as <- _; reflexivity.
      * rewrite Fe; [reflexivity|]. apply no_ert_fields; [exact E3|]. rewrite had_oda, Et, Ef. discriminate.
    + cbn [map fold_left]. rewrite Fe; [reflexivity|]. apply no_ert_fields; [exact E3|]. rewrite had_oda. intros a Ef. destruct (only_found t m h st _ a O Io Ef) as [Y1 Y2].
      split; [|exact Y2]. intros ->. destruct (Y1 (or_introl eq_refl)) as [Y _]. rewrite Y, eqb_type in Et. discriminate.
Qed.

(* Which group shows the text *)
Lemma ert_cases : forall t m env o h st g st' j, In t for_applications -> ert_only t m h -> oda_inv h st -> decoded env o st g = Ok (st', j) ->
  (g_has_type g = true /\ g_type g = t /\ found t st = true /\ parseEnhancedRT env (had st g) g (JObj (header env o st g)) = Ok (st', j)) \/
  (g_has_type g = true -> existsb (String.eqb "enhanced_radiotext") (type_keys o st g) = false).
Proof.
  intros t m env o h st g st' j Ta O Io D. destruct (g_has_type g) eqn:Ht; [|right; discriminate].
  destruct (find_type (g_type g) (st_oda_app_for_group st)) as [a|] eqn:Ef.
  - destruct (N.eqb_spec a 0x6552) as [->|Na].
    + left. split; [reflexivity|]. destruct (only_found t m h st _ _ O Io Ef) as [Y _]. destruct (Y (or_introl eq_refl)) as [Et _]. split; [exact Et|].
      split; [unfold found; rewrite <- Et, Ef; reflexivity|].
      unfold decoded in D. rewrite Ht in D. rewrite (oda_dispatch env o (had st g) g _ 0x6552) in D; [|apply for_apps; rewrite Et; exact Ta|rewrite had_oda; exact Ef].
      unfold decodeODAGroup in D. rewrite had_oda, Ef in D. exact D.
    + right. intros _. unfold type_keys, app_keys. cbv zeta. rewrite Ef. apply N.eqb_neq in Na. rewrite Na. by_cases.
  - right. intros _. unfold type_keys. cbv zeta. rewrite Ef. by_cases.
Qed.

Lemma start_tracks : forall m, tracks 64 (start m (RDSString_new 64)) [].
Proof. intros m. destruct (new_tracks 64) as (A & B & C & D). unfold start, s_setEncoding, s_setDirection, tracks. cbn [s_data s_sequential_length s_prev_pos]. auto. Qed.
Lemma utf8_start : forall m s, in_utf8 m -> s_encoding (start m s) = EncUTF8.
Proof. intros m s H. unfold start. cbn. rewrite getBool_testbit, H. reflexivity. Qed.
Lemma whole_sub : forall t a b, (forall x, In x a -> In x b) -> ert_whole t b -> ert_whole t a.
Proof. intros t a b S W g X. apply W, S, X. Qed.
Lemma short_sub : forall t a b, (forall x, In x a -> In x b) -> ert_short t b -> ert_short t a.
Proof.
  intros t a b S W. unfold ert_short in *. rewrite Forall_forall in *. intros pb X. apply W. apply in_flat_map in X. destruct X as (x & X1 & X2). apply in_flat_map. exists x. auto.
Qed.
Lemma ert_ok : forall t h, Forall (fun x => received_group (0%Z, fst x, snd x)) h -> ert_whole t h -> ert_short t h ->
  Forall (fun pb => fst pb < 64 /\ snd pb < 256) (flat_map (ert_written t) h).
Proof.
  intros t h F W S. pose proof (written_bytes t h F) as B. rewrite (whole_written t h W) in *. unfold ert_short in S. rewrite Forall_forall in *. intros pb X. split; [apply S, X|apply B, X].
Qed.

Lemma ert_complete : forall env o w0 gs now g w c out line v t m, host_ok env -> o_output_type o = OutJSON -> Forall received_group (gs ++ [(now, g, w)]) ->
  In t for_applications -> in_utf8 m -> let all := groups_of (gs ++ [(now, g, w)]) in ert_only t m all -> ert_whole t all -> ert_short t all ->
  run_groups env o (Channel_new o w0) (gs ++ [(now, g, w)]) = Ok (c, out ++ [Some line]) -> says line ["enhanced_radiotext"] v ->
  exists l s, complete_text 64 (flat_map (ert_segment t) (decoded_in (gs ++ [(now, g, w)]) (out ++ [Some line]))) l /\ v = VStr s /\ trimmed (map visible l) s.
Proof.
  intros env o w0 gs now g w c out line v t m H OJ F Ta U all O W Sh E S. destruct (host_env env H) as [Ee _].
  destruct (last_group (ert_inv (env_ucs2 env) t m) env o H OJ (ert_new _ _ _) (ert_new_pi _ _ _) (ert_had _ _ _) (fun h st now c g w st' j I _ R _ D => ert_step t m env o h st now c g w st' j Ta I R D) gs now g w w0 c out line F E)
    as (old & h & st & c1 & j & D & I & So & Dd & Pj & B & Hc & _).
  set (g' := prepared o now c1 g w) in *. pose proof (says_decoded env j line "enhanced_radiotext" [] v H Pj ltac:(discriminate) S) as J.
  assert (R : received_group (now, g, w)) by (apply Forall_app in F; destruct F as [_ F2]; inversion F2; assumption).
  assert (Sub : forall x, In x (old ++ h ++ [(g, w)]) -> In x all) by (intros x X; rewrite <- D in X; exact (decoded_sub _ _ _ X)).
  assert (Sub' : forall x, In x (h ++ [(g, w)]) -> In x all) by (intros x X; apply Sub, in_or_app; auto).
  destruct I as (Fh & Io & I). assert (Oh : ert_only t m h) by (eapply only_sub; [|exact O]; intros x X; apply Sub', in_or_app; auto). specialize (I Oh).
  destruct (ert_cases t m env o h st g' _ j Ta Oh Io Dd) as [(Ht & Et & Fo & D0)|No].
  2: { rewrite (decoded_absent env o st g' _ j "enhanced_radiotext" Ee So B Dd eq_refl No) in J. discriminate. }
  rewrite parseEnhanced_eq in D0. cbv zeta in D0. rewrite had_ert in D0.
  pose proof (written_prepared t o now c1 g w Ta R) as Sg. cbv zeta in Sg. fold g' in Sg. rewrite Ht, Et, eqb_type in Sg. cbn [andb] in Sg. rewrite <- Sg in D0.
  assert (Fd : Forall (fun x => received_group (0%Z, fst x, snd x)) (h ++ [(g, w)])) by (apply Forall_app; split; [exact Fh|constructor; [exact R|constructor]]).
  pose proof (ert_ok t _ Fd (whole_sub _ _ _ Sub' W) (short_sub _ _ _ Sub' Sh)) as Wok.
  assert (Ew : flat_map (ert_segment t) (decoded_in (gs ++ [(now, g, w)]) (out ++ [Some line])) = flat_map (ert_segment t) old ++ flat_map (ert_written t) h ++ ert_written t (g, w)).
  { rewrite D, flat_map_app. f_equal. rewrite <- (whole_written t _ (whole_sub _ _ _ Sub' W)), flat_map_app. cbn [flat_map]. rewrite app_nil_r. reflexivity. }
  rewrite Ew. rewrite flat_map_app in Wok. cbn [flat_map] in Wok. rewrite app_nil_r in Wok.
  destruct (fold_off (env_ucs2 env) m (flat_map (events t) h) (RDSString_new 64)) as [[_ X]|(a & b & Eh & _ & X)]; rewrite X in I; injection I as I1 I2; [congruence|].
  rewrite I2 in D0. rewrite <- (sents_events t h) in Wok |- *. rewrite Eh, sents_app in Wok |- *. cbn [sents flat_map app] in Wok |- *. fold (sents b) in Wok |- *.
  rewrite <- app_assoc in Wok |- *. apply Forall_app in Wok. destruct Wok as [_ Wok].
  remember (ert_written t (g, w)) as ws eqn:Ews.
  assert (Nw : ws <> []) by (rewrite Sg; discriminate).
  pose proof (set_all_tracks (env_ucs2 env) 64 _ _ [] (start_tracks m) Wok) as T. cbn [app] in T. rewrite set_all_app in T.
  remember (set_all (env_ucs2 env) (start m (RDSString_new 64)) (sents b)) as s0 eqn:Es0.
  remember (set_all (env_ucs2 env) s0 ws) as s' eqn:Es'.
  assert (Hj : jget ["enhanced_radiotext"] j = if s_isComplete s' then Some (JStr (rtrim (s_last_complete_string s'))) else None).
  { destruct (s_isComplete s').
    - cbn [bind jset jupd] in D0. assert (j = JObj (obj_put "enhanced_radiotext" (JStr (rtrim (s_last_complete_string s'))) (header env o st g'))) as -> by congruence.
      cbn [jget]. rewrite find_put. reflexivity.
    - assert (j = JObj (header env o st g')) as -> by congruence. apply (conf_get _ _ _ "enhanced_radiotext" (header_absent env o st g' "enhanced_radiotext" B eq_refl)). reflexivity. }
  rewrite Hj in J. destruct (s_isComplete s') eqn:Cp; [|discriminate].
  assert (v = VStr (rtrim (s_last_complete_string s'))) as -> by (cbn in J; congruence).
  exists (shown_bytes s'), (rtrim (s_last_complete_string s')). split; [|split; [reflexivity|]].
  - do 2 apply complete_earlier. apply complete_spec; [exact T|lia|exact Cp].
  - pose proof (complete_str (env_ucs2 env) s' (proj2 (tracks_sized _ _ _ T)) Cp) as Y.
    assert (En : s_encoding s' = EncUTF8) by (rewrite Es', set_all_encoding, Es0, set_all_encoding; apply utf8_start, U). rewrite En in Y.
    assert (Z : s_str (env_ucs2 env) s' = Some (s_last_complete_string s')).
    { apply Forall_app in Wok. destruct Wok as [W1 W2]. rewrite Es' in Cp |- *. eapply (set_all_last _ 64); [|lia|exact Nw|exact W2|exact Cp].
      rewrite Es0. eapply tracks_sized. apply (set_all_tracks (env_ucs2 env) 64 _ _ [] (start_tracks m) W1). }
    rewrite Z in Y. assert (s_last_complete_string s' = map visible (shown_bytes s')) as -> by congruence. apply rtrim_trimmed.
Qed.

Lemma events_assigned : forall t h a, In (t, a) (flat_map announcement h) -> In Assigned (flat_map (events t) h).
Proof.
  intros t h a X. apply in_flat_map in X. destruct X as (x & X1 & X2). apply in_flat_map. exists x. split; [exact X1|]. unfold events. apply in_or_app. left.
  apply in_flat_map. exists (t, a). split; [exact X2|]. cbn [fst]. rewrite eqb_type. left. reflexivity.
Qed.
Lemma fold_after : forall u m l1 l2 s, In Assigned l1 -> exists s0, s_encoding s0 = s_encoding (start m s) /\
  (exists ws, s0 = set_all u (start m s) ws /\ (exists e, sents l1 = e ++ ws)) /\
  fold_left (ev_do u m) (l1 ++ l2) (false, s) = (true, set_all u s0 (sents l2)).
Proof.
  intros u m l1 l2 s X. rewrite fold_left_app. destruct (fold_off u m l1 s) as [[N0 _]|(a & b & -> & _ & ->)]; [contradiction|].
  exists (set_all u (start m s) (sents b)). split; [apply set_all_encoding|]. split; [exists (sents b); split; [reflexivity|exists (sents a); rewrite sents_app; reflexivity]|].
  apply fold_on. clear. assert (Q : forall l s, settled m s -> settled m (set_all u s l)).
  { induction l as [|[p q] l IH]; intros s0 S; [exact S|]. unfold set_all in *. cbn [fold_left fst snd]. apply IH, settled_set, S. }
  apply Q, settled_start.
Qed.

(* Any bytes received *)
Lemma ert_received_any : forall env o w0 gs0 ga gb now g w c out p t m ws,
  host_ok env -> host_text env -> o_output_type o = OutJSON ->
  let gs := ga ++ gb ++ [(now, g, w)] in
  Forall received_group (gs0 ++ gs) -> p <> 0 -> three p (pis gs0) -> Forall (stays p) gs ->
  Forall (fun x => app_items (snd (fst x), snd x) <> [] \/ ert_segment t (snd (fst x), snd x) <> [] -> carried_pi x = Some p) gs ->
  In t for_applications -> let all := groups_of (gs0 ++ gs) in ert_only t m all -> ert_whole t all -> ert_short t all ->
  In (t, 0x6552) (flat_map announcement (groups_of ga)) ->
  ert_segment t (g, w) <> [] ->
  flat_map (ert_segment t) (groups_of (gb ++ [(now, g, w)])) = ws ->
  run_groups env o (Channel_new o w0) (gs0 ++ gs) = Ok (c, out) ->
  exists out' line s0 h j, out = out' ++ [Some line] /\ sized 64 s0 /\ s_encoding s0 = s_encoding (start m (RDSString_new 64)) /\
    Forall (fun pb => fst pb < 64 /\ snd pb < 256) ws /\ print_json env j = Ok line /\ clean (JObj h) /\ jget ["enhanced_radiotext"] (JObj h) = None /\
    let s' := set_all (env_ucs2 env) s0 ws in
    j = JObj (if s_isComplete s' then obj_put "enhanced_radiotext" (JStr (rtrim (s_last_complete_string s'))) h else h).
Proof.
  intros env o w0 gs0 ga gb now g w c out p t m ws H HT OJ gs F Np T3 S P Ta all O W Sh An Pl Sg E.
  assert (P' : Forall (fun x => events t (snd (fst x), snd x) <> [] -> carried_pi x = Some p) gs).
  { rewrite Forall_forall in *. intros x X Ne. apply P; [exact X|]. destruct x as [[n x] v]. cbn [fst snd] in *. unfold events in Ne.
    destruct (announcement (x, v)) as [|a r] eqn:Ea.
    - right. cbn [flat_map app] in Ne. rewrite <- (app_nil_r (ert_segment t (x, v))). change (ert_segment t (x, v) ++ []) with (flat_map (ert_segment t) [(x, v)]). rewrite <- (whole_written t [(x, v)]).
      + cbn [flat_map]. rewrite app_nil_r. intros Z. rewrite Z in Ne. apply Ne. reflexivity.
      + eapply whole_sub; [|exact W]. intros y [<-|[]]. unfold all, groups_of. rewrite map_app. apply in_or_app. right. apply in_map_iff. exists (n, x, v). auto.
    - left. unfold app_items. rewrite Ea. discriminate. }
  assert (Pg : carried_pi (now, g, w) = Some p).
  { unfold gs in P. apply Forall_app in P. destruct P as [_ P]. apply Forall_app in P. destruct P as [_ P]. inversion P as [|? ? Q _]; subst. cbn [fst snd] in Q. apply Q. right. exact Pl. }
  unfold gs in F, S, P', E. rewrite (app_assoc ga) in F, S, P', E. unfold gs in *. clear gs.
  destruct (last_shown (ert_inv (env_ucs2 env) t m) env o H HT OJ (ert_new _ _ _) (ert_new_pi _ _ _) (ert_had _ _ _) (fun h st now c g w st' j I _ R _ D => ert_step t m env o h st now c g w st' j Ta I R D) w0 gs0 (ga ++ gb) now g w c out p F Np T3 S Pg E)
    as (old & h0 & out0 & out1 & ln & c1 & st & j & D0 & -> & L0 & L1 & I & So & B & _ & Dd & _ & Pj & Ad).
  set (g' := prepared o now c1 g w) in *.
  specialize (Ad _ (events t) P').
  assert (R : received_group (now, g, w)) by (apply Forall_app in F; destruct F as [_ F2]; apply Forall_app in F2; destruct F2 as [_ F2]; inversion F2; assumption).
  destruct I as (Fh & Io & I).
  assert (Sub : forall x, In x (h0 ++ decoded_in (ga ++ gb) out1) -> In x all).
  { intros x X. unfold all, groups_of. rewrite map_app. apply in_or_app. apply in_app_or in X. destruct X as [X|X].
    - left. apply (decoded_sub gs0 out0). rewrite D0. apply in_or_app. right. exact X.
    - right. rewrite (app_assoc ga), map_app. apply in_or_app. left. exact (decoded_sub _ _ _ X). }
  assert (Sg' : In (g, w) all) by (unfold all, groups_of; apply in_map_iff; exists (now, g, w); split; [reflexivity|]; apply in_or_app; right; apply in_or_app; right; apply in_or_app; right; left; reflexivity).
  assert (Oh : ert_only t m (h0 ++ decoded_in (ga ++ gb) out1)) by (eapply only_sub; [exact Sub|exact O]). specialize (I Oh).
  pose proof (written_prepared t o now c1 g w Ta R) as Sp. cbv zeta in Sp. fold g' in Sp.
  assert (Wg : ert_whole t [(g, w)]) by (eapply whole_sub; [|exact W]; intros x [<-|[]]; exact Sg').
  pose proof (whole_written t _ Wg) as Ws. cbn [flat_map] in Ws. rewrite !app_nil_r in Ws.
  destruct (g_has_type g' && GroupType_eqb (g_type g') t) eqn:Is; [|congruence]. apply andb_prop in Is. destruct Is as [Ht Et]. apply eqb_types in Et.
  (* the bytes since the announcement *)
  assert (Ev : flat_map (events t) (h0 ++ decoded_in (ga ++ gb) out1) ++ events t (g, w) =
    (flat_map (events t) h0 ++ flat_map (events t) (groups_of ga)) ++ flat_map (events t) (groups_of (gb ++ [(now, g, w)]))).
  { rewrite flat_map_app, <- !app_assoc. f_equal. rewrite <- flat_map_app. unfold groups_of. rewrite <- map_app, app_assoc. fold (groups_of ((ga ++ gb) ++ [(now, g, w)])). rewrite <- Ad.
    rewrite (decoded_in_app (ga ++ gb) [(now, g, w)] out1 [Some ln] L1), flat_map_app. cbn [decoded_in combine flat_map app]. rewrite !app_nil_r. reflexivity. }
  assert (A3 : announcement (g, w) = []).
  { pose proof (announce_prepared o now c1 g w R) as A. cbv zeta in A. fold g' in A. rewrite A, Et. pose proof (apps_not_3A t Ta) as X.
    destruct (gt_number t =? 3); cbn [andb] in *; [|rewrite !andb_false_r; reflexivity]. rewrite X, !andb_false_r. reflexivity. }
  assert (Eg : events t (g, w) = map Sent (ert_written t (g, w))) by (unfold events; rewrite A3; reflexivity).
  destruct (fold_after (env_ucs2 env) m (flat_map (events t) h0 ++ flat_map (events t) (groups_of ga)) (flat_map (events t) (groups_of (gb ++ [(now, g, w)]))) (RDSString_new 64)) as (s1 & En1 & (wsb & Es1 & (eb & Eb)) & Fd).
  { apply in_or_app. right. exact (events_assigned _ _ _ An). }
  rewrite <- Ev, fold_left_app, <- I, Eg, set_all_events in Fd.
  assert (Ew : flat_map (ert_written t) (groups_of (gb ++ [(now, g, w)])) = ws).
  { rewrite <- Sg. apply whole_written. eapply whole_sub; [|exact W]. intros x X. unfold all, groups_of in *. apply in_map_iff in X. destruct X as (y & Y1 & Y2). apply in_map_iff. exists y. split; [exact Y1|].
    apply in_or_app. right. apply in_or_app. right. exact Y2. }
  rewrite sents_events, Ew in Fd. pose proof (f_equal fst Fd) as Fo. apply (f_equal snd) in Fd. cbn [fst snd] in Fo, Fd. rewrite Fo in Fd.
  destruct (ert_cases t m env o _ st g' _ j Ta Oh Io Dd) as [(_ & _ & _ & D1)|No].
  2: { exfalso. specialize (No Ht). revert No. unfold found in Fo. destruct (find_type t (st_oda_app_for_group st)) as [a|] eqn:Ef; [|discriminate].
       destruct (only_found t m _ st t a Oh Io Ef) as [Y _]. destruct (Y (or_intror eq_refl)) as [_ ->].
       unfold type_keys. cbv zeta. rewrite Et, Ef. clear - Ta. unfold app_keys. repeat (destruct Ta as [<-|Ta]; [discriminate|]). destruct Ta. }
  rewrite parseEnhanced_eq in D1. cbv zeta in D1. rewrite had_ert, <- Sp, Fd in D1.
  (* the text *)
  assert (Wok : Forall (fun pb => fst pb < 64 /\ snd pb < 256) (flat_map (ert_written t) h0 ++ flat_map (ert_written t) (groups_of ga) ++ ws)).
  { rewrite <- Ew, <- !flat_map_app. apply ert_ok.
    - apply Forall_app in Fh. destruct Fh as [Fh0 _]. apply Forall_app. split; [exact Fh0|]. apply Forall_app in F. destruct F as [_ F]. rewrite <- app_assoc in F.
      unfold groups_of. rewrite <- map_app. apply Forall_map. eapply Forall_impl; [|exact F]. intros [[n x] v] Q. exact Q.
    - eapply whole_sub; [|exact W]. intros x X. apply in_app_or in X. destruct X as [X|X]; [apply Sub, in_or_app; auto|]. unfold all, groups_of in *. rewrite <- map_app in X. rewrite map_app. apply in_or_app. auto.
    - eapply short_sub; [|exact Sh]. intros x X. apply in_app_or in X. destruct X as [X|X]; [apply Sub, in_or_app; auto|]. unfold all, groups_of in *. rewrite <- map_app in X. rewrite map_app. apply in_or_app. auto. }
  rewrite app_assoc in Wok. apply Forall_app in Wok. destruct Wok as [W0 W1].
  rewrite sents_app, !sents_events in Eb. rewrite Eb in W0. apply Forall_app in W0. destruct W0 as [_ W0].
  pose proof (tracks_sized _ _ _ (set_all_tracks (env_ucs2 env) 64 _ _ [] (start_tracks m) W0)) as Z0.
  rewrite <- Es1 in Z0.
  exists (out0 ++ out1), ln, s1, (header env o st g'), j. split; [rewrite app_assoc; reflexivity|]. split; [exact Z0|]. split; [exact En1|]. split; [exact W1|].
  split; [exact Pj|]. split; [apply header_clean; apply host_text_txt; exact HT|].
  split; [exact (conf_get _ _ _ "enhanced_radiotext" (header_absent env o st g' "enhanced_radiotext" B eq_refl) eq_refl)|].
  cbv zeta. destruct (s_isComplete _); [cbn [bind jset jupd] in D1|]; congruence.
Qed.

(* Any bytes received from the first place on *)
Lemma ert_received : forall env o w0 gs0 ga gb now g w c out p t m l earlier,
  host_ok env -> host_text env -> o_output_type o = OutJSON ->
  let gs := ga ++ gb ++ [(now, g, w)] in
  Forall received_group (gs0 ++ gs) -> p <> 0 -> three p (pis gs0) -> Forall (stays p) gs ->
  Forall (fun x => app_items (snd (fst x), snd x) <> [] \/ ert_segment t (snd (fst x), snd x) <> [] -> carried_pi x = Some p) gs ->
  In t for_applications -> let all := groups_of (gs0 ++ gs) in ert_only t m all -> ert_whole t all -> ert_short t all ->
  In (t, 0x6552) (flat_map announcement (groups_of ga)) ->
  ert_segment t (g, w) <> [] ->
  flat_map (ert_segment t) (groups_of (gb ++ [(now, g, w)])) = earlier ++ place 0 l ->
  run_groups env o (Channel_new o w0) (gs0 ++ gs) = Ok (c, out) ->
  exists out' line s0 h j, out = out' ++ [Some line] /\ sized 64 s0 /\ s_encoding s0 = s_encoding (start m (RDSString_new 64)) /\
    Forall (fun b => b < 256) l /\ N.of_nat (length l) <= 64 /\ print_json env j = Ok line /\ clean (JObj h) /\ jget ["enhanced_radiotext"] (JObj h) = None /\
    let s' := set_all (env_ucs2 env) s0 (place 0 l) in
    j = JObj (if s_isComplete s' then obj_put "enhanced_radiotext" (JStr (rtrim (s_last_complete_string s'))) h else h).
Proof.
  intros env o w0 gs0 ga gb now g w c out p t m l earlier H HT OJ gs F Np T3 S P Ta all O W Sh An Pl Sg E.
  destruct (ert_received_any env o w0 gs0 ga gb now g w c out p t m _ H HT OJ F Np T3 S P Ta O W Sh An Pl Sg E) as (out' & ln & s1 & h & j & Eo & Z1 & En1 & Wok & Pj & Ch & Nh & Ej).
  apply Forall_app in Wok. destruct Wok as [W2 W1].
  exists out', ln, (set_all (env_ucs2 env) s1 earlier), h, j. split; [exact Eo|].
  split; [apply set_all_sized; [exact Z1|eapply Forall_impl; [|exact W2]; intros ? X; apply X]|]. split; [rewrite set_all_encoding; exact En1|].
  split; [clear - W1; revert W1; generalize 0; induction l as [|b l IH]; intros i W; [constructor|]; cbn [place] in W; inversion W; subst; constructor; [tauto|]; eapply IH; eassumption|].
  split; [clear - W1; destruct (snoc_cases _ l) as [->|(a & x & ->)]; [cbn; lia|]; rewrite place_app in W1; apply Forall_app in W1; destruct W1 as [_ W]; cbn [place] in W; inversion W as [|? ? [X _] _]; subst; cbn [fst] in X; rewrite app_length; cbn [length]; lia|].
  split; [exact Pj|]. split; [exact Ch|]. split; [exact Nh|]. cbv zeta in *. rewrite <- set_all_app. exact Ej.
Qed.

Lemma ert_round_trip : forall env o w0 gs0 ga gb now g w c out p t m cs l earlier,
  host_ok env -> host_text env -> o_output_type o = OutJSON ->
  let gs := ga ++ gb ++ [(now, g, w)] in
  Forall received_group (gs0 ++ gs) -> p <> 0 -> three p (pis gs0) -> Forall (stays p) gs ->
  Forall (fun x => app_items (snd (fst x), snd x) <> [] \/ ert_segment t (snd (fst x), snd x) <> [] -> carried_pi x = Some p) gs ->
  In t for_applications -> in_utf8 m -> let all := groups_of (gs0 ++ gs) in ert_only t m all -> ert_whole t all -> ert_short t all ->
  In (t, 0x6552) (flat_map announcement (groups_of ga)) ->
  ert_segment t (g, w) <> [] ->
  flat_map (ert_segment t) (groups_of (gb ++ [(now, g, w)])) = earlier ++ place 0 l ->
  Forall scalar cs -> ~ In 0 cs -> ~ In end_of_text cs ->
  (exists r, l = utf8_text cs ++ end_of_text :: r) \/ (l = utf8_text cs /\ length l = 64%nat) ->
  run_groups env o (Channel_new o w0) (gs0 ++ gs) = Ok (c, out) ->
  exists out' line s, out = out' ++ [Some line] /\ says line ["enhanced_radiotext"] (VStr s) /\ trimmed (utf8_text cs) s.
Proof.
  intros env o w0 gs0 ga gb now g w c out p t m cs l earlier H HT OJ gs F Np T3 S P Ta U all O W Sh An Pl Sg Fc N0 N1 Hl E.
  destruct (ert_received env o w0 gs0 ga gb now g w c out p t m l earlier H HT OJ F Np T3 S P Ta O W Sh An Pl Sg E) as (out' & ln & s0 & h & j & -> & Z0 & En0 & Fl & Ll & Pj & Ch & _ & Ej).
  rewrite (utf8_start m _ U) in En0. exists out', ln. cbv zeta in Ej.
  destruct (visible_id cs Fc N0 N1) as [Vi Nt].
  assert (Cs : s_isComplete (set_all (env_ucs2 env) s0 (place 0 l)) = true /\ rtrim (s_last_complete_string (set_all (env_ucs2 env) s0 (place 0 l))) = rtrim (utf8_text cs)).
  { assert (Q : forall s', s_encoding s' = EncUTF8 -> s_isComplete s' = true -> s_str (env_ucs2 env) s' = Some (s_last_complete_string s') -> Forall (fun b => b < 256) (s_data s') -> s_last_complete_string s' = map visible (shown_bytes s')).
    { intros s' En' C' S' F'. pose proof (complete_str (env_ucs2 env) s' F' C') as X. rewrite En', S' in X. congruence. }
    assert (En2 : s_encoding (set_all (env_ucs2 env) s0 (place 0 l)) = EncUTF8) by (rewrite set_all_encoding; exact En0).
    destruct Hl as [(r & Hl)|[Hl Hn]].
    - destruct (run_bytes (env_ucs2 env) 64 s0 l (utf8_text cs) r Z0 ltac:(congruence) ltac:(lia) Fl Hl Ll Nt) as (C1 & S1 & B1 & F1). split; [exact C1|].
      rewrite (Q _ En2 C1 S1 F1), B1, map_app, Vi. change (map visible [end_of_text]) with (repeat 32 1). apply rtrim_blanks.
    - rewrite <- Hl in Nt, Vi. destruct (full_bytes (env_ucs2 env) 64 s0 l Z0 ltac:(congruence) ltac:(lia) Fl ltac:(lia) Nt) as (C1 & S1 & B1 & F1). split; [exact C1|].
      rewrite (Q _ En2 C1 S1 F1), B1, Vi, Hl. reflexivity. }
  destruct Cs as [Cp Tr]. remember (set_all (env_ucs2 env) s0 (place 0 l)) as s' eqn:Es'. rewrite Cp in Ej.
  exists (rtrim (s_last_complete_string s')). split; [reflexivity|]. split; [|rewrite Tr; apply rtrim_trimmed].
  assert (Cj : clean j).
  { rewrite Ej. apply put_clean; [exact Ch|reflexivity|].
    unfold clean. cbn [json_utf8]. rewrite Tr. apply txt_rtrim. apply valid_is_utf8. exists cs. split; [exact Fc|reflexivity]. }
  unfold says. rewrite (clean_shows env j ln H Cj Pj), Ej. cbn [jget]. rewrite find_put. reflexivity.
Qed.
