(* RadioText Plus for Enhanced RadioText: tags sent are shown. *)
From Verif.Model Require Import Util Group Options Tables Json Freq RdsString Tmc Station Channel.
From Verif.Spec Require Import Numerals Unicode JsonText Session Identity History Quality Texts Apps Traffic Enhanced Plus.
From Verif.Proofs Require Import Tac Numerals JsonP Utf8P Schema StationP TextP CleanP UpdateP SessionP LineP FrameP ChannelP LinesP HistoryP ShowP TraceP KeysP GetP FieldsP StringP PsP RtP EndP LpsP AfP AppsP TmcP PlusP PlusTrueP ErtP ErtPlusP.

Local Open Scope string_scope.
Local Open Scope N_scope.
Local Open Scope list_scope.

#[local] Strategy 1000 [set_all s_set s_isComplete s_str s_last_complete_string header].

(* --- what happens --- *)
Inductive ev := On | On2 | Wr (w : N * N) | It (b : bool * bool).
Definition state : Type := bool * RDSString * bool * (bool * bool).
Definition same_bits (a b : bool * bool) : bool := Bool.eqb (fst a) (fst b) && Bool.eqb (snd a) (snd b).
Lemma same_eq : forall a b, same_bits a b = true <-> a = b.
Proof.
  intros [a1 a2] [b1 b2]. unfold same_bits. cbn [fst snd]. split; [intros E; apply andb_prop in E; destruct E as [E1 E2]; apply Bool.eqb_prop in E1, E2; congruence|].
  intros E. assert (a1 = b1) as -> by congruence. assert (a2 = b2) as -> by congruence. rewrite !Bool.eqb_reflx. reflexivity.
Qed.
Definition do2 (u : bytes -> option bytes) (m : N) (x : state) (e : ev) : state :=
  let '(on, s, on2, bits) := x in
  match e with
  | On => (true, start m s, on2, bits)
  | On2 => (on, s, true, bits)
  | Wr w => (on, if on then s_set u s (fst w) (snd w) else s, on2, bits)
  | It b => if on2 then (on, if same_bits b bits then s else s_clear s, on2, b) else x
  end.
Definition evs (t t2 : GroupType) (x : Group * N) : list ev :=
  flat_map (fun ta => (if GroupType_eqb (fst ta) t then [On] else []) ++ (if GroupType_eqb (fst ta) t2 then [On2] else [])) (announcement x) ++
  map Wr (ert_written t x) ++ (if app_group x && GroupType_eqb (g_type (fst x)) t2 then [It (item_bits (fst x))] else []).
Definition wrs (l : list ev) : Texts.writes := flat_map (fun e => match e with Wr w => [w] | _ => [] end) l.
Definition begin : state := (false, RDSString_new 64, false, (false, false)).

Lemma do_writes : forall u m l on s on2 b, fold_left (do2 u m) (map Wr l) (on, s, on2, b) = (on, if on then set_all u s l else s, on2, b).
Proof. intros u m l. induction l as [|w l IH]; intros on s on2 b; [destruct on; reflexivity|]. cbn [map fold_left do2]. rewrite IH. destruct on; reflexivity. Qed.
Lemma wrs_app : forall a b, wrs (a ++ b) = wrs a ++ wrs b.
Proof. intros a b. apply flat_map_app. Qed.
Lemma wrs_evs : forall t t2 h, wrs (flat_map (evs t t2) h) = flat_map (ert_written t) h.
Proof.
  intros t t2 h. induction h as [|x h IH]; [reflexivity|]. cbn [flat_map]. rewrite wrs_app, IH. f_equal. unfold evs. rewrite !wrs_app.
  assert (X : forall l : list (GroupType * N), wrs (flat_map (fun ta => (if GroupType_eqb (fst ta) t then [On] else []) ++ (if GroupType_eqb (fst ta) t2 then [On2] else [])) l) = []).
  { induction l as [|a l IHl]; [reflexivity|]. cbn [flat_map]. rewrite !wrs_app, IHl. destruct (GroupType_eqb _ _), (GroupType_eqb _ _); reflexivity. }
  rewrite X. cbn [app]. destruct (_ && _); cbn [wrs flat_map]; rewrite app_nil_r; (induction (ert_written t x) as [|e l IHl]; [reflexivity|]; cbn [map wrs flat_map app]; f_equal; exact IHl).
Qed.

(* The text is of 64 places; after an announcement it is of that kind *)
Lemma do_sized : forall u m l on s on2 b, sized 64 s -> Forall (fun pb => snd pb < 256) (wrs l) -> sized 64 (snd (fst (fst (fold_left (do2 u m) l (on, s, on2, b))))).
Proof.
  intros u m l. induction l as [|e l IH]; intros on s on2 b Z F; [exact Z|]. cbn [fold_left]. destruct e as [| |w|b']; cbn [do2 wrs flat_map app] in *.
  - apply IH; [exact Z|exact F].
  - apply IH; [exact Z|exact F].
  - rewrite Forall_cons_iff in F. destruct F as [F1 F]. apply IH; [|exact F]. destruct on; [apply set_sized; assumption|exact Z].
  - destruct on2; [|apply IH; assumption]. apply IH; [|exact F]. destruct (same_bits _ _); [exact Z|apply clear_sized; exact Z].
Qed.
Lemma clear_settled : forall m s, settled m s -> settled m (s_clear s).
Proof. intros m s S. exact S. Qed.
Lemma do_settled : forall u m l on s on2 b, (on = true -> settled m s) -> let x := fold_left (do2 u m) l (on, s, on2, b) in
  (fst (fst (fst x)) = true -> settled m (snd (fst (fst x)))) /\ (on = true \/ In On l -> fst (fst (fst x)) = true) /\ (on2 = true \/ In On2 l -> snd (fst x) = true).
Proof.
  intros u m l. induction l as [|e l IH]; intros on s on2 b S; [cbn; tauto|]. cbn [fold_left]. destruct e as [| |w|b']; cbn [do2] in *.
  - destruct (IH true (start m s) on2 b (fun _ => settled_start m s)) as (A & B & C). split; [exact A|]. split; [intros _; apply B; auto|]. intros [X|[X|X]]; [apply C; auto|discriminate|apply C; auto].
  - destruct (IH on s true b S) as (A & B & C). split; [exact A|]. split; [|intros _; apply C; auto]. intros [X|[X|X]]; [apply B; auto|discriminate|apply B; auto].
  - destruct (IH on (if on then s_set u s (fst w) (snd w) else s) on2 b) as (A & B & C); [intros X; rewrite X; apply settled_set, S, X|]. split; [exact A|]. split; intros [X|[X|X]]; auto; discriminate.
  - destruct on2.
    + destruct (IH on (if same_bits b' b then s else s_clear s) true b') as (A & B & C); [intros X; destruct (same_bits _ _); [auto|apply clear_settled; auto]|]. split; [exact A|]. split; intros [X|[X|X]]; auto; discriminate.
    + destruct (IH on s false b S) as (A & B & C). split; [exact A|]. split; intros [X|[X|X]]; auto; discriminate.
Qed.
(* Within an item *)
Lemma do_window : forall u m l s b, settled m s -> (forall b', In (It b') l -> b' = b) -> fold_left (do2 u m) l (true, s, true, b) = (true, set_all u s (wrs l), true, b).
Proof.
  intros u m l. induction l as [|e l IH]; intros s b S A; [reflexivity|]. cbn [fold_left]. assert (A' : forall b', In (It b') l -> b' = b) by (intros b' X; apply A; right; exact X).
  destruct e as [| |w|b']; cbn [do2 wrs flat_map app].
  - rewrite (start_id _ _ S). apply IH; assumption.
  - apply IH; assumption.
  - rewrite IH; [reflexivity|apply settled_set; exact S|exact A'].
  - assert (b' = b) as -> by (apply A; left; reflexivity). rewrite (proj2 (same_eq b b) eq_refl). apply IH; assumption.
Qed.

(* --- the program does it --- *)
Definition bits_e (st : Station) : bool * bool := (plus_toggle (rt_plus (st_ert st)), plus_item_running (rt_plus (st_ert st))).
Definition e2_inv (u : bytes -> option bytes) (t : GroupType) (m : N) (t2 : GroupType) (h : list (Group * N)) (st : Station) : Prop :=
  Forall (fun x => received_group (0%Z, fst x, snd x)) h /\ oda_inv h st /\
  (ert_assigned t m h -> ert_plus_in t2 h -> (found t st, rt_text (st_ert st), found t2 st, bits_e st) = fold_left (do2 u m) (flat_map (evs t t2) h) begin).
Lemma e2_start : forall u t m t2 st, st_ert st = RadioText_default -> st_oda_app_for_group st = [] -> e2_inv u t m t2 [] st.
Proof. intros u t m t2 st E1 E2. split; [constructor|]. split; [exact E2|]. intros _ _. unfold found, bits_e. rewrite E1, E2. reflexivity. Qed.
Lemma e2_had : forall u t m t2 h st g, e2_inv u t m t2 h st -> e2_inv u t m t2 h (had st g).
Proof.
  intros u t m t2 h st g (F & Io & I). split; [exact F|]. split; [unfold oda_inv in *; rewrite had_oda; exact Io|]. unfold found, bits_e in *. rewrite had_oda, had_ert. exact I.
Qed.
Lemma plus_in_sub : forall t a b, (forall x, In x a -> In x b) -> ert_plus_in t b -> ert_plus_in t a.
Proof.
  intros t a b S O t' x y X. apply (O t' x y). apply in_flat_map in X. destruct X as (z & X1 & X2). apply in_flat_map. exists z. split; [apply S, X1|exact X2].
Qed.
Lemma plus_in_found : forall t h st tt a, ert_plus_in t h -> oda_inv h st -> find_type tt (st_oda_app_for_group st) = Some a -> a = 0x4BD8 \/ tt = t -> tt = t /\ a = 0x4BD8.
Proof.
  intros t h st tt a O I E Y. unfold oda_inv in I. rewrite I in E. apply find_rev in E.
  assert (X : exists mm, In (Announced tt a mm) (flat_map app_items h)).
  { apply in_flat_map in E. destruct E as ([g w] & X1 & X2). exists (blk_data (g_b3 g)). apply in_flat_map. exists (g, w). split; [exact X1|]. unfold app_items. apply in_or_app. left.
    apply in_map_iff. exists (tt, a). split; [reflexivity|exact X2]. }
  destruct X as [mm X]. exact (O _ _ _ X Y).
Qed.
Lemma app_prepared : forall t2 o now c g w, In t2 for_applications -> let g' := prepared o now c g w in
  app_group (g, w) && GroupType_eqb (g_type g) t2 = g_has_type g' && GroupType_eqb (g_type g') t2.
Proof.
  intros t2 o now c g w Ta g'. unfold app_group, g'. cbn [fst snd]. rewrite prepared_type, prepared_has_type. destruct (w =? 0) eqn:Ew; cbn [andb].
  - destruct (GroupType_eqb (g_type g) t2) eqn:E; [|rewrite !andb_false_r; reflexivity]. rewrite !andb_true_r. destruct (g_has_type g); cbn [andb]; [|reflexivity].
    apply eqb_types in E. rewrite E. apply existsb_exists. exists t2. split; [exact Ta|apply eqb_type].
  - match goal with |- context [GroupType_eqb ?a t2] => destruct (GroupType_eqb a t2) eqn:E end; [|rewrite ?andb_false_r; reflexivity].
    apply eqb_types in E. exfalso. apply (apps_not_C t2 Ta). rewrite <- E. reflexivity.
Qed.
Lemma eqb_sym : forall a b, GroupType_eqb a b = GroupType_eqb b a.
Proof.
  intros a b. destruct (GroupType_eqb b a) eqn:E; [apply eqb_types in E; rewrite E; apply eqb_type|]. destruct (GroupType_eqb a b) eqn:E2; [|reflexivity]. apply eqb_types in E2. rewrite E2, eqb_type in E. discriminate.
Qed.
Lemma e2_step : forall t m t2 env o h st now c g w st' j, In t for_applications -> In t2 for_applications -> t <> t2 -> e2_inv (env_ucs2 env) t m t2 h st -> received_group (now, g, w) ->
  decoded env o st (prepared o now c g w) = Ok (st', j) -> e2_inv (env_ucs2 env) t m t2 (h ++ [(g, w)]) st'.
Proof.
  intros t m t2 env o h st now c g w st' j Ta Tb Nt (F & Io & I) R D. pose proof (oda_step env o h st now c g w st' j Io R D) as Io'.
  split; [apply Forall_app; split; [exact F|constructor; [exact R|constructor]]|]. split; [exact Io'|]. intros O' P'.
  assert (Sub : forall x, In x h -> In x (h ++ [(g, w)])) by (intros x X; apply in_or_app; auto).
  pose proof (assigned_sub t m _ _ Sub O') as O. pose proof (plus_in_sub t2 _ _ Sub P') as P. specialize (I O P).
  rewrite flat_map_app, fold_left_app, <- I. cbn [flat_map]. rewrite app_nil_r. clear I.
  assert (Eo : st_oda_app_for_group st' = rev (announcement (g, w)) ++ st_oda_app_for_group st).
  { unfold oda_inv in Io, Io'. rewrite Io', Io, flat_map_app, rev_app_distr. cbn [flat_map]. rewrite app_nil_r. reflexivity. }
  unfold evs. rewrite !fold_left_app. cbn [fst]. rewrite (app_prepared t2 o now c g w Tb), (written_prepared t o now c g w Ta R). cbv zeta.
  assert (Oa : forall t' a, announcement (g, w) = [(t', a)] -> (a = 0x6552 \/ t' = t -> t' = t /\ a = 0x6552 /\ g_get (prepared o now c g w) BLOCK3 = m)).
  { intros t' a An X. rewrite prepared_get. apply (O' t' a (blk_data (g_b3 g))); [|exact X].
    rewrite flat_map_app. apply in_or_app. right. cbn [flat_map]. rewrite app_nil_r. unfold app_items. rewrite An. left. reflexivity. }
  assert (Bi : bits_in (prepared o now c g w) = item_bits g) by (unfold bits_in, item_bits; rewrite prepared_get, !getBool_testbit; reflexivity).
  pose proof (announce_prepared o now c g w R) as An. cbv zeta in An. set (g' := prepared o now c g w) in *.
  pose proof (decoded_frame env o st g' _ D) as Fr. cbn [fst] in Fr. destruct Fr as (_ & _ & _ & _ & _ & Fe & _). rewrite had_ert in Fe.
  pose proof D as D0. unfold decoded in D. destruct (g_has_type g') eqn:Ht; cbn [negb orb andb] in *.
  2: { rewrite An in *. cbn [flat_map map fold_left app rev] in *. unfold found, bits_e. rewrite Eo, Fe by reflexivity. reflexivity. }
  destruct ((gt_number (g_type g') =? 3) && Version_eqb (gt_version (g_type g')) VA) eqn:E3.
  - assert (N3 : forall x, In x for_applications -> GroupType_eqb (g_type g') x = false).
    { intros x X. destruct (GroupType_eqb (g_type g') x) eqn:E; [|reflexivity]. apply eqb_types in E. rewrite <- E in X. rewrite (apps_not_3A _ X) in E3. discriminate. }
    rewrite (N3 t Ta), (N3 t2 Tb). cbn [andb map fold_left]. apply andb_prop in E3. destruct E3 as [E3 Ea].
    assert (Hv : Version_eqb (gt_version (g_type g')) VC = false) by (destruct (gt_version (g_type g')); try discriminate; reflexivity).
    rewrite Hv, E3, Ea in An. cbn [andb negb] in An. rewrite andb_true_r in An.
    unfold decodeByType in D. cbv zeta in D. apply N.eqb_eq in E3. rewrite Hv, E3, Ea in D. cbn [N.eqb Pos.eqb andb] in D.
    unfold decodeType3A in D. cbv zeta in D. rewrite Ea in D. cbn [negb] in D.
    destruct (g_has g' BLOCK3 && g_has g' BLOCK4); cbn [negb] in D.
    2: { rewrite An in *. cbn [flat_map fold_left rev app] in *. unfold found, bits_e. rewrite Eo. assert (st' = had st g') as -> by congruence. rewrite had_ert. reflexivity. }
    specialize (Oa _ _ An). rewrite An in *. cbn [flat_map rev app fst] in *. rewrite app_nil_r. unfold found. rewrite Eo. cbn [find_type].
    set (t' := GroupType_of (getBits 5 (g_get g' BLOCK2) 0)) in *. remember (g_get g' BLOCK4) as a eqn:Eqa.
    rewrite (eqb_sym t t'), (eqb_sym t2 t'). unbind D. unbind D.
    assert (Tx : rt_text (st_ert st') = (if a =? 0x6552 then start (g_get g' BLOCK3) (rt_text (st_ert st)) else rt_text (st_ert st)) /\ bits_e st' = bits_e st).
    { unfold bits_e. rewrite <- (had_ert st g'). destruct (N.eqb_spec a 0x0093) as [->|_]; [injection D as <- _; split; reflexivity|].
      destruct (N.eqb_spec a 0x4BD7) as [->|_]; [injection D as <- _; split; reflexivity|].
      destruct (N.eqb_spec a 0x4BD8) as [->|_]; [injection D as <- _; split; reflexivity|].
      destruct (N.eqb_spec a 0x6552) as [->|_]; [injection D as <- _; split; reflexivity|].
      destruct ((a =? 0xCD46) || (a =? 0xCD47)).
      - unbind D. destruct y1 as [s1 j1]. injection D as <- _. split; reflexivity.
      - unbind D. unbind D. injection D as <- _. split; reflexivity. }
    destruct Tx as [Tx Tb']. rewrite Tx, Tb'. destruct (GroupType_eqb t' t) eqn:Et.
    + apply eqb_types in Et. destruct (Oa (or_intror Et)) as (_ & -> & ->). replace (GroupType_eqb t' t2) with false; [reflexivity|].
      symmetry. destruct (GroupType_eqb t' t2) eqn:E; [|reflexivity]. apply eqb_types in E. congruence.
    + cbn [app]. replace (a =? 0x6552) with false; [destruct (GroupType_eqb t' t2); reflexivity|]. symmetry. apply N.eqb_neq. intros X. destruct (Oa (or_introl X)) as (Y & _). rewrite Y, eqb_type in Et. discriminate.
  - assert (An0 : announcement (g, w) = []).
    { rewrite An. replace (negb (Version_eqb (gt_version (g_type g')) VC) && (gt_number (g_type g') =? 3) && (g_has g' BLOCK3 && g_has g' BLOCK4 && Version_eqb (gt_version (g_type g')) VA)) with false; [reflexivity|].
      destruct (gt_number (g_type g') =? 3); [|rewrite andb_false_r; reflexivity]. cbn [andb] in E3. rewrite E3, !andb_false_r. reflexivity. }
    rewrite An0 in *. cbn [flat_map rev app fold_left] in *. unfold found. rewrite Eo.
    destruct (GroupType_eqb (g_type g') t) eqn:Et; [|destruct (GroupType_eqb (g_type g') t2) eqn:Et2].
    + apply eqb_types in Et. replace (GroupType_eqb (g_type g') t2) with false; [|symmetry; destruct (GroupType_eqb (g_type g') t2) eqn:E; [apply eqb_types in E; congruence|reflexivity]].
      cbn [fold_left]. rewrite do_writes. destruct (find_type t (st_oda_app_for_group st)) as [a|] eqn:Ef.
      * destruct (assigned_found t m h st t a O Io Ef (or_intror eq_refl)) as [_ ->].
        rewrite (oda_dispatch env o (had st g') g' _ 0x6552) in D; [|apply for_apps; rewrite Et; exact Ta|rewrite had_oda, Et; exact Ef].
        unfold decodeODAGroup in D. rewrite had_oda, Et, Ef in D. cbn [N.eqb Pos.eqb] in D. rewrite parseEnhanced_eq in D. cbv zeta in D. rewrite had_ert in D. unfold bits_e.
        destruct (s_isComplete _); [unbind D|]; injection D as <- _; reflexivity.
      * unfold bits_e. rewrite Fe; [reflexivity|]. apply no_ert_fields; [exact E3|]. rewrite had_oda, Et, Ef. discriminate.
    + cbn [map fold_left]. apply eqb_types in Et2. cbn [do2]. destruct (find_type t2 (st_oda_app_for_group st)) as [a|] eqn:Ef.
      * destruct (plus_in_found t2 h st t2 a P Io Ef (or_intror eq_refl)) as [_ ->].
        assert (Pg : ert_plus_group st g') by (split; [exact Ht|]; split; [apply for_apps; rewrite Et2; exact Tb|rewrite Et2; exact Ef]).
        destruct (ert_plus_decoded env o st g' st' j D0 Pg) as (rt & Ep & ->). unfold bits_e. cbn [set_ert st_ert]. destruct (plus_bits _ _ _ _ _ _ Ep) as [Eb Ek]. rewrite Eb, Bi.
        destruct (same_bits (item_bits g) _) eqn:Es.
        -- apply same_eq in Es. rewrite Bi in Ek. rewrite (Ek Es). reflexivity.
        -- destruct (plus_clears _ _ _ _ _ _ Ep) as [Ec _]; [rewrite Bi; intros X; rewrite (proj2 (same_eq _ _) X) in Es; discriminate|]. rewrite Ec. reflexivity.
      * unfold bits_e. rewrite Fe; [reflexivity|]. apply no_ert_fields; [exact E3|]. rewrite had_oda, Et2, Ef. discriminate.
    + cbn [map fold_left]. unfold bits_e. rewrite Fe; [reflexivity|]. apply no_ert_fields; [exact E3|]. rewrite had_oda. intros a Ef. split; intros ->.
      * destruct (assigned_found t m h st _ _ O Io Ef (or_introl eq_refl)) as [Y _]. rewrite Y, eqb_type in Et. discriminate.
      * destruct (plus_in_found t2 h st _ _ P Io Ef (or_introl eq_refl)) as [Y _]. rewrite Y, eqb_type in Et2. discriminate.
Qed.

(* --- the tags --- *)
Definition chars_entry (cs : list N) (t : Tag) : json :=
  JObj [("content-type", JStr (getRTPlusContentTypeString (content t))); ("data", JStr (rtrim (utf8_text (tagged cs t))))].
Lemma encode_nonempty : forall c, utf8_encode c <> [].
Proof. intros c. unfold utf8_encode. destruct (c <? 0x80); [discriminate|]. destruct (c <? 0x800); [discriminate|]. destruct (c <? 0x10000); discriminate. Qed.
Lemma parts_fit : forall s cs ts, s_last_complete_string s = utf8_text cs -> Forall scalar cs -> Forall (fun t => 0 < chars t) ts -> Forall (fun t => real t = true -> fits_chars cs t) ts ->
  flat_map (part_shown s) ts = map (chars_entry cs) (filter real ts).
Proof.
  intros s cs ts El F P Fi. induction ts as [|t ts IH]; [reflexivity|]. rewrite Forall_cons_iff in P, Fi. destruct P as [Pt P]. destruct Fi as [Ft Fi]. cbn [flat_map filter]. rewrite (IH P Fi). unfold part_shown.
  destruct (real t) eqn:Rt; [|reflexivity]. destruct (Ft eq_refl) as (A & B & C). rewrite (substring_chars s cs _ _ El F Pt A B C). cbn [map]. unfold chars_entry, tagged.
  assert (Ne : firstn (N.to_nat (chars t)) (skipn (N.to_nat (Plus.start t)) cs) <> []).
  { intros X. apply (f_equal (@length N)) in X. rewrite firstn_length, skipn_length in X. cbn [length] in X. lia. }
  destruct (firstn _ _) as [|c l]; [contradiction|]. cbn [utf8_text flat_map]. pose proof (encode_nonempty c) as Nc. destruct (utf8_encode c ++ flat_map utf8_encode l) eqn:E; [apply app_eq_nil in E; destruct E; contradiction|]. reflexivity.
Qed.
Lemma utf8_clean : forall cs, Forall scalar cs -> utf8_valid (utf8_text cs) = true.
Proof. intros cs F. apply valid_is_utf8. exists cs. split; [exact F|reflexivity]. Qed.
Lemma chars_clean : forall cs t, Forall scalar cs -> clean (chars_entry cs t).
Proof.
  intros cs t F. unfold chars_entry. apply clean_obj. repeat constructor; [apply txt_content|]. apply txt_rtrim. apply utf8_clean. rewrite Forall_forall in *. intros c X. apply F. unfold tagged in X.
  rewrite <- (firstn_skipn (N.to_nat (Plus.start t)) cs). apply in_or_app. right. rewrite <- (firstn_skipn (N.to_nat (chars t)) (skipn _ cs)). apply in_or_app. left. exact X.
Qed.
Lemma parse_rest : forall g rt hdr rt' j p, parseRadioTextPlus g rt [p] (JObj hdr) = Ok (rt', j) -> obj_find p hdr = None -> clean (JObj hdr) -> txt (bs p) ->
  (forall t, In t ((if g_has g BLOCK3 then [mkTag (getBits2 6 (g_get g BLOCK2) (g_get g BLOCK3) 13) (getBits 6 (g_get g BLOCK3) 7) (getBits 6 (g_get g BLOCK3) 1 + 1)] else []) ++
    (if g_has g BLOCK3 && g_has g BLOCK4 then [mkTag (getBits2 6 (g_get g BLOCK3) (g_get g BLOCK4) 11) (getBits 6 (g_get g BLOCK4) 5) (getBits 5 (g_get g BLOCK4) 0 + 1)] else [])) ->
    Forall clean (part_shown (rt_text rt') t)) ->
  clean j /\ jget [p; "item_running"] j = Some (JBool (snd (bits_in g))) /\ jget [p; "item_toggle"] j = Some (JN (N.b2n (fst (bits_in g)))).
Proof.
  intros g rt hdr rt' j p E No C Kp Cs. unfold parseRadioTextPlus in E. cbv zeta in E.
  match type of E with context [rtplus_tag ?r _ _ _ _ _] => set (rt1 := r) in E end. clearbody rt1.
  destruct (jset ([p] ++ ["item_running"]) _ (JObj hdr)) as [j1| |] eqn:B1; cbn [bind] in E; try discriminate E.
  destruct (jset ([p] ++ ["item_toggle"]) _ j1) as [j2| |] eqn:B2; cbn [bind] in E; try discriminate E.
  match type of E with context [if g_has g BLOCK3 then rtplus_tag _ _ ?a ?b ?c j2 else _] => set (t1 := mkTag a b c) in *; change (rtplus_tag rt1 [p] a b c j2) with (rtplus_tag rt1 [p] (content t1) (Plus.start t1) (chars t1) j2) in E end.
  rewrite tag_pushed in E. cbn [app] in E.
  destruct (if g_has g BLOCK3 then _ else _) as [j3| |] eqn:B3 in E; cbn [bind] in E; try discriminate E.
  match type of E with context [rtplus_tag _ _ ?a ?b ?c j3] => set (t2 := mkTag a b c) in *; change (rtplus_tag rt1 [p] a b c j3) with (rtplus_tag rt1 [p] (content t2) (Plus.start t2) (chars t2) j3) in E end.
  rewrite tag_pushed in E. cbn [app] in E.
  destruct (if g_has g BLOCK3 && g_has g BLOCK4 then _ else _) as [j4| |] eqn:B4 in E; cbn [bind] in E; try discriminate E.
  assert (j4 = j) as -> by congruence. assert (rt1 = rt') as -> by congruence. clear E. cbn [app] in *.
  assert (Kt : forall a, txt (bs a) -> keys_txt [p; a]) by (intros; repeat constructor; assumption).
  assert (C1 : clean j1) by (refine (jset_clean _ _ _ C _ _ _ B1); [apply Kt; reflexivity|reflexivity]).
  assert (C2 : clean j2) by (refine (jset_clean _ _ _ C1 _ _ _ B2); [apply Kt; reflexivity|destruct (getBool _ _); reflexivity]).
  assert (C3 : clean j3).
  { destruct (g_has g BLOCK3); [|congruence]. refine (jpush_all_clean _ _ _ C2 _ _ _ B3); [apply Kt; reflexivity|]. apply Cs. left. reflexivity. }
  assert (C4 : clean j).
  { destruct (g_has g BLOCK3 && g_has g BLOCK4); [|congruence]. refine (jpush_all_clean _ _ _ C3 _ _ _ B4); [apply Kt; reflexivity|]. apply Cs. apply in_or_app. right. left. reflexivity. }
  assert (Dp : forall k, String.eqb "tags" k = false -> jget [p; k] j = jget [p; k] j2).
  { intros k Nk. transitivity (jget [p; k] j3).
    - destruct (g_has g BLOCK3 && g_has g BLOCK4); [|congruence]. eapply push_other; [exact B4|]. cbn [apart]. rewrite String.eqb_refl, Nk. reflexivity.
    - destruct (g_has g BLOCK3); [|congruence]. eapply push_other; [exact B3|]. cbn [apart]. rewrite String.eqb_refl, Nk. reflexivity. }
  split; [exact C4|]. rewrite !Dp by reflexivity. split.
  - erewrite jset_other; [|exact B2|cbn; rewrite String.eqb_refl; reflexivity]. rewrite (jset_same _ _ _ _ B1). reflexivity.
  - rewrite (jset_same _ _ _ _ B2). unfold bits_in. cbn [fst]. destruct (getBool (g_get g BLOCK2) 4); reflexivity.
Qed.

Lemma app_no_announcement : forall g, app_group (g, 0) = true -> announcement (g, 0) = [].
Proof.
  intros g A. unfold app_group in A. cbn [fst snd] in A. apply andb_prop in A. destruct A as [_ A']. apply for_apps_small in A'. unfold announcement, carries. revert A'. clear. intros Fa.
  repeat (destruct Fa as [<-|Fa]; [cbn [gt_number gt_version]; rewrite ?andb_false_r; try reflexivity; destruct (_ && _); reflexivity|]). destruct Fa.
Qed.
Lemma in_items : forall t t2 h b, In (It b) (flat_map (evs t t2) h) -> exists x, In x h /\ app_group x = true /\ g_type (fst x) = t2 /\ item_bits (fst x) = b.
Proof.
  intros t t2 h b X. apply in_flat_map in X. destruct X as (x & X1 & X). exists x. split; [exact X1|]. unfold evs in X. apply in_app_or in X. destruct X as [X|X].
  { apply in_flat_map in X. destruct X as (ta & _ & X). apply in_app_or in X. destruct X as [X|X]; (destruct (GroupType_eqb _ _); [destruct X as [X|[]]; discriminate X|destruct X]). }
  apply in_app_or in X. destruct X as [X|X]; [apply in_map_iff in X; destruct X as (? & X & _); discriminate|].
  destruct (app_group x && GroupType_eqb (g_type (fst x)) t2) eqn:E; [|destruct X]. apply andb_prop in E. destruct E as [E1 E2]. apply eqb_types in E2. destruct X as [X|[]]. split; [exact E1|]. split; [exact E2|congruence].
Qed.
Lemma in_on : forall t t2 h a, In (t, a) (flat_map announcement h) -> In On (flat_map (evs t t2) h).
Proof.
  intros t t2 h a X. apply in_flat_map in X. destruct X as (x & X1 & X2). apply in_flat_map. exists x. split; [exact X1|]. unfold evs. apply in_or_app. left.
  apply in_flat_map. exists (t, a). split; [exact X2|]. cbn [fst]. rewrite eqb_type. left. reflexivity.
Qed.
Lemma in_on2 : forall t t2 h a, In (t2, a) (flat_map announcement h) -> In On2 (flat_map (evs t t2) h).
Proof.
  intros t t2 h a X. apply in_flat_map in X. destruct X as (x & X1 & X2). apply in_flat_map. exists x. split; [exact X1|]. unfold evs. apply in_or_app. left.
  apply in_flat_map. exists (t2, a). split; [exact X2|]. cbn [fst]. rewrite eqb_type. apply in_or_app. right. left. reflexivity.
Qed.
Lemma written_other : forall t t2 g, t <> t2 -> g_type g = t2 -> ert_written t (g, 0) = [].
Proof.
  intros t t2 g Nt Et. unfold ert_written. replace (GroupType_eqb (g_type g) t) with false; [rewrite andb_false_r; reflexivity|]. symmetry. destruct (GroupType_eqb (g_type g) t) eqn:E; [apply eqb_types in E; congruence|reflexivity].
Qed.

Lemma ert_tags_shown : forall env o w0 gs0 ga now1 g1 gb now g c out p t m t2 l body earlier,
  host_ok env -> host_text env -> o_output_type o = OutJSON ->
  let gs := (ga ++ (now1, g1, 0) :: gb) ++ [(now, g, 0)] in
  Forall received_group (gs0 ++ gs) -> p <> 0 -> three p (pis gs0) -> Forall (stays p) gs ->
  Forall (fun x => app_group (snd (fst x), snd x) = true \/ announcement (snd (fst x), snd x) <> [] -> carried_pi x = Some p) gs ->
  In t for_applications -> In t2 for_applications -> t <> t2 -> in_utf8 m -> let all := groups_of (gs0 ++ gs) in
  ert_assigned t m all -> ert_plus_in t2 all -> ert_whole t all -> ert_short t all ->
  In (t, 0x6552) (flat_map announcement (groups_of ga)) -> In (t2, 0x4BD8) (flat_map announcement (groups_of ga)) ->
  app_group (g1, 0) = true -> g_type g1 = t2 -> app_group (g, 0) = true -> g_type g = t2 ->
  (forall x, In x (groups_of gb ++ [(g, 0)]) -> app_group x = true -> g_type (fst x) = t2 -> item_bits (fst x) = item_bits g1) ->
  flat_map (ert_segment t) (groups_of gb) = earlier ++ place 0 l -> ert_text l body ->
  Forall (fun tg => real tg = true -> fits_chars body tg) (tags_in g) ->
  run_groups env o (Channel_new o w0) (gs0 ++ gs) = Ok (c, out) ->
  exists out' line vs, out = out' ++ [Some line] /\ Forall2 (shows_chars body) (filter real (tags_in g)) vs /\
    line_at ["ert_plus"; "tags"] line = match vs with [] => None | _ => Some (VArr vs) end /\
    says line ["ert_plus"; "item_running"] (VBool (snd (item_bits g1))) /\ says line ["ert_plus"; "item_toggle"] (VNum (if fst (item_bits g1) then bs "1" else bs "0")).
Proof.
  intros env o w0 gs0 ga now1 g1 gb now g c out p t m t2 l body earlier H HT OJ gs F Np T3 S P Ta Tb Nt U all O Pi W Sh An1 An2 A1 E1 A E2 Sm Sg Tx Fi E.
  assert (P' : Forall (fun x => evs t t2 (snd (fst x), snd x) <> [] -> carried_pi x = Some p) gs).
  { rewrite Forall_forall in *. intros x X Ne. apply P; [exact X|]. destruct x as [[n x] v]. cbn [fst snd] in *. unfold evs in Ne. destruct (app_group (x, v)) eqn:Ea; [left; reflexivity|right].
    intros Z. rewrite Z in Ne. apply Ne. cbn [flat_map app andb]. rewrite app_nil_r. unfold ert_written. replace ((v =? 0) && g_has_type x && GroupType_eqb (g_type x) t) with false; [reflexivity|].
    unfold app_group in Ea. cbn [fst snd] in Ea. symmetry. destruct ((v =? 0) && g_has_type x); [|reflexivity]. cbn [andb] in *. destruct (GroupType_eqb (g_type x) t) eqn:Y; [|reflexivity]. apply eqb_types in Y.
    assert (Q : existsb (GroupType_eqb (g_type x)) for_applications = true) by (apply existsb_exists; exists t; split; [exact Ta|rewrite Y; apply eqb_type]). congruence. }
  assert (Pg : carried_pi (now, g, 0) = Some p).
  { unfold gs in P. apply Forall_app in P. destruct P as [_ P]. rewrite Forall_cons_iff in P. destruct P as [P _]. apply P. left. exact A. }
  destruct (last_shown (e2_inv (env_ucs2 env) t m t2) env o H HT OJ (fun w => e2_start _ t m t2 (Station_new w) eq_refl eq_refl) (fun w p => e2_start _ t m t2 (Station_new_pi w p) eq_refl eq_refl) (e2_had _ t m t2)
    (fun h st now c g w st' j I _ R _ D => e2_step t m t2 env o h st now c g w st' j Ta Tb Nt I R D) w0 gs0 (ga ++ (now1, g1, 0) :: gb) now g 0 c out p F Np T3 S Pg E)
    as (old & h0 & out0 & out1 & ln & c1 & st & j & D0 & -> & L0 & L1 & I & So & B & _ & Dd & _ & Pj & Ad).
  exists (out0 ++ out1), ln. set (g' := prepared o now c1 g 0) in *. specialize (Ad _ (evs t t2) P').
  assert (R : received_group (now, g, 0)) by (apply Forall_app in F; destruct F as [_ F2]; apply Forall_app in F2; destruct F2 as [_ F2]; inversion F2; assumption).
  destruct I as (Fh & Io & I).
  assert (Sub : forall x, In x (h0 ++ decoded_in (ga ++ (now1, g1, 0) :: gb) out1) -> In x all).
  { intros x X. unfold all, groups_of. rewrite map_app. apply in_or_app. apply in_app_or in X. destruct X as [X|X].
    - left. apply (decoded_sub gs0 out0). rewrite D0. apply in_or_app. right. exact X.
    - right. unfold gs. rewrite map_app. apply in_or_app. left. exact (decoded_sub _ _ _ X). }
  pose proof (assigned_sub t m _ _ Sub O) as Oh. pose proof (plus_in_sub t2 _ _ Sub Pi) as Ph. specialize (I Oh Ph).
  (* what happened before the last group *)
  assert (Eg : evs t t2 (g, 0) = [It (item_bits g)]).
  { unfold evs. cbn [fst]. rewrite (app_no_announcement g A), (written_other t t2 g Nt E2), A, E2, eqb_type. reflexivity. }
  assert (Eg1 : evs t t2 (g1, 0) = [It (item_bits g1)]).
  { unfold evs. cbn [fst]. rewrite (app_no_announcement g1 A1), (written_other t t2 g1 Nt E1), A1, E1, eqb_type. reflexivity. }
  assert (Ev : flat_map (evs t t2) (decoded_in (ga ++ (now1, g1, 0) :: gb) out1) = flat_map (evs t t2) (groups_of ga) ++ It (item_bits g1) :: flat_map (evs t t2) (groups_of gb)).
  { unfold gs in Ad. rewrite (decoded_in_app _ [(now, g, 0)] out1 [Some ln] L1) in Ad. change (decoded_in [(now, g, 0)] [Some ln]) with [(g, 0)] in Ad.
    unfold groups_of in Ad |- *. rewrite !map_app, !flat_map_app in Ad. cbn [map fst snd flat_map] in Ad. rewrite Eg, Eg1, app_nil_r in Ad. apply app_inv_tail in Ad. exact Ad. }
  rewrite flat_map_app, Ev, app_assoc, fold_left_app in I. set (ev0 := flat_map (evs t t2) h0 ++ flat_map (evs t t2) (groups_of ga)) in *.
  assert (Wh0 : wrs ev0 = flat_map (ert_written t) (h0 ++ groups_of ga)) by (unfold ev0; rewrite wrs_app, !wrs_evs, flat_map_app; reflexivity).
  assert (Fr : Forall (fun x => received_group (0%Z, fst x, snd x)) (groups_of ga) /\ Forall (fun x => received_group (0%Z, fst x, snd x)) (groups_of gb)).
  { apply Forall_app in F. destruct F as [_ F]. unfold gs in F. apply Forall_app in F. destruct F as [F _]. apply Forall_app in F. destruct F as [Fa Fb]. rewrite Forall_cons_iff in Fb. destruct Fb as [_ Fb].
    split; unfold groups_of; apply Forall_map; [eapply Forall_impl; [|exact Fa]|eapply Forall_impl; [|exact Fb]]; intros [[n x] v] Q; exact Q. }
  destruct Fr as [Fra Frb].
  assert (Bw : Forall (fun pb => snd pb < 256) (wrs ev0)).
  { rewrite Wh0. apply written_bytes. apply Forall_app. split; [|exact Fra]. apply Forall_app in Fh. destruct Fh as [Fh _]. exact Fh. }
  pose proof (do_sized (env_ucs2 env) m ev0 false (RDSString_new 64) false (false, false) (tracks_sized _ _ _ (new_tracks 64)) Bw) as Z1. fold begin in Z1.
  destruct (do_settled (env_ucs2 env) m ev0 false (RDSString_new 64) false (false, false) ltac:(discriminate)) as (S1 & S2 & S3). fold begin in S1, S2, S3.
  assert (I1 : In On ev0) by (apply in_or_app; right; exact (in_on t t2 _ _ An1)). assert (I2 : In On2 ev0) by (apply in_or_app; right; exact (in_on2 t t2 _ _ An2)).
  specialize (S2 (or_intror I1)). specialize (S3 (or_intror I2)). specialize (S1 S2).
  destruct (fold_left (do2 (env_ucs2 env) m) ev0 begin) as [[[on s] on2] bits]. cbn [fst snd] in *. subst on on2.
  cbn [fold_left do2] in I. remember (if same_bits (item_bits g1) bits then s else s_clear s) as s1 eqn:Es1.
  assert (Z2 : sized 64 s1) by (rewrite Es1; destruct (same_bits _ _); [exact Z1|apply clear_sized; exact Z1]).
  assert (St1 : settled m s1) by (rewrite Es1; destruct (same_bits _ _); [exact S1|apply clear_settled; exact S1]).
  rewrite do_window in I; [|exact St1|].
  2: { intros b X. destruct (in_items _ _ _ _ X) as (x & X1 & X2 & X3 & <-). apply Sm; [apply in_or_app; left; exact X1|exact X2|exact X3]. }
  rewrite wrs_evs in I.
  assert (SubB : forall x, In x (groups_of gb) -> In x all).
  { intros x X. unfold all, gs, groups_of in *. rewrite !map_app. apply in_or_app. right. apply in_or_app. left. apply in_or_app. right. right. exact X. }
  assert (Wok : Forall (fun pb => fst pb < 64 /\ snd pb < 256) (earlier ++ place 0 l)).
  { rewrite <- Sg, <- (whole_written t _ (whole_sub _ _ _ SubB W)). apply ert_ok; [exact Frb|exact (whole_sub _ _ _ SubB W)|exact (short_sub _ _ _ SubB Sh)]. }
  rewrite (whole_written t _ (whole_sub _ _ _ SubB W)), Sg, set_all_app in I. apply Forall_app in Wok. destruct Wok as [W0 W1].
  assert (Z3 : sized 64 (set_all (env_ucs2 env) s1 earlier)) by (apply set_all_sized; [exact Z2|eapply Forall_impl; [|exact W0]; intros ? [_ X]; exact X]).
  assert (En0 : s_encoding (set_all (env_ucs2 env) s1 earlier) = EncUTF8) by (rewrite set_all_encoding; destruct St1 as [-> _]; rewrite getBool_testbit, U; reflexivity).
  remember (set_all (env_ucs2 env) s1 earlier) as s0 eqn:Es0. clear Es0 Es1.
  assert (Fl : Forall (fun b => b < 256) l).
  { clear - W1. revert W1. generalize 0. induction l as [|b l IH]; intros i W; [constructor|]. cbn [place] in W. inversion W; subst. constructor; [tauto|]. eapply IH; eassumption. }
  assert (Ll : N.of_nat (length l) <= 64).
  { clear - W1. destruct (snoc_cases _ l) as [->|(a & x & ->)]; [cbn; lia|]. rewrite place_app in W1. apply Forall_app in W1. destruct W1 as [_ W]. cbn [place] in W. inversion W as [|? ? [X _] _]; subst. cbn [fst] in X. rewrite app_length. cbn [length]. lia. }
  destruct Tx as (cs & Fc & N0 & N1 & Hl). destruct (visible_id cs Fc N0 N1) as [Vi Nte].
  assert (Fb : Forall scalar body) by (destruct Hl as [[_ ->]|(_ & _ & ->)]; [apply Forall_app; split; [exact Fc|constructor; [left; reflexivity|constructor]]|exact Fc]).
  assert (Cs : s_last_complete_string (set_all (env_ucs2 env) s0 (place 0 l)) = utf8_text body).
  { assert (Q : forall s', s_encoding s' = EncUTF8 -> s_isComplete s' = true -> s_str (env_ucs2 env) s' = Some (s_last_complete_string s') -> Forall (fun b => b < 256) (s_data s') -> s_last_complete_string s' = map visible (shown_bytes s')).
    { intros s' En' C' S' F'. pose proof (complete_str (env_ucs2 env) s' F' C') as X. rewrite En', S' in X. congruence. }
    assert (En2 : s_encoding (set_all (env_ucs2 env) s0 (place 0 l)) = EncUTF8) by (rewrite set_all_encoding; exact En0).
    destruct Hl as [[(r & Hl) ->]|(Hl & Hn & ->)].
    - destruct (run_bytes (env_ucs2 env) 64 s0 l (utf8_text cs) r Z3 ltac:(congruence) ltac:(lia) Fl Hl Ll Nte) as (C1 & Sx & B1 & F1).
      rewrite (Q _ En2 C1 Sx F1), B1, map_app, Vi. unfold utf8_text. rewrite flat_map_app. reflexivity.
    - rewrite <- Hl in Nte, Vi. destruct (full_bytes (env_ucs2 env) 64 s0 l Z3 ltac:(congruence) ltac:(lia) Fl ltac:(lia) Nte) as (C1 & Sx & B1 & F1).
      rewrite (Q _ En2 C1 Sx F1), B1, Vi, Hl. reflexivity. }
  assert (Ib : bits_e st = item_bits g1) by congruence. assert (If : found t2 st = true) by congruence.
  assert (It0 : s_last_complete_string (rt_text (st_ert st)) = utf8_text body) by (assert (rt_text (st_ert st) = set_all (env_ucs2 env) s0 (place 0 l)) as -> by congruence; exact Cs).
  (* the last group *)
  assert (Pgr : ert_plus_group st g').
  { unfold app_group in A. cbn [fst snd] in A. apply andb_prop in A. destruct A as [Ah _]. cbn [N.eqb andb] in Ah. unfold ert_plus_group, g'.
    assert (Gt : g_type (prepared o now c1 g 0) = t2) by (rewrite prepared_type; exact E2). split; [rewrite prepared_has_type; exact Ah|]. split; [apply for_apps; rewrite Gt; exact Tb|]. rewrite Gt.
    unfold found in If. destruct (find_type t2 (st_oda_app_for_group st)) as [a|] eqn:Ef; [|discriminate]. destruct (plus_in_found t2 _ st t2 a Ph Io Ef (or_intror eq_refl)) as [_ ->]. reflexivity. }
  destruct (ert_plus_decoded env o st g' _ j Dd Pgr) as (rt & Ep & Es).
  assert (Bi : bits_in g' = item_bits g1).
  { unfold g'. rewrite bits_prepared. apply (Sm (g, 0)); [apply in_or_app; right; left; reflexivity|exact A|exact E2]. }
  destruct (plus_bits _ _ _ _ _ _ Ep) as [_ Ek]. assert (Er : rt = st_ert st) by (apply Ek; rewrite Bi; symmetry; exact Ib). clear Ek.
  pose proof (tags_prepared o now c1 g 0 R) as Tg. cbv zeta in Tg. fold g' in Tg.
  pose proof (header_no env o st g' "ert_plus" B eq_refl) as No.
  assert (Pc : Forall (fun t => 0 < chars t) (tags_in g)).
  { rewrite Tg. apply Forall_app. split; [destruct (g_has g' BLOCK3)|destruct (_ && _)]; repeat constructor; cbn [chars]; lia. }
  destruct (parse_tags g' _ _ rt j "ert_plus" (tags_in g) Ep No Tg) as [_ Jt]. rewrite Er in *.
  destruct (parse_rest g' _ _ _ j "ert_plus" Ep No (header_clean env o st g' (host_text_txt env HT)) eq_refl) as (Cj & J2 & J3).
  { rewrite <- Tg. intros tg X. assert (Y : flat_map (part_shown (rt_text (st_ert st))) [tg] = map (chars_entry body) (filter real [tg])).
    { apply (parts_fit _ body); [exact It0|exact Fb| |]; (constructor; [|constructor]); [rewrite Forall_forall in Pc; exact (Pc tg X)|rewrite Forall_forall in Fi; exact (Fi tg X)]. }
    cbn [flat_map] in Y. rewrite app_nil_r in Y. rewrite Y. apply Forall_map, Forall_forall. intros x _. apply chars_clean. exact Fb. }
  rewrite (parts_fit _ body _ It0 Fb Pc Fi) in Jt.
  exists (map (value_of (env_float env)) (map (chars_entry body) (filter real (tags_in g)))). split; [rewrite app_assoc; reflexivity|]. split; [|split; [|split]].
  - clear. induction (filter real (tags_in g)) as [|x r IH]; [constructor|]. cbn [map]. constructor; [|exact IH]. exists (rtrim (utf8_text (tagged body x))). split; [rewrite <- content_same; reflexivity|apply rtrim_trimmed].
  - rewrite (clean_shows env j ln H Cj Pj), Jt. destruct (map (chars_entry body) _); reflexivity.
  - unfold says. rewrite (clean_shows env j ln H Cj Pj), J2, Bi. reflexivity.
  - unfold says. rewrite (clean_shows env j ln H Cj Pj), J3, Bi. destruct (fst (item_bits g1)); reflexivity.
Qed.
