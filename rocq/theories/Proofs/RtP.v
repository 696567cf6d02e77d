(* RadioText. *)
From Verif.Model Require Import Util Group Options Tables Json RdsString Tmc Station Channel.
From Verif.Spec Require Import Unicode JsonText Session Identity History Quality Texts.
From Verif.Proofs Require Import Tac Numerals JsonP Schema StationP TextP CleanP UpdateP SessionP LineP FrameP ChannelP LinesP HistoryP ShowP TraceP KeysP StringP FreqP PsP.

Local Open Scope string_scope.
Local Open Scope N_scope.
Local Open Scope list_scope.

(* The part a group carries, as the decoder reads it *)
Definition part_of (g : Group) : rt_part :=
  let n := getBits 4 (g_get g BLOCK2) 0 in
  let d := [getUint8 (g_get g BLOCK4) 8; getUint8 (g_get g BLOCK4) 0] in
  if Version_eqb (gt_version (g_type g)) VA
  then mkPart (getBool (g_get g BLOCK2) 4) VA (n * 4) (getUint8 (g_get g BLOCK3) 8 :: getUint8 (g_get g BLOCK3) 0 :: d)
  else mkPart (getBool (g_get g BLOCK2) 4) VB (n * 2) d.

Definition rt_put (u : bytes -> option bytes) (s : RDSString) (ab : bool) (q : rt_part) : RDSString :=
  set_all u (s_resize (if Bool.eqb ab (p_flag q) then s else s_clear s) (rt_size (p_version q))) (place (p_pos q) (p_chars q)).
Definition rt_cand (s : RDSString) (q : rt_part) : bool :=
  (p_pos q =? 0) && (1 <? s_sequential_length s) && negb (s_isComplete s) && negb (s_hasPreviouslyReceivedTerminators s).
Definition rt_msg (s : RDSString) : bytes := rtrim (flat_map getRDSCharString (s_getData s)).

Definition text_of (st : Station) : RDSString := rt_text (st_radiotext st).
Definition ab_of (st : Station) : bool := rt_ab (st_radiotext st).
Definition prev_of (st : Station) : bytes := rt_previous_potentially_complete_message (st_radiotext st).

(* The end of the decoder *)
Definition rt_fin (env : Env) (o : Options) (st : Station) (rt : RadioText) (hm : bool) (msg : bytes) (j : json) : res (Station * json) :=
  if s_isComplete (rt_text rt) then
    j <- jset ["radiotext"] (JStr (rtrim (s_last_complete_string (rt_text rt)))) j ;; Ok (set_radiotext st rt, j)
  else if hm then
    j <- jset ["radiotext"] (JStr (rtrim msg)) j ;; Ok (set_radiotext st rt, j)
  else if o_show_partial o then
    match s_str (env_ucs2 env) (rt_text rt) with
    | Some t => match rtrim t with
                | [] => Ok (set_radiotext st rt, j)
                | _ => j <- jset ["partial_radiotext"] (JStr t) j ;; Ok (set_radiotext st rt, j)
                end
    | None => j <- debug (env_what_iconv env) j ;; Ok (set_radiotext st rt, j)
    end
  else Ok (set_radiotext st rt, j).

Lemma rt_tail : forall env o st rt (hm : bool) msg j, conf (String.eqb "radiotext") absent j ->
  good (fun sj => st_radiotext (fst sj) = rt /\
    jget ["radiotext"] (snd sj) = if s_isComplete (rt_text rt) then Some (JStr (rtrim (s_last_complete_string (rt_text rt))))
      else if hm then Some (JStr (rtrim msg)) else None) (rt_fin env o st rt hm msg j).
Proof.
  intros env o st rt hm msg j C. unfold rt_fin.
  assert (W : Schema.writes (String.eqb "radiotext") ["rt_ab"; "partial_radiotext"; "debug"]) by (repeat constructor).
  destruct (s_isComplete _); [|destruct hm]; [| |destruct (o_show_partial o)].
  - destruct C as (m & -> & _). rewrite jset_top. cbn [bind]. apply good_ok. split; [reflexivity|]. cbn [snd jget]. rewrite find_put. reflexivity.
  - destruct C as (m & -> & _). rewrite jset_top. cbn [bind]. apply good_ok. split; [reflexivity|]. cbn [snd jget]. rewrite find_put. reflexivity.
  - destruct (s_str _ _) as [t|].
    + destruct (rtrim t); [apply good_ok; split; [reflexivity|apply (conf_get _ _ _ "radiotext" C); reflexivity]|].
      jstep. apply good_ok. split; [reflexivity|]. apply (conf_get _ _ _ "radiotext" C). reflexivity.
    + jstep. apply good_ok. split; [reflexivity|]. apply (conf_get _ _ _ "radiotext" C). reflexivity.
  - apply good_ok. split; [reflexivity|]. apply (conf_get _ _ _ "radiotext" C). reflexivity.
Qed.
Lemma rt_tail_partial : forall env o st rt (hm : bool) msg j, conf (String.eqb "partial_radiotext") absent j -> s_encoding (rt_text rt) = EncBasic ->
  good (fun sj => forall v, jget ["partial_radiotext"] (snd sj) = Some v -> s_isComplete (rt_text rt) = false /\
    let t := flat_map getRDSCharString (s_getData (rt_text rt)) in rtrim t <> [] /\ v = JStr t) (rt_fin env o st rt hm msg j).
Proof.
  intros env o st rt hm msg j C En. unfold rt_fin.
  assert (W : Schema.writes (String.eqb "partial_radiotext") ["rt_ab"; "radiotext"; "debug"]) by (repeat constructor).
  destruct (s_isComplete _); [|destruct hm]; [| |destruct (o_show_partial o)].
  - jstep. apply good_ok. intros v. cbn [snd]. rewrite (conf_get _ _ _ "partial_radiotext" C) by reflexivity. discriminate.
  - jstep. apply good_ok. intros v. cbn [snd]. rewrite (conf_get _ _ _ "partial_radiotext" C) by reflexivity. discriminate.
  - unfold s_str. rewrite En. destruct (rtrim _) eqn:Er.
    + apply good_ok. intros v. cbn [snd]. rewrite (conf_get _ _ _ "partial_radiotext" C) by reflexivity. discriminate.
    + destruct C as (m & -> & _). rewrite jset_top. cbn [bind]. apply good_ok. intros v. cbn [snd jget]. rewrite find_put. intros X. injection X as <-.
      split; [reflexivity|]. split; [discriminate|reflexivity].
  - apply good_ok. intros v. cbn [snd]. rewrite (conf_get _ _ _ "partial_radiotext" C) by reflexivity. discriminate.
Qed.

Lemma decodeType2_shape : forall env o st g, s_encoding (text_of st) = EncBasic -> g_has g BLOCK3 && g_has g BLOCK4 = true ->
  let q := part_of g in
  let s' := rt_put (env_ucs2 env) (text_of st) (ab_of st) q in
  exists rt, rt_text rt = s' /\ rt_ab rt = p_flag q /\
    rt_previous_potentially_complete_message rt = (if rt_cand (text_of st) q then rt_msg (text_of st) else prev_of st) /\
    forall j, decodeType2 env o st g j =
      (j <- (if o_show_partial o then jset ["rt_ab"] (JS (if p_flag q then "B" else "A")) j else Ok j) ;;
       rt_fin env o st rt (rt_cand (text_of st) q && Base.bytes_eqb (rt_msg (text_of st)) (prev_of st)) (rt_msg (text_of st)) j).
Proof.
  intros env o st g En H34 q s'. set (ab := getBool (g_get g BLOCK2) 4).
  assert (Fq : p_flag q = ab) by (unfold q, part_of; destruct (Version_eqb _ VA); reflexivity).
  assert (Pt : forall prev', rt_text (rt_update (env_ucs2 env)
      (if Version_eqb (gt_version (g_type g)) VA
       then rt_update (env_ucs2 env) (rt_set_text (if negb (Bool.eqb (rt_ab (st_radiotext st)) ab)
              then rt_set_text (mkRadioText (rt_text (st_radiotext st)) (rt_plus (st_radiotext st)) prev' ab) (s_clear (rt_text (st_radiotext st)))
              else mkRadioText (rt_text (st_radiotext st)) (rt_plus (st_radiotext st)) prev' ab)
              (s_resize (rt_text (if negb (Bool.eqb (rt_ab (st_radiotext st)) ab)
              then rt_set_text (mkRadioText (rt_text (st_radiotext st)) (rt_plus (st_radiotext st)) prev' ab) (s_clear (rt_text (st_radiotext st)))
              else mkRadioText (rt_text (st_radiotext st)) (rt_plus (st_radiotext st)) prev' ab)) 64))
              (getBits 4 (g_get g BLOCK2) 0 * (if Version_eqb (gt_version (g_type g)) VA then 4 else 2)) (getUint8 (g_get g BLOCK3) 8) (getUint8 (g_get g BLOCK3) 0)
       else rt_set_text (if negb (Bool.eqb (rt_ab (st_radiotext st)) ab)
              then rt_set_text (mkRadioText (rt_text (st_radiotext st)) (rt_plus (st_radiotext st)) prev' ab) (s_clear (rt_text (st_radiotext st)))
              else mkRadioText (rt_text (st_radiotext st)) (rt_plus (st_radiotext st)) prev' ab)
              (s_resize (rt_text (if negb (Bool.eqb (rt_ab (st_radiotext st)) ab)
              then rt_set_text (mkRadioText (rt_text (st_radiotext st)) (rt_plus (st_radiotext st)) prev' ab) (s_clear (rt_text (st_radiotext st)))
              else mkRadioText (rt_text (st_radiotext st)) (rt_plus (st_radiotext st)) prev' ab)) 32))
      (getBits 4 (g_get g BLOCK2) 0 * (if Version_eqb (gt_version (g_type g)) VA then 4 else 2) + (if Version_eqb (gt_version (g_type g)) VA then 2 else 0))
      (getUint8 (g_get g BLOCK4) 8) (getUint8 (g_get g BLOCK4) 0)) = s').
  { intros prev'. unfold s', rt_put. rewrite Fq. unfold q, part_of, text_of, ab_of. destruct (Bool.eqb (rt_ab (st_radiotext st)) ab); cbn [negb];
    destruct (Version_eqb (gt_version (g_type g)) VA); cbn [rt_text rt_update rt_set_text p_version p_pos p_chars rt_size]; unfold s_set2, set_all; cbn [place fold_left fst snd];
    rewrite <- ?N.add_assoc; cbn [N.add]; rewrite ?N.add_0_r; reflexivity. }

  assert (Cd : (getBits 4 (g_get g BLOCK2) 0 * (if Version_eqb (gt_version (g_type g)) VA then 4 else 2) =? 0) && (1 <? s_sequential_length (text_of st)) &&
            negb (s_isComplete (text_of st)) && negb (s_hasPreviouslyReceivedTerminators (text_of st)) = rt_cand (text_of st) q)
    by (unfold rt_cand, q, part_of; destruct (Version_eqb _ VA); reflexivity).
  unfold text_of at 1 2 3 in Cd.
  eexists. split; [apply (Pt (if rt_cand (text_of st) q then rt_msg (text_of st) else prev_of st))|].
  split; [rewrite Fq; destruct (Version_eqb _ VA), (negb _); reflexivity|]. split; [destruct (Version_eqb _ VA), (negb _); reflexivity|].
  intros j. unfold decodeType2. rewrite H34. cbn [negb]. cbv zeta. unfold rt_isABChanged. cbv iota. rewrite Fq. fold ab.
  apply bind_ext. intros j1. unfold s_getReceivedLength. cbn [rt_text]. rewrite Cd. clear Cd. unfold rt_fin.
  destruct (rt_cand (text_of st) q); cbn [andb].
  - destruct (StringP.basic_str (env_ucs2 env) (text_of st) ltac:(congruence)) as (t & Et). fold (text_of st). rewrite Et.
    assert (Mt : rtrim t = rt_msg (text_of st)) by (unfold s_str in Et; rewrite En in Et; injection Et as <-; reflexivity).
    rewrite Mt. reflexivity.
  - reflexivity.
Qed.
Lemma decodeType2_rt : forall env o st g j, conf (String.eqb "radiotext") absent j -> s_encoding (text_of st) = EncBasic ->
  g_has g BLOCK3 && g_has g BLOCK4 = true ->
  let q := part_of g in
  let s' := rt_put (env_ucs2 env) (text_of st) (ab_of st) q in
  good (fun sj => text_of (fst sj) = s' /\ ab_of (fst sj) = p_flag q /\
    prev_of (fst sj) = (if rt_cand (text_of st) q then rt_msg (text_of st) else prev_of st) /\
    jget ["radiotext"] (snd sj) =
      if s_isComplete s' then Some (JStr (rtrim (s_last_complete_string s')))
      else if rt_cand (text_of st) q && Base.bytes_eqb (rt_msg (text_of st)) (prev_of st) then Some (JStr (rtrim (rt_msg (text_of st)))) else None)
    (decodeType2 env o st g j).
Proof.
  intros env o st g j C En H34 q s'. destruct (decodeType2_shape env o st g En H34) as (rt & R1 & R2 & R3 & Sh). rewrite Sh. fold q s' in R1, R2, R3 |- *.
  assert (W : Schema.writes (String.eqb "radiotext") ["rt_ab"; "partial_radiotext"; "debug"]) by (repeat constructor).
  apply (good_bind _ _ (conf (String.eqb "radiotext") absent)).
  { destruct (o_show_partial o); [assign|apply good_ok; exact C]. }
  clear j C Sh. intros j C. eapply good_imp; [apply rt_tail; exact C|]. intros [st' j'] [Es Ej]. cbn [fst snd] in *. unfold text_of, ab_of, prev_of in *. rewrite Es, R1 in *.
  split; [reflexivity|]. split; [exact R2|]. split; [exact R3|exact Ej].
Qed.
Lemma decodeType2_partial : forall env o st g j, conf (String.eqb "partial_radiotext") absent j -> s_encoding (text_of st) = EncBasic ->
  g_has g BLOCK3 && g_has g BLOCK4 = true ->
  let s' := rt_put (env_ucs2 env) (text_of st) (ab_of st) (part_of g) in
  good (fun sj => forall v, jget ["partial_radiotext"] (snd sj) = Some v -> s_isComplete s' = false /\
    let t := flat_map getRDSCharString (s_getData s') in rtrim t <> [] /\ v = JStr t) (decodeType2 env o st g j).
Proof.
  intros env o st g j C En H34 s'. destruct (decodeType2_shape env o st g En H34) as (rt & R1 & R2 & R3 & Sh). rewrite Sh. fold s' in R1.
  assert (W : Schema.writes (String.eqb "partial_radiotext") ["rt_ab"; "radiotext"; "debug"]) by (repeat constructor).
  apply (good_bind _ _ (conf (String.eqb "partial_radiotext") absent)).
  { destruct (o_show_partial o); [assign|apply good_ok; exact C]. }
  clear j C Sh. intros j C. rewrite <- R1. apply rt_tail_partial; [exact C|]. rewrite R1. unfold s', rt_put. rewrite set_all_encoding. destruct (Bool.eqb _ _); exact En.
Qed.

Lemma had_rt : forall st g, st_radiotext (had st g) = st_radiotext st.
Proof. intros st g. unfold had. destruct (_ || _); reflexivity. Qed.
Lemma had_oda : forall st g, st_oda_app_for_group (had st g) = st_oda_app_for_group st.
Proof. intros st g. unfold had. destruct (_ || _); reflexivity. Qed.

Lemma part_prepared : forall o now c g w, received_group (now, g, w) ->
  rt_segment (g, w) = let g' := prepared o now c g w in
    if g_has_type g' && negb (Version_eqb (gt_version (g_type g')) VC) && (gt_number (g_type g') =? 2) && (g_has g' BLOCK3 && g_has g' BLOCK4)
    then [part_of g'] else [].
Proof.
  intros o now c g w (_ & R1 & R2 & R3 & R4). cbv zeta. unfold rt_segment. rewrite (carries_prepared 2 o now c g w). cbv zeta.
  set (g' := prepared o now c g w). destruct (g_has_type g'); cbn [andb]; [|reflexivity].
  destruct (Version_eqb (gt_version (g_type g')) VC) eqn:Hv; cbn [negb andb]; [rewrite andb_false_r; reflexivity|]. rewrite andb_true_r, <- andb_assoc.
  destruct (gt_number (g_type g') =? 2) eqn:Hn; cbn [andb]; [|reflexivity]. destruct (g_has g' BLOCK3 && g_has g' BLOCK4); [|reflexivity].
  assert (Gt : g_type g = g_type g').
  { unfold g'. rewrite prepared_type. destruct (w =? 0) eqn:Ew; [reflexivity|]. exfalso. unfold g' in Hv. rewrite prepared_type, Ew in Hv. discriminate. }
  rewrite Gt. unfold part_of, g'. rewrite !prepared_get. unfold g_get. cbn [g_block].
  destruct (hi_bits _ R3) as [-> _]. destruct (lo_bits (blk_data (g_b3 g))) as [-> _]. destruct (hi_bits _ R4) as [-> _]. destruct (lo_bits (blk_data (g_b4 g))) as [-> _].
  rewrite getBits_arith, getBool_testbit. change (2 ^ 0) with 1. change (2 ^ 4) with 16. rewrite N.div_1_r. fold g'. rewrite !(N.mul_comm (_ mod 16)).
  destruct (gt_version (g_type g')); reflexivity.
Qed.

(* RadioText+ groups leave the text or clear it *)
Definition kept (rt rt' : RadioText) : Prop :=
  (rt_text rt' = rt_text rt \/ rt_text rt' = s_clear (rt_text rt)) /\ rt_ab rt' = rt_ab rt /\
  rt_previous_potentially_complete_message rt' = rt_previous_potentially_complete_message rt.
Lemma rtp_keeps : forall g rt p j, keeps (fun rj => kept rt (fst rj)) (parseRadioTextPlus g rt p j).
Proof.
  intros g rt p j. unfold parseRadioTextPlus. cbv zeta.
  do 4 (eapply keeps_bind; [apply keeps_true|intros ? _]). apply keeps_ok. cbn [fst].
  destruct (_ || _); [|repeat split; auto]. repeat split; auto.
Qed.

Lemma oda_dispatch : forall env o st g j a, oda_type g = true -> find_type (g_type g) (st_oda_app_for_group st) = Some a ->
  decodeByType env o st g j = decodeODAGroup env st g j.
Proof.
  intros env o st g j a Od Ef. unfold oda_type in Od. cbv zeta in Od. apply andb_prop in Od. destruct Od as [Od H4]. apply andb_prop in Od. destruct Od as [Od H3].
  apply andb_prop in Od. destruct Od as [H1 H2]. apply negb_true_iff in H1, H2, H3, H4. unfold decodeByType. cbv zeta. rewrite H1.
  apply orb_false_elim in H2. destruct H2 as [H2 H14]. apply orb_false_elim in H2. destruct H2 as [H2 N2]. apply orb_false_elim in H2. destruct H2 as [N0 N1].
  rewrite N0, N1, N2, H14. rewrite (andb_comm _ (Version_eqb _ VB)), H4.
  assert (H3' : forall n, n = 3 \/ n = 4 \/ n = 10 -> (gt_number (g_type g) =? n) && Version_eqb (gt_version (g_type g)) VA = false).
  { intros n Hn. rewrite andb_comm. apply andb_false_iff in H3. apply andb_false_iff. destruct H3 as [H3|H3]; [left; exact H3|right].
    apply orb_false_elim in H3. destruct H3 as [H3 X]. apply orb_false_elim in H3. destruct H3 as [Y Z]. destruct Hn as [->|[->| ->]]; assumption. }
  rewrite !H3' by tauto. rewrite Ef. reflexivity.
Qed.

Definition plus_group (st : Station) (g : Group) : Prop :=
  g_has_type g = true /\ oda_type g = true /\ find_type (g_type g) (st_oda_app_for_group st) = Some 0x4BD7.

Lemma type2_cases : forall env o st g st' j, decoded env o st g = Ok (st', j) ->
  (g_has_type g = true /\ Version_eqb (gt_version (g_type g)) VC = false /\ gt_number (g_type g) = 2 /\
   decodeType2 env o (had st g) g (JObj (header env o st g)) = Ok (st', j)) \/
  ((g_has_type g = false \/ Version_eqb (gt_version (g_type g)) VC = true \/ gt_number (g_type g) <> 2) /\
   kept (st_radiotext st) (st_radiotext st') /\ (rt_text (st_radiotext st') = rt_text (st_radiotext st) \/ plus_group st g) /\
   (g_has_type g = true -> existsb (String.eqb "radiotext") (type_keys o st g) = false)).
Proof.
  intros env o st g st' j D. pose proof (decoded_frame env o st g _ D) as Fr. cbn [fst] in Fr. destruct Fr as (_ & _ & _ & Fp & _).
  assert (Kp : off (group_fields (had st g) g) Frt ->
    kept (st_radiotext st) (st_radiotext st') /\ (rt_text (st_radiotext st') = rt_text (st_radiotext st) \/ plus_group st g)).
  { intros X. destruct (Fp ltac:(destruct (g_has_type g); [exact X|reflexivity])) as (A1 & A2 & A3). rewrite had_rt in A1, A2, A3. split; [|left; exact A1]. split; [left; exact A1|]. split; assumption. }
  destruct (g_has_type g) eqn:Ht.
  2: { right. split; [auto|]. unfold decoded in D. rewrite Ht in D. assert (st' = had st g) as -> by congruence. rewrite had_rt.
       split; [repeat split; auto|]. split; [auto|discriminate]. }
  destruct (Version_eqb (gt_version (g_type g)) VC) eqn:Hv.
  { right. split; [auto|]. assert (X : off (group_fields (had st g) g) Frt) by (unfold group_fields; cbv zeta; rewrite Hv; reflexivity).
    destruct (Kp X) as [A B]. split; [exact A|]. split; [exact B|]. intros _. unfold type_keys. cbv zeta. rewrite Hv. reflexivity. }
  destruct (N.eq_dec (gt_number (g_type g)) 2) as [Hn|Hn].
  - left. repeat split; try assumption. unfold decoded in D. rewrite Ht in D. unfold decodeByType in D. cbv zeta in D. rewrite Hv, Hn in D. exact D.
  - right. apply N.eqb_neq in Hn. split; [right; right; apply N.eqb_neq; exact Hn|].
    assert (Ky : existsb (String.eqb "radiotext") (type_keys o st g) = false).
    { unfold type_keys, app_keys. cbv zeta. rewrite Hv, Hn. by_cases. }
    destruct (oda_type g) eqn:Od.
    + destruct (find_type (g_type g) (st_oda_app_for_group st)) as [a|] eqn:Ef.
      * destruct (N.eq_dec a 0x4BD7) as [->|Na].
        { assert (K : kept (st_radiotext st) (st_radiotext st')).
          { unfold decoded in D. rewrite Ht in D. rewrite (oda_dispatch _ _ _ _ _ _ Od (eq_trans (f_equal (find_type (g_type g)) (had_oda st g)) Ef)) in D.
            unfold decodeODAGroup in D. rewrite had_oda, Ef, had_rt in D. cbn [N.eqb Pos.eqb] in D.
            destruct (parseRadioTextPlus g (st_radiotext st) ["radiotext_plus"] (JObj (header env o st g))) as [[rt j2]| |] eqn:E2; cbn [bind] in D; try discriminate D.
            assert (st' = set_radiotext (had st g) rt) as -> by congruence. exact (rtp_keeps _ _ _ _ _ E2). }
          split; [exact K|]. split; [right; split; [exact Ht|split; [exact Od|exact Ef]]|intros _; exact Ky]. }
        { assert (X : off (group_fields (had st g) g) Frt).
          { unfold off, group_fields, app_fields. cbv zeta. rewrite Hv, Hn, Od, had_oda, Ef. apply N.eqb_neq in Na. rewrite Na. by_cases. }
          destruct (Kp X) as [A B]. split; [exact A|]. split; [exact B|intros _; exact Ky]. }
      * assert (X : off (group_fields (had st g) g) Frt).
        { unfold off, group_fields, app_fields. cbv zeta. rewrite Hv, Hn, Od, had_oda, Ef. by_cases. }
        destruct (Kp X) as [A B]. split; [exact A|]. split; [exact B|intros _; exact Ky].
    + assert (X : off (group_fields (had st g) g) Frt).
      { unfold off, group_fields, app_fields. cbv zeta. rewrite Hv, Hn, Od. by_cases. }
      destruct (Kp X) as [A B]. split; [exact A|]. split; [exact B|intros _; exact Ky].
Qed.

(* ---- trailing blanks ---- *)
Lemma rtrim_blanks : forall n a, rtrim (a ++ repeat 32 n)%list = rtrim a.
Proof.
  intros n a. unfold rtrim. f_equal. rewrite rev_app_distr. replace (rev (repeat 32 n)) with (repeat 32 n).
  - induction n as [|n IH]; [reflexivity|exact IH].
  - induction n as [|n IH]; [reflexivity|]. cbn [repeat rev]. rewrite <- IH. apply repeat_cons.
Qed.
Lemma rtrim_twice : forall a, rtrim (rtrim a) = rtrim a.
Proof. intros a. destruct (rtrim_spec a) as (n & E & _). rewrite E at 2. rewrite rtrim_blanks. reflexivity. Qed.
Lemma rtrim_trimmed : forall a, trimmed a (rtrim a).
Proof. intros a. destruct (rtrim_spec a) as (n & E & H). exists n. split; [exact E|exact H]. Qed.

(* ---- the message received so far ---- *)
Definition part_ok (q : rt_part) : Prop :=
  p_pos q + N.of_nat (length (p_chars q)) <= rt_size (p_version q) /\ Forall (fun b => b < 256) (p_chars q) /\ p_chars q <> [].
Lemma part_place : forall q, part_ok q -> Forall (fun pb => fst pb < rt_size (p_version q) /\ snd pb < 256) (place (p_pos q) (p_chars q)).
Proof. intros q (A & B & _). apply place_ok; assumption. Qed.
Lemma segment_ok : forall x, received_group (0%Z, fst x, snd x) -> Forall part_ok (rt_segment x).
Proof.
  intros [g w] (_ & R1 & R2 & R3 & R4). cbn [fst snd] in *. unfold rt_segment. destruct (carries 2 g w); [|constructor].
  pose proof (N.mod_lt (blk_data (g_b2 g)) 16 ltac:(discriminate)). destruct (hi_bits _ R3) as [_ ?]. destruct (lo_bits (blk_data (g_b3 g))) as [_ ?]. destruct (hi_bits _ R4) as [_ ?]. destruct (lo_bits (blk_data (g_b4 g))) as [_ ?].
  destruct (gt_version (g_type g)); (constructor; [|constructor]); unfold part_ok; cbn [p_pos p_version p_chars rt_size length];
    (split; [lia|split; [repeat constructor; assumption|discriminate]]).
Qed.
Definition parts (h : list (Group * N)) : list rt_part := flat_map rt_segment h.
Lemma parts_ok : forall h, Forall (fun x => received_group (0%Z, fst x, snd x)) h -> Forall part_ok (parts h).
Proof. intros h F. unfold parts. apply Forall_flat_map. eapply Forall_impl; [|exact F]. intros x. apply segment_ok. Qed.

Lemma steady_app : forall a b, steady (a ++ b) -> steady a /\ steady b.
Proof.
  intros a b S. split; intros c x y d E.
  - apply (S c x y (d ++ b)%list). rewrite E, <- app_assoc. reflexivity.
  - apply (S (a ++ c)%list x y d). rewrite E, <- app_assoc. reflexivity.
Qed.

Definition rt_inv (h : list (Group * N)) (st : Station) : Prop :=
  Forall (fun x => received_group (0%Z, fst x, snd x)) h /\ s_encoding (text_of st) = EncBasic /\
  (steady (parts h) -> (exists earlier msg v, parts h = (earlier ++ msg)%list /\ uniform (ab_of st) v msg /\ tracks (rt_size v) (text_of st) (part_writes msg)) /\
   (prev_of st = [] \/ exists b1 q1 b2, parts h = (b1 ++ q1 :: b2)%list /\ p_pos q1 = 0 /\ unfinished b1 (prev_of st))).

Lemma new_inv : forall st, st_radiotext st = RadioText_default -> rt_inv [] st.
Proof.
  intros st E. unfold rt_inv, text_of, ab_of, prev_of. rewrite E. split; [constructor|]. split; [reflexivity|]. intros _. split; [|left; reflexivity]. exists [], [], VA.
  split; [reflexivity|]. split; [constructor|apply (new_tracks 64)].
Qed.
Lemma seq_nil : forall n s, tracks n s [] -> s_sequential_length s = 0.
Proof.
  intros n s (_ & _ & _ & T). destruct (s_sequential_length s) as [|p]; [reflexivity|]. destruct (T ltac:(lia)) as (_ & (ws & b & E) & _). destruct ws; discriminate E.
Qed.
Lemma part_writes_app : forall a b, part_writes (a ++ b) = (part_writes a ++ part_writes b)%list.
Proof. intros. apply flat_map_app. Qed.

Lemma snoc_cases : forall (A : Type) (l : list A), l = [] \/ exists a x, l = (a ++ [x])%list.
Proof. intros A l. induction l as [|a l IH] using rev_ind; [left; reflexivity|right; eauto]. Qed.
Lemma put_tracks : forall u s ab q earlier msg v, uniform ab v msg ->
  tracks (rt_size v) s (part_writes msg) -> part_ok q -> steady (earlier ++ msg ++ [q]) ->
  let msg' := if Bool.eqb ab (p_flag q) then (msg ++ [q])%list else [q] in
  uniform (p_flag q) (p_version q) msg' /\
  tracks (rt_size (p_version q)) (rt_put u s ab q) (part_writes msg').
Proof.
  intros u s ab q earlier msg v Fa T Pk Sy. pose proof (part_place q Pk) as Pp. unfold rt_put.
  destruct (Bool.eqb ab (p_flag q)) eqn:Eb; cbv zeta.
  - apply Bool.eqb_prop in Eb. rewrite part_writes_app. change (part_writes [q]) with (place (p_pos q) (p_chars q) ++ [])%list. rewrite app_nil_r.
    destruct (snoc_cases _ msg) as [->|(m1 & x & ->)].
    + split; [constructor; [split; reflexivity|constructor]|]. apply set_all_tracks; [|exact Pp]. apply (resize_any _ _ _ [] _ T). exact (seq_nil _ _ T).
    + assert (X : p_flag x = ab /\ p_version x = v) by (apply Forall_app in Fa; destruct Fa as [_ Fa]; inversion Fa; assumption).
      assert (V : p_version x = p_version q).
      { apply (Sy (earlier ++ m1)%list x q []). { rewrite <- !app_assoc. reflexivity. } destruct X. congruence. }
      assert (v = p_version q) as -> by (destruct X; congruence). rewrite Eb in Fa.
      split; [apply Forall_app; split; [exact Fa|constructor; [split; reflexivity|constructor]]|].
      rewrite (resize_tracks _ _ _ T). apply set_all_tracks; [exact T|exact Pp].
  - split; [constructor; [split; reflexivity|constructor]|]. change (part_writes [q]) with (place (p_pos q) (p_chars q) ++ [])%list. rewrite app_nil_r.
    apply (set_all_tracks u _ _ _ []); [|exact Pp]. apply (resize_any _ _ _ [] _ (clear_tracks _ s _ [] T)). reflexivity.
Qed.
Lemma put_encoding : forall u s ab q, s_encoding (rt_put u s ab q) = s_encoding s.
Proof. intros u s ab q. unfold rt_put. rewrite set_all_encoding. destruct (Bool.eqb _ _); reflexivity. Qed.
Lemma rt_size_pos : forall v, 0 < rt_size v.
Proof. intros []; reflexivity. Qed.

Lemma header_rt : forall env o st g, bler_ok g -> conf (String.eqb "radiotext") absent (JObj (header env o st g)).
Proof. intros env o st g B. apply header_absent; [exact B|reflexivity]. Qed.
Lemma no_part : forall o now c g w, received_group (now, g, w) -> let g' := prepared o now c g w in
  g_has_type g' = false \/ Version_eqb (gt_version (g_type g')) VC = true \/ gt_number (g_type g') <> 2 -> rt_segment (g, w) = [].
Proof.
  intros o now c g w R g' N0. rewrite (part_prepared o now c g w R). cbv zeta. fold g'. destruct N0 as [->|[->|No]]; [reflexivity|rewrite andb_false_r; reflexivity|].
  apply N.eqb_neq in No. rewrite No, andb_false_r. reflexivity.
Qed.

(* An unterminated message: what has been received up to the first gap *)
Lemma getData_blank : forall len d i sq, (N.to_nat (sq - i) <= len)%nat -> (len <= length d)%nat -> getData_loop d i sq len =
  map visible (firstn (N.to_nat (sq - i)) d) ++ repeat 32 (len - N.to_nat (sq - i)).
Proof.
  induction len as [|len IH]; intros d i sq H1 H2; [replace (N.to_nat (sq - i)) with O by lia; destruct d; reflexivity|].
  destruct d as [|b d]; [cbn [length] in H2; lia|]. cbn [getData_loop length] in *.
  rewrite IH by lia. destruct (N.ltb_spec i sq) as [L|L].
  - replace (N.to_nat (sq - i)) with (S (N.to_nat (sq - (i + 1)))) by lia. cbn [firstn map app Nat.sub]. f_equal.
    unfold visible. change kStringTerminator with end_of_text. destruct (b =? 0), (b =? end_of_text); reflexivity.
  - replace (sq - i) with 0 by lia. replace (sq - (i + 1)) with 0 by lia. cbn [andb firstn map app N.to_nat Nat.sub repeat]. rewrite Nat.sub_0_r. reflexivity.
Qed.
Lemma blanks_text : forall n, flat_map getRDSCharString (repeat 32 n) = repeat 32 n.
Proof. induction n as [|n IH]; [reflexivity|]. cbn [repeat flat_map]. rewrite IH. reflexivity. Qed.
Lemma no_terminator : forall s, s_hasPreviouslyReceivedTerminators s = false -> ~ In end_of_text (s_data s).
Proof.
  intros s H X. unfold s_hasPreviouslyReceivedTerminators in H. assert (existsb (N.eqb kStringTerminator) (s_data s) = true) as Y; [|congruence].
  apply existsb_exists. exists end_of_text. split; [exact X|reflexivity].
Qed.
Lemma cand_spec : forall n s ws q, tracks n s ws -> rt_cand s q = true ->
  let l := firstn (N.to_nat (s_sequential_length s)) (s_data s) in
  p_pos q = 0 /\ gapless ws l /\ 1 < N.of_nat (length l) /\ ~ In end_of_text l /\ trimmed (rds_text l) (rt_msg s).
Proof.
  intros n s ws q (Tl & Ts & Tb & T) C l. unfold rt_cand in C. apply andb_prop in C. destruct C as [C C4]. apply andb_prop in C. destruct C as [C C3]. apply andb_prop in C. destruct C as [C1 C2].
  apply N.eqb_eq in C1. apply N.ltb_lt in C2. apply negb_true_iff in C3, C4. pose proof (no_terminator s C4) as Nt.
  destruct (T ltac:(lia)) as (Is & _ & Lt).
  assert (Ll : N.of_nat (length l) = s_sequential_length s) by (unfold l; rewrite firstn_length; lia).
  assert (Nl : ~ In end_of_text l) by (intros X; apply Nt; unfold l in X; rewrite <- (firstn_skipn (N.to_nat (s_sequential_length s))); apply in_or_app; left; exact X).
  assert (Fl : Forall (fun b => b < 256) l).
  { rewrite <- (firstn_skipn (N.to_nat (s_sequential_length s)) (s_data s)) in Tb. apply Forall_app in Tb. apply Tb. }
  split; [exact C1|]. split; [split|split; [lia|split; [exact Nl|]]].
  - rewrite Ll. exact Is.
  - intros i b Hi. assert (Hil : (i < length l)%nat) by (apply nth_error_Some; congruence). rewrite Lt by lia. rewrite Nnat.Nat2N.id.
    unfold l in Hi. rewrite <- Hi. rewrite <- (firstn_skipn (N.to_nat (s_sequential_length s)) (s_data s)) at 1. apply nth_error_app1. exact Hil.
  - unfold rt_msg, s_getData, s_getExpectedLength. rewrite (term_full _ Nt).
    replace (N.to_nat (N.min (N.of_nat (length (s_data s)) + 1) (N.of_nat (length (s_data s))))) with (length (s_data s)) by lia.
    rewrite getData_blank, N.sub_0_r by lia. fold l. rewrite flat_map_app, blanks_text, rtrim_blanks, (visible_text l Fl). apply rtrim_trimmed.
Qed.

Lemma kept_inv : forall h st st' x, rt_inv h st -> received_group (0%Z, fst x, snd x) -> rt_segment x = [] -> kept (st_radiotext st) (st_radiotext st') -> rt_inv (h ++ [x]) st'.
Proof.
  intros h st st' x (Fr & En & I) R Nx ([K|K] & Ka & Kp); unfold rt_inv, text_of, ab_of, prev_of in *; rewrite K, Ka, Kp;
  (assert (P : parts (h ++ [x]) = parts h) by (unfold parts; rewrite flat_map_app; cbn [flat_map]; rewrite Nx, !app_nil_r; reflexivity)); rewrite P;
  (split; [apply Forall_app; split; [exact Fr|constructor; [exact R|constructor]]|]); (split; [exact En|]); intros S; destruct (I S) as [(e & m & n & E & F1 & T) Pv]; (split; [|exact Pv]);
  exists e, m, n; repeat (split; [assumption|]); [exact T|exact (clear_tracks _ _ _ _ T)].
Qed.

Lemma rt_step : forall env o h st now c g w st' j, rt_inv h st -> st_ok st -> received_group (now, g, w) ->
  bler_ok (prepared o now c g w) -> decoded env o st (prepared o now c g w) = Ok (st', j) -> rt_inv (h ++ [(g, w)]) st'.
Proof.
  intros env o h st now c g w st' j I So R B D. set (g' := prepared o now c g w) in *.
  destruct (type2_cases env o st g' st' j D) as [(Ht & Hv & Hn & D0)|(No & K & _)]; [|exact (kept_inv h st st' (g, w) I R (no_part o now c g w R No) K)].
  destruct (g_has g' BLOCK3 && g_has g' BLOCK4) eqn:H34.
  2: { apply (kept_inv h st st' (g, w) I R).
       - rewrite (part_prepared o now c g w R). cbv zeta. fold g'. rewrite H34, andb_false_r. reflexivity.
       - unfold decodeType2 in D0. rewrite H34 in D0. cbn [negb] in D0. assert (st' = had st g') as -> by congruence. rewrite had_rt. repeat split; auto. }
  assert (Sg : rt_segment (g, w) = [part_of g']).
  { rewrite (part_prepared o now c g w R). cbv zeta. fold g'. rewrite Ht, Hv, Hn, H34. reflexivity. }
  destruct I as (Fr & En & I).
  assert (Hr : text_of (had st g') = text_of st /\ ab_of (had st g') = ab_of st /\ prev_of (had st g') = prev_of st) by (unfold text_of, ab_of, prev_of; rewrite had_rt; auto). destruct Hr as (Hr1 & Hr2 & Hr3).
  destruct (decodeType2_rt env o (had st g') g' _ (header_rt env o st g' B) ltac:(rewrite Hr1; exact En) H34) as ([s1 j1] & D1 & T1 & A1 & V1 & _).
  rewrite D0 in D1. injection D1 as <- <-. cbn [fst] in T1, A1, V1. rewrite Hr1, Hr2 in T1. rewrite Hr1, Hr3 in V1.
  set (q := part_of g') in *.
  assert (Pk : part_ok q) by (pose proof (segment_ok (g, w) R) as X; rewrite Sg in X; inversion X; assumption).
  assert (P : parts (h ++ [(g, w)]) = (parts h ++ [q])%list) by (unfold parts; rewrite flat_map_app; cbn [flat_map]; rewrite Sg, app_nil_r; reflexivity).
  split; [apply Forall_app; split; [exact Fr|constructor; [exact R|constructor]]|].
  split; [rewrite T1, put_encoding; exact En|]. intros S. rewrite P in S |- *. destruct (I (proj1 (steady_app _ _ S))) as [(e & m & n & E & F1 & T) Pv].
  split.
  - rewrite E, <- app_assoc in S. destruct (put_tracks (env_ucs2 env) (text_of st) (ab_of st) q e m n F1 T Pk S) as [F2' T'].
    rewrite T1, A1. destruct (Bool.eqb (ab_of st) (p_flag q)) eqn:Eb; cbv zeta in *.
    + exists e, (m ++ [q])%list, (p_version q). split; [rewrite E, app_assoc; reflexivity|]. split; [exact F2'|exact T'].
    + exists (e ++ m)%list, [q], (p_version q). split; [rewrite E; reflexivity|]. split; [exact F2'|exact T'].
  - rewrite V1. destruct (rt_cand (text_of st) q) eqn:Cd.
    + right. destruct (cand_spec _ _ _ q T Cd) as (C0 & C1 & C2 & C3 & C4). exists (parts h), q, []. split; [reflexivity|]. split; [exact C0|].
      exists e, m, n, (firstn (N.to_nat (s_sequential_length (text_of st))) (s_data (text_of st))), (ab_of st). repeat (split; [assumption|]). exact C4.
    + destruct Pv as [Pv|(b1 & q1 & b2 & E1 & P1)]; [left; exact Pv|right]. exists b1, q1, (b2 ++ [q])%list. split; [rewrite E1, <- app_assoc; reflexivity|exact P1].
Qed.

Lemma firstn_gapless : forall n s ws, tracks n s ws -> 0 < s_sequential_length s ->
  gapless ws (firstn (N.to_nat (s_sequential_length s)) (s_data s)) /\ Forall (fun b => b < 256) (firstn (N.to_nat (s_sequential_length s)) (s_data s)).
Proof.
  intros n s ws (Tl & Ts & Tb & T) Ps. destruct (T Ps) as (Is & _ & Lt). set (l := firstn _ _).
  assert (Ll : N.of_nat (length l) = s_sequential_length s) by (unfold l; rewrite firstn_length; lia). split; [split|].
  - rewrite Ll. exact Is.
  - intros i b Hi. assert (Hil : (i < length l)%nat) by (apply nth_error_Some; congruence). rewrite Lt by lia. rewrite Nnat.Nat2N.id.
    unfold l in Hi. rewrite <- Hi. rewrite <- (firstn_skipn (N.to_nat (s_sequential_length s)) (s_data s)) at 1. apply nth_error_app1. exact Hil.
  - rewrite <- (firstn_skipn (N.to_nat (s_sequential_length s)) (s_data s)) in Tb. apply Forall_app in Tb. apply Tb.
Qed.
Lemma partial_spec : forall n s ws, tracks n s ws -> s_isComplete s = false -> let t := flat_map getRDSCharString (s_getData s) in rtrim t <> [] ->
  exists l k, gapless ws l /\ t = rds_text l ++ repeat 32 k.
Proof.
  intros n s ws T C t Nt. pose proof (term_le (s_data s)) as Te. unfold s_isComplete, s_getReceivedLength in C. apply N.leb_gt in C.
  assert (E : t = flat_map getRDSCharString (map visible (firstn (N.to_nat (s_sequential_length s)) (s_data s))) ++
     repeat 32 (N.to_nat (s_getExpectedLength s) - N.to_nat (s_sequential_length s))).
  { unfold t, s_getData. rewrite getData_blank, N.sub_0_r, flat_map_app, blanks_text; [reflexivity|lia|]. unfold s_getExpectedLength. lia. }
  assert (Ps : 0 < s_sequential_length s).
  { destruct (N.eq_0_gt_0_cases (s_sequential_length s)) as [Z|]; [|assumption]. exfalso. apply Nt. rewrite E, Z. cbn [N.to_nat firstn map flat_map app]. apply (rtrim_blanks _ []). }
  destruct (firstn_gapless n s ws T Ps) as [Gp Fb]. eexists _, _. split; [exact Gp|]. rewrite E, (visible_text _ Fb). reflexivity.
Qed.

Lemma unfinished_earlier : forall pre ps s, unfinished ps s -> unfinished (pre ++ ps) s.
Proof. intros pre ps s (e & m & v & l & f & -> & H). exists (pre ++ e), m, v, l, f. split; [rewrite app_assoc; reflexivity|exact H]. Qed.
Lemma rt_shown_earlier : forall pre ps s, rt_shown ps s -> rt_shown (pre ++ ps) s.
Proof.
  intros pre ps s [(e & m & v & l & f & -> & H)|(b & q & -> & P0 & U & O1)].
  - left. exists (pre ++ e), m, v, l, f. split; [rewrite app_assoc; reflexivity|exact H].
  - right. exists (pre ++ b), q. split; [rewrite app_assoc; reflexivity|]. split; [exact P0|]. split; [apply unfinished_earlier, U|].
    destruct O1 as [O1|(b1 & q1 & b2 & -> & P1 & U1)]; [left; exact O1|right]. exists (pre ++ b1), q1, b2. split; [rewrite app_assoc; reflexivity|]. split; [exact P1|apply unfinished_earlier, U1].
Qed.
Lemma rt_new : forall w, rt_inv [] (Station_new w).
Proof. intros w. apply new_inv. reflexivity. Qed.
Lemma rt_new_pi : forall w p, rt_inv [] (Station_new_pi w p).
Proof. intros w p. apply new_inv. reflexivity. Qed.
Lemma rt_had : forall h st g, rt_inv h st -> rt_inv h (had st g).
Proof. intros h st g H. unfold rt_inv, text_of, ab_of, prev_of in *. rewrite had_rt. exact H. Qed.

Lemma both : forall (A : Type) (P Q : A -> Prop) l, Forall P l -> Forall Q l -> Forall (fun x => P x /\ Q x) l.
Proof. intros A P Q l F G. rewrite Forall_forall in *. intros x X. split; [apply F, X|apply G, X]. Qed.

Lemma rt_complete : forall env o w0 gs now g w c out line v, host_ok env -> o_output_type o = OutJSON -> Forall received_group (gs ++ [(now, g, w)]) ->
  run_groups env o (Channel_new o w0) (gs ++ [(now, g, w)]) = Ok (c, out ++ [Some line]) -> says line ["radiotext"] v ->
  let ps := flat_map rt_segment (decoded_in (gs ++ [(now, g, w)]) (out ++ [Some line])) in
  steady ps -> exists s, v = VStr s /\ rt_shown ps s.
Proof.
  intros env o w0 gs now g w c out line v H OJ F E S ps Sy. destruct (host_env env H) as [Ee _].
  destruct (last_group rt_inv env o H OJ rt_new rt_new_pi rt_had (fun h st now c g w st' j => rt_step env o h st now c g w st' j) gs now g w w0 c out line F E)
    as (old & h & st & c1 & j & D & I & So & Dd & Pj & B & Hc & _).
  set (g' := prepared o now c1 g w) in *. pose proof (says_decoded env j line "radiotext" [] v H Pj ltac:(discriminate) S) as J.
  assert (R : received_group (now, g, w)) by (apply Forall_app in F; destruct F as [_ F2]; inversion F2; assumption).
  assert (Ps : ps = parts old ++ parts (h ++ [(g, w)])) by (unfold ps, parts; rewrite D, flat_map_app; reflexivity).
  rewrite Ps in Sy |- *. apply steady_app in Sy. destruct Sy as [_ Sy].
  destruct (type2_cases env o st g' _ j Dd) as [(Ht & Hv & Hn & D0)|(_ & _ & _ & No)].
  2: { rewrite (decoded_absent env o st g' _ j "radiotext" Ee So B Dd eq_refl No) in J. discriminate. }
  pose proof (rt_step env o h st now c1 g w (ch_station c) j I So R B Dd) as (_ & En' & I').
  destruct I as (Fr & En & I).
  assert (Hr : text_of (had st g') = text_of st /\ ab_of (had st g') = ab_of st /\ prev_of (had st g') = prev_of st) by (unfold text_of, ab_of, prev_of; rewrite had_rt; auto). destruct Hr as (Hr1 & Hr2 & Hr3).
  destruct (g_has g' BLOCK3 && g_has g' BLOCK4) eqn:H34.
  2: { exfalso. unfold decodeType2 in D0. rewrite H34 in D0. cbn [negb] in D0. assert (j = JObj (header env o st g')) as -> by congruence.
       cbn [jget] in J. rewrite (header_no env o st g' "radiotext" B eq_refl) in J. discriminate J. }
  destruct (decodeType2_rt env o (had st g') g' _ (header_rt env o st g' B) ltac:(rewrite Hr1; exact En) H34) as ([s1 j1] & D1 & T1 & A1 & _ & J1).
  rewrite D0 in D1. injection D1 as <- <-. cbn [fst snd] in T1, A1, J1. rewrite Hr1, Hr2, Hr3 in *. rewrite <- T1 in J1. set (q := part_of g') in *.
  assert (Sg : rt_segment (g, w) = [q]).
  { rewrite (part_prepared o now c1 g w R). cbv zeta. fold g'. rewrite Ht, Hv, Hn, H34. reflexivity. }
  rewrite J1 in J. destruct (s_isComplete (text_of (ch_station c))) eqn:Cp.
  - injection J as <-. cbn [value_of]. eexists. split; [reflexivity|]. apply rt_shown_earlier. left.
    destruct (I' Sy) as [(e & m & n & E1 & F1 & T) _]. exists e, m, n, (shown_bytes (text_of (ch_station c))), (ab_of (ch_station c)).
    split; [exact E1|]. split; [exact F1|]. split; [apply complete_spec; [exact T|apply rt_size_pos|exact Cp]|].
    pose proof (complete_str (env_ucs2 env) _ (proj2 (tracks_sized _ _ _ T)) Cp) as X. rewrite En' in X.
    assert (Some (s_last_complete_string (text_of (ch_station c))) = Some (rds_text (shown_bytes (text_of (ch_station c))))) as Y.
    { rewrite <- X. symmetry. rewrite T1 in Cp |- *. unfold rt_put in *.
      assert (Pk : part_ok q) by (pose proof (segment_ok (g, w) R) as Z; rewrite Sg in Z; inversion Z; assumption).
      assert (Sz : sized (rt_size (p_version q)) (s_resize (if Bool.eqb (ab_of st) (p_flag q) then text_of st else s_clear (text_of st)) (rt_size (p_version q)))).
      { destruct (I (proj1 (steady_app _ _ ltac:(unfold parts in Sy; rewrite flat_map_app in Sy; exact Sy)))) as [(e0 & m0 & n0 & _ & _ & T0) _]. apply (resize_sized (rt_size n0)).
        destruct (Bool.eqb _ _); [|apply clear_sized]; exact (tracks_sized _ _ _ T0). }
      eapply set_all_last; [exact Sz|apply rt_size_pos| |exact (part_place q Pk)|exact Cp].
      destruct Pk as (_ & _ & Nc). destruct (p_chars q); [congruence|discriminate]. }
    injection Y as ->. apply rtrim_trimmed.
  - destruct (rt_cand (text_of st) q) eqn:Cd; [|discriminate]. cbn [andb] in J. destruct (Base.bytes_eqb (rt_msg (text_of st)) (prev_of st)) eqn:Eq; [|discriminate].
    apply FreqP.bytes_eqb_eq in Eq. injection J as <-. cbn [value_of].
    eexists. split; [reflexivity|]. apply rt_shown_earlier. right.
    assert (P : parts (h ++ [(g, w)]) = parts h ++ [q]) by (unfold parts; rewrite flat_map_app; cbn [flat_map]; rewrite Sg, app_nil_r; reflexivity).
    rewrite P in Sy |- *. destruct (I (proj1 (steady_app _ _ Sy))) as [(e & m & n & E1 & F1 & T) Pv].
    destruct (cand_spec _ _ _ q T Cd) as (C0 & C1 & C2 & C3 & C4). assert (rtrim (rt_msg (text_of st)) = rt_msg (text_of st)) as -> by apply rtrim_twice.
    exists (parts h), q. split; [reflexivity|]. split; [exact C0|]. split.
    + exists e, m, n, (firstn (N.to_nat (s_sequential_length (text_of st))) (s_data (text_of st))), (ab_of st). repeat (split; [assumption|]). exact C4.
    + rewrite Eq. exact Pv.
Qed.

(* ---- applications announced for group types ---- *)
Lemma decodeType3A_oda : forall st g j, keeps (fun sj => st_oda_app_for_group (fst sj) =
  if g_has g BLOCK3 && g_has g BLOCK4 && Version_eqb (gt_version (g_type g)) VA
  then (GroupType_of (getBits 5 (g_get g BLOCK2) 0), g_get g BLOCK4) :: st_oda_app_for_group st else st_oda_app_for_group st) (decodeType3A st g j).
Proof.
  intros st g j. unfold decodeType3A. destruct (g_has g BLOCK3 && g_has g BLOCK4); cbn [negb andb]; [|apply keeps_ok; reflexivity].
  destruct (Version_eqb _ VA); cbn [negb]; [|apply keeps_ok; reflexivity]. cbv zeta.
  do 2 (eapply keeps_bind; [apply keeps_true|intros ? _]).
  repeat match goal with |- keeps _ (if ?b then _ else _) => destruct b end; try (apply keeps_ok; reflexivity).
  - eapply keeps_bind; [apply keeps_true|]. intros [t j2] _. apply keeps_ok. reflexivity.
  - do 2 (eapply keeps_bind; [apply keeps_true|intros ? _]). apply keeps_ok. reflexivity.
Qed.

Definition oda_inv (h : list (Group * N)) (st : Station) : Prop := st_oda_app_for_group st = rev (flat_map announcement h).
Lemma announced_same : forall b2, announced_in b2 = GroupType_of (b2 mod 32).
Proof.
  intros b2. unfold announced_in, GroupType_of. change 0xF with (N.ones 4). change 1 with (N.ones 1) at 2. rewrite !N.land_ones, N.shiftr_div_pow2.
  change (2 ^ 4) with 16. change (2 ^ 1) with 2.
  replace ((b2 mod 32) / 2 mod 16) with (b2 / 2 mod 16); [replace ((b2 mod 32) mod 2) with (b2 mod 2); [reflexivity|]|].
  - rewrite (N.div_mod b2 32) at 1 by discriminate. replace (32 * (b2 / 32) + b2 mod 32) with (b2 mod 32 + (16 * (b2 / 32)) * 2) by ring. apply N.mod_add. discriminate.
  - rewrite (N.div_mod b2 32) at 1 by discriminate. replace (32 * (b2 / 32) + b2 mod 32) with ((16 * (b2 / 32)) * 2 + b2 mod 32) by ring.
    rewrite N.div_add_l by discriminate. rewrite N.add_comm. replace (16 * (b2 / 32)) with ((b2 / 32) * 16) by ring. apply N.mod_add. discriminate.
Qed.
Lemma announce_prepared : forall o now c g w, received_group (now, g, w) ->
  announcement (g, w) = let g' := prepared o now c g w in
    if g_has_type g' && negb (Version_eqb (gt_version (g_type g')) VC) && (gt_number (g_type g') =? 3) && (g_has g' BLOCK3 && g_has g' BLOCK4 && Version_eqb (gt_version (g_type g')) VA)
    then [(GroupType_of (getBits 5 (g_get g' BLOCK2) 0), g_get g' BLOCK4)] else [].
Proof.
  intros o now c g w R. cbv zeta. unfold announcement. rewrite announced_same, (carries_prepared 3 o now c g w). cbv zeta.
  set (g' := prepared o now c g w). destruct (g_has_type g'); cbn [andb]; [|reflexivity].
  destruct (Version_eqb (gt_version (g_type g')) VC) eqn:Hv; cbn [negb andb]; [rewrite andb_false_r; reflexivity|]. rewrite andb_true_r, <- !andb_assoc.
  destruct (gt_number (g_type g') =? 3) eqn:Hn; cbn [andb]; [|reflexivity]. destruct (g_has g' BLOCK3); cbn [andb]; [|reflexivity]. destruct (g_has g' BLOCK4); cbn [andb]; [|reflexivity].
  assert (Gt : g_type g = g_type g').
  { unfold g'. rewrite prepared_type. destruct (w =? 0) eqn:Ew; [reflexivity|]. exfalso. unfold g' in Hv. rewrite prepared_type, Ew in Hv. discriminate. }
  rewrite Gt. unfold g'. rewrite !prepared_get. unfold g_get. cbn [g_block]. fold g'. rewrite getBits_arith. change (2 ^ 0) with 1. change (2 ^ 5) with 32. rewrite N.div_1_r.
  destruct (gt_version (g_type g')); reflexivity.
Qed.
Lemma oda_step : forall env o h st now c g w st' j, oda_inv h st -> received_group (now, g, w) ->
  decoded env o st (prepared o now c g w) = Ok (st', j) -> oda_inv (h ++ [(g, w)]) st'.
Proof.
  intros env o h st now c g w st' j I R D. set (g' := prepared o now c g w) in *. unfold oda_inv in *. rewrite flat_map_app, rev_app_distr, <- I. cbn [flat_map]. rewrite app_nil_r.
  rewrite (announce_prepared o now c g w R). cbv zeta. fold g'.
  pose proof (decoded_frame env o st g' _ D) as Fr. cbn [fst] in Fr. destruct Fr as (_ & _ & _ & _ & _ & _ & _ & _ & Fo & _). rewrite had_oda in Fo.
  destruct (g_has_type g') eqn:Ht; cbn [andb]; [|apply Fo; reflexivity].
  destruct (Version_eqb (gt_version (g_type g')) VC) eqn:Hv; cbn [negb andb]; [apply Fo; unfold group_fields; cbv zeta; rewrite Hv; reflexivity|].
  destruct (N.eqb_spec (gt_number (g_type g')) 3) as [Hn|Hn]; cbn [andb].
  - destruct (Version_eqb (gt_version (g_type g')) VA) eqn:Ha.
    + unfold decoded in D. rewrite Ht in D. unfold decodeByType in D. cbv zeta in D. rewrite Hv, Hn, Ha in D. cbn [N.eqb Pos.eqb andb] in D.
      pose proof (decodeType3A_oda _ _ _ _ D) as X. cbn [fst] in X. rewrite Ha, had_oda in X. rewrite X. destruct (_ && _ && _); reflexivity.
    + rewrite andb_false_r. cbn [rev app]. apply Fo. unfold off, group_fields, app_fields, oda_type. cbv zeta. rewrite Hv, Hn, Ha. destruct (Version_eqb _ VB); cbn [N.eqb Pos.eqb orb negb andb]; by_cases.
  - cbn [rev app]. apply Fo. apply N.eqb_neq in Hn. unfold off, group_fields, app_fields. cbv zeta. rewrite Hv, Hn. by_cases.
Qed.
Lemma find_rev : forall t l a, find_type t (rev l) = Some a -> In (t, a) l.
Proof.
  intros t l a H. apply in_rev. induction (rev l) as [|[t' v] r IH]; [discriminate|]. cbn [find_type] in H.
  destruct (GroupType_eqb t t') eqn:E; [|right; apply IH; exact H]. injection H as <-. left. f_equal.
  unfold GroupType_eqb in E. destruct t as [n v1], t' as [n' v2]. cbn [gt_number gt_version] in E. apply andb_prop in E. destruct E as [E1 E2]. apply N.eqb_eq in E1. subst. f_equal. destruct v1, v2; try discriminate; reflexivity.
Qed.

(* ---- what a group does to the text ---- *)
Lemma rt_outcome : forall env o st now c g w st' j, s_encoding (text_of st) = EncBasic -> received_group (now, g, w) ->
  let g' := prepared o now c g w in bler_ok g' -> decoded env o st g' = Ok (st', j) ->
  (exists q, rt_segment (g, w) = [q] /\ part_ok q /\ text_of st' = rt_put (env_ucs2 env) (text_of st) (ab_of st) q /\ ab_of st' = p_flag q) \/
  (rt_segment (g, w) = [] /\ ab_of st' = ab_of st /\ (text_of st' = text_of st \/ text_of st' = s_clear (text_of st)) /\ (text_of st' = text_of st \/ plus_group st g')).
Proof.
  intros env o st now c g w st' j En R g' B D.
  destruct (type2_cases env o st g' st' j D) as [(Ht & Hv & Hn & D0)|(No & (K1 & K2 & _) & P & _)].
  2: { right. split; [exact (no_part o now c g w R No)|]. split; [exact K2|]. split; assumption. }
  destruct (g_has g' BLOCK3 && g_has g' BLOCK4) eqn:H34.
  - left. exists (part_of g').
    assert (Sg : rt_segment (g, w) = [part_of g']).
    { rewrite (part_prepared o now c g w R). cbv zeta. fold g'. rewrite Ht, Hv, Hn, H34. reflexivity. }
    assert (Hr : text_of (had st g') = text_of st /\ ab_of (had st g') = ab_of st) by (unfold text_of, ab_of; rewrite had_rt; auto). destruct Hr as [Hr1 Hr2].
    destruct (decodeType2_rt env o (had st g') g' _ (header_rt env o st g' B) ltac:(rewrite Hr1; exact En) H34) as ([s1 j1] & D1 & T1 & A1 & _).
    rewrite D0 in D1. injection D1 as <- <-. cbn [fst] in T1, A1. rewrite Hr1, Hr2 in T1. split; [exact Sg|]. split; [|split; assumption].
    pose proof (segment_ok (g, w) R) as X. rewrite Sg in X. inversion X; assumption.
  - right. unfold decodeType2 in D0. rewrite H34 in D0. cbn [negb] in D0. assert (st' = had st g') as -> by congruence. unfold text_of, ab_of. rewrite had_rt.
    split; [rewrite (part_prepared o now c g w R); cbv zeta; fold g'; rewrite H34, andb_false_r; reflexivity|]. split; [reflexivity|]. split; left; reflexivity.
Qed.
Lemma put_sized : forall u n s ab q, sized n s -> part_ok q -> sized (rt_size (p_version q)) (rt_put u s ab q).
Proof.
  intros u n s ab q Z (P1 & P2 & _). unfold rt_put. apply set_all_sized; [|apply place_byte; exact P2]. apply (resize_sized n).
  destruct (Bool.eqb _ _); [exact Z|apply clear_sized; exact Z].
Qed.

(* Announcements and size of the text, for any history *)
Definition any_rt (h : list (Group * N)) (st : Station) : Prop := oda_inv h st /\ s_encoding (text_of st) = EncBasic /\ exists n, sized n (text_of st).
Lemma any_new : forall st, st_radiotext st = RadioText_default -> st_oda_app_for_group st = [] -> any_rt [] st.
Proof.
  intros st E O. split; [exact O|]. unfold text_of. rewrite E. split; [reflexivity|]. exists 64. exact (tracks_sized _ _ _ (new_tracks 64)).
Qed.
Lemma any_had : forall h st g, any_rt h st -> any_rt h (had st g).
Proof. intros h st g H. unfold any_rt, oda_inv, text_of in *. rewrite had_rt, had_oda. exact H. Qed.
Lemma any_step : forall env o h st now c g w st' j, any_rt h st -> st_ok st -> received_group (now, g, w) ->
  bler_ok (prepared o now c g w) -> decoded env o st (prepared o now c g w) = Ok (st', j) -> any_rt (h ++ [(g, w)]) st'.
Proof.
  intros env o h st now c g w st' j (Io & En & n & Z) So R B D. split; [exact (oda_step env o h st now c g w st' j Io R D)|].
  destruct (rt_outcome env o st now c g w st' j En R B D) as [(q & _ & Pk & -> & _)|(_ & _ & [->| ->] & _)].
  - split; [rewrite put_encoding; exact En|]. exists (rt_size (p_version q)). exact (put_sized _ n _ _ _ Z Pk).
  - split; [exact En|]. exists n. exact Z.
  - split; [exact En|]. exists n. apply clear_sized. exact Z.
Qed.


Definition win (u : bytes -> option bytes) (H0 : list (Group * N)) (f : bool) (v : Version) (k : list (Group * N)) (st : Station) : Prop :=
  Forall (fun x => received_group (0%Z, fst x, snd x)) k /\ any_rt (H0 ++ k) st /\
  (uniform f v (parts k) -> no_plus (H0 ++ k) k -> parts k <> [] ->
   exists s0, sized (rt_size v) s0 /\ s_encoding s0 = EncBasic /\ text_of st = set_all u s0 (part_writes (parts k)) /\ ab_of st = f).
Lemma no_plus_app : forall H0 k x, no_plus (H0 ++ k ++ [x]) (k ++ [x]) -> no_plus (H0 ++ k) k.
Proof.
  intros H0 k x N0 g I T A. apply (N0 g (in_or_app _ _ _ (or_introl I)) T). rewrite app_assoc, flat_map_app. apply in_or_app. left. exact A.
Qed.
Lemma win_had : forall u H0 f v k st g, win u H0 f v k st -> win u H0 f v k (had st g).
Proof. intros u H0 f v k st g (F & A & W). split; [exact F|]. split; [exact (any_had _ _ _ A)|]. unfold text_of, ab_of in *. rewrite had_rt. exact W. Qed.
Lemma part_writes_byte : forall l, Forall part_ok l -> Forall (fun pb => snd pb < 256) (part_writes l).
Proof. intros l F. unfold part_writes. apply Forall_flat_map. eapply Forall_impl; [|exact F]. intros q (_ & P & _). apply place_byte. exact P. Qed.
Lemma win_step : forall env o H0 f v k st now c g w st' j, win (env_ucs2 env) H0 f v k st -> st_ok st -> received_group (now, g, w) ->
  bler_ok (prepared o now c g w) -> decoded env o st (prepared o now c g w) = Ok (st', j) -> win (env_ucs2 env) H0 f v (k ++ [(g, w)]) st'.
Proof.
  intros env o H0 f v k st now c g w st' j (Fk & A & W) So R B D. pose proof (any_step env o _ st now c g w st' j A So R B D) as A'. rewrite <- app_assoc in A'.
  split; [apply Forall_app; split; [exact Fk|constructor; [exact R|constructor]]|].
  split; [exact A'|]. destruct A as (Io & En & n & Z). intros Un Np Ne.
  assert (P : parts (k ++ [(g, w)]) = parts k ++ rt_segment (g, w)) by (unfold parts; rewrite flat_map_app; cbn [flat_map]; rewrite app_nil_r; reflexivity).
  rewrite P in Un, Ne |- *. pose proof (no_plus_app _ _ _ Np) as Np'. apply Forall_app in Un. destruct Un as [Un1 Un2].
  destruct (rt_outcome env o st now c g w st' j En R B D) as [(q & Sg & Pk & Tx & Ab)|(Sg & Ab & _ & [Tx|Pl])].
  - rewrite Sg in *. inversion Un2 as [|? ? [Qf Qv] _]; subst. rewrite part_writes_app. change (part_writes [q]) with (place (p_pos q) (p_chars q) ++ []). rewrite app_nil_r.
    destruct (parts k) as [|q1 r] eqn:Ek.
    + exists (s_resize (if Bool.eqb (ab_of st) (p_flag q) then text_of st else s_clear (text_of st)) (rt_size (p_version q))).
      split; [apply (resize_sized n); destruct (Bool.eqb _ _); [exact Z|apply clear_sized; exact Z]|].
      split; [destruct (Bool.eqb _ _); exact En|]. split; [exact Tx|exact Ab].
    + destruct (W Un1 Np' ltac:(discriminate)) as (s0 & Z0 & E0 & T0 & A0). exists s0. split; [exact Z0|]. split; [exact E0|]. split; [|exact Ab].
      rewrite Tx, set_all_app. unfold rt_put. rewrite A0, Bool.eqb_reflx, T0. f_equal. apply (resize_same (rt_size (p_version q))).
      apply set_all_sized; [exact Z0|]. rewrite <- Ek. apply part_writes_byte, parts_ok, Fk.
  - rewrite Sg, app_nil_r in *. destruct (W Un1 Np' Ne) as (s0 & Z0 & E0 & T0 & A0). exists s0. split; [exact Z0|]. split; [exact E0|]. split; [rewrite Tx; exact T0|congruence].
  - exfalso. destruct Pl as (Ht & Od & Fi). unfold oda_inv in Io. rewrite Io in Fi. apply find_rev in Fi.
    assert (Ew : w = 0).
    { destruct (w =? 0) eqn:Ew; [lia|]. unfold oda_type in Od. rewrite prepared_type, Ew in Od. discriminate Od. }
    subst w. rewrite prepared_type in Fi. rewrite prepared_has_type in Ht. cbn [N.eqb] in Fi, Ht. apply (Np g); [apply in_or_app; right; left; reflexivity|exact Ht|].
    rewrite app_assoc, flat_map_app. apply in_or_app. left. exact Fi.
Qed.
Lemma decoded_sub : forall gs out x, In x (decoded_in gs out) -> In x (groups_of gs).
Proof.
  induction gs as [|[[now g] w] gs IH]; intros out x H; [destruct H|]. destruct out as [|[l|] out]; [destruct H| |]; unfold decoded_in in H; cbn [combine flat_map app] in H; unfold groups_of; cbn [map fst snd].
  - destruct H as [<-|H]; [left; reflexivity|right; apply (IH out); exact H].
  - right. apply (IH out). exact H.
Qed.
Lemma type2_raw : forall st g, gt_number (g_type g) = 2 -> raw_group st g = false.
Proof.
  intros st g Hn. unfold raw_group. rewrite Hn. cbv zeta. destruct (find_type _ _) as [a|]; [|rewrite andb_false_r; reflexivity].
  cbn [N.eqb Pos.eqb orb negb]. rewrite andb_false_r. reflexivity.
Qed.
Lemma ends_last : forall (l : list N) t n, ~ In end_of_text t -> l = t ++ end_of_text :: n -> In end_of_text l.
Proof. intros l t n _ ->. apply in_or_app. right. left. reflexivity. Qed.

Lemma rt_round_trip : forall env o w0 gs0 gs1 now g c out p f v l t,
  host_ok env -> host_text env -> o_output_type o = OutJSON ->
  let gs := gs1 ++ [(now, g, 0)] in
  Forall received_group (gs0 ++ gs) -> p <> 0 -> three p (pis gs0) -> Forall (stays p) gs ->
  Forall (fun x => rt_segment (snd (fst x), snd x) <> [] -> carried_pi x = Some p) gs ->
  rt_segment (g, 0) <> [] ->
  uniform f v (flat_map rt_segment (groups_of gs)) -> part_writes (flat_map rt_segment (groups_of gs)) = place 0 l ->
  no_plus (groups_of (gs0 ++ gs)) (groups_of gs) ->
  (exists r, l = t ++ end_of_text :: r) \/ (l = t /\ N.of_nat (length l) = rt_size v) -> ~ In end_of_text t ->
  run_groups env o (Channel_new o w0) (gs0 ++ gs) = Ok (c, out) ->
  exists out' line s, out = out' ++ [Some line] /\ says line ["radiotext"] (VStr s) /\ trimmed (rds_text t) s.
Proof.
  intros env o w0 gs0 gs1 now g c out p f v l t H HT OJ gs F Np T3 S P Pl Un Wr Pf Hl Nt E.
  destruct (host_env env H) as [Ee _]. pose proof (host_text_txt env HT) as Et.
  apply Forall_app in F. destruct F as [F0 F].
  rewrite run_groups_app in E. destruct (run_groups env o (Channel_new o w0) gs0) as [[c0 out0]| |] eqn:E0; cbn [bind] in E; try discriminate.
  destruct (run_groups env o c0 gs) as [[c2 out2]| |] eqn:E1; cbn [bind] in E; try discriminate. injection E as <- <-.
  pose proof (three_locked _ _ _ _ _ _ _ OJ E0 Np T3) as L.
  destruct (station_history any_rt env o H OJ (fun w => any_new (Station_new w) eq_refl eq_refl) (fun w p => any_new (Station_new_pi w p) eq_refl eq_refl) any_had (fun h st now c g w st' j => any_step env o h st now c g w st' j) gs0 w0 c0 out0 F0 E0)
    as (old & h0 & D0 & I0).
  assert (W0 : win (env_ucs2 env) h0 f v [] (ch_station c0)).
  { split; [constructor|]. split; [rewrite app_nil_r; exact I0|]. intros _ _ X. exfalso. apply X. reflexivity. }
  pose proof (run_fine env o gs0 _ _ _ H Et (created_fine o _ (or_introl (ex_intro _ w0 eq_refl))) F0 E0) as Fc0.
  destruct (run_snoc _ _ _ _ _ _ _ _ _ E1) as (c1 & out1 & line & Ea & Eb & ->).
  pose proof S as S'. apply Forall_app in S'. destruct S' as [S1 S2]. inversion S2 as [|? ? Sg0 _]; subst.
  pose proof F as F'. apply Forall_app in F'. destruct F' as [F1 F2]. inversion F2 as [|? ? R _]; subst.
  destruct (steady_history (win (env_ucs2 env) h0 f v) env o p H OJ (win_had (env_ucs2 env) h0 f v) (fun h st now c g w st' j => win_step env o h0 f v h st now c g w st' j) gs1 [] c0 c1 out1 (proj1 Fc0) L W0 F1 S1 Ea)
    as (L1 & Hc1 & I1).
  destruct (steady_history (win (env_ucs2 env) h0 f v) env o p H OJ (win_had (env_ucs2 env) h0 f v) (fun h st now c g w st' j => win_step env o h0 f v h st now c g w st' j) gs [] c0 c2 _ (proj1 Fc0) L W0 F S E1)
    as (L2 & Hc2 & I2).
  pose proof P as P'. apply Forall_app in P'. destruct P' as [P1 P2]. inversion P2 as [|? ? Pg _]; subst. cbn [fst snd] in Pg. specialize (Pg Pl).
  destruct (locked_printed _ _ _ _ _ _ _ _ _ H OJ Hc1 (proj1 R) L1 Pg Eb) as (ln & ->).
  pose proof (all_decoded _ rt_segment env o p H OJ gs c0 c2 _ (proj1 Fc0) L F S P E1) as Sd. change (map grp gs) with (groups_of gs) in Sd.
  cbn [app] in I1, I2. destruct I2 as (Fk & A2 & W2). unfold parts in W2. rewrite Sd in W2.
  destruct W2 as (s0 & Z0 & En0 & T0 & A0).
  { exact Un. }
  { intros x X Ht An. apply (Pf x); [apply (decoded_sub _ _ _ X)|exact Ht|]. apply in_flat_map in An. destruct An as (y & Y1 & Y2). apply in_flat_map. exists y. split; [|exact Y2].
    unfold groups_of. rewrite map_app. apply in_or_app. apply in_app_or in Y1. destruct Y1 as [Y1|Y1]; [left|right; exact (decoded_sub _ _ _ Y1)].
    apply (decoded_sub gs0 out0). rewrite D0. apply in_or_app. right. exact Y1. }
  { unfold gs, groups_of. rewrite map_app, flat_map_app. cbn [map fst snd flat_map]. rewrite app_nil_r. destruct (rt_segment (g, 0)); [congruence|]. intros X. apply app_eq_nil in X. destruct X as [_ X]. discriminate X. }
  rewrite Wr in T0.
  assert (Pok : Forall part_ok (flat_map rt_segment (groups_of gs))).
  { rewrite <- Sd. apply (parts_ok _ Fk). }
  assert (Wok : Forall (fun pb => fst pb < rt_size v /\ snd pb < 256) (place 0 l)).
  { rewrite <- Wr. unfold part_writes. apply Forall_flat_map. pose proof (both _ _ _ _ Pok Un) as X. eapply Forall_impl; [|exact X]. intros q (Pk & _ & <-). exact (part_place q Pk). }
  assert (Fl : Forall (fun b => b < 256) l).
  { clear - Wok. revert Wok. generalize 0. induction l as [|b l IH]; intros i W; [constructor|]. cbn [place] in W. inversion W; subst. constructor; [tauto|]. eapply IH; eassumption. }
  assert (Ll : N.of_nat (length l) <= rt_size v).
  { clear - Wok. destruct (snoc_cases _ l) as [->|(a & x & ->)]; [cbn; lia|]. rewrite place_app in Wok. apply Forall_app in Wok. destruct Wok as [_ W]. cbn [place] in W. inversion W as [|? ? [X _] _]; subst. cbn [fst] in X. rewrite app_length. cbn [length]. lia. }
  assert (Cs : s_isComplete (text_of (ch_station c2)) = true /\ trimmed (rds_text t) (rtrim (s_last_complete_string (text_of (ch_station c2))))).
  { rewrite T0. destruct Hl as [(r & Hl)|[-> Hl]].
    - destruct (run_shown (env_ucs2 env) (rt_size v) s0 l t r Z0 En0 (rt_size_pos v) Fl Hl Ll Nt) as [Cp Lc]. split; [exact Cp|]. rewrite Lc. rewrite (rtrim_blanks 1). apply rtrim_trimmed.
    - destruct (run_full (env_ucs2 env) (rt_size v) s0 t Z0 En0 (rt_size_pos v) Fl Hl Nt) as [Cp Lc]. split; [exact Cp|]. rewrite Lc. apply rtrim_trimmed. }
  destruct Cs as [Cp Tr].
  exists (out0 ++ out1), ln, (rtrim (s_last_complete_string (text_of (ch_station c2)))). split; [rewrite app_assoc; reflexivity|]. split; [|exact Tr].
  (* the line *)
  pose proof (run_fine env o gs1 _ _ _ H Et Fc0 F1 Ea) as Fc1. destruct I1 as (_ & (_ & En1 & _) & _).
  set (g' := prepared o now c1 g 0).
  assert (Tn : tuned c1 g' = ch_station c1) by (apply (locked_tuned p c1 o now g 0 L1 (or_intror Pg))).
  pose proof (part_prepared o now c1 g 0 R) as Sg. cbv zeta in Sg. fold g' in Sg.
  destruct (g_has_type g' && negb (Version_eqb (gt_version (g_type g')) VC) && (gt_number (g_type g') =? 2) && (g_has g' BLOCK3 && g_has g' BLOCK4)) eqn:Cr; [|congruence].
  apply andb_prop in Cr. destruct Cr as [Cr H34]. apply andb_prop in Cr. destruct Cr as [Cr Hn]. apply andb_prop in Cr. destruct Cr as [Ht Hv]. apply negb_true_iff in Hv. apply N.eqb_eq in Hn.
  destruct (process_shows env o now c1 g 0 c2 ln H Et OJ Fc1 (proj1 R) Eb (or_introl (type2_raw _ _ Hn))) as (j & Dd & Lj). fold g' in Dd.
  pose proof (prepared_bler o now c1 g 0 Hc1 (proj1 R)) as [_ B]. fold g' in B. rewrite Tn in Dd.
  destruct (type2_cases env o _ g' _ j Dd) as [(_ & _ & _ & D1)|([X|[X|X]] & _)]; [|congruence|congruence|contradiction].
  assert (Hr : text_of (had (ch_station c1) g') = text_of (ch_station c1)) by (unfold text_of; rewrite had_rt; reflexivity).
  destruct (decodeType2_rt env o (had (ch_station c1) g') g' _ (header_rt env o (ch_station c1) g' B) ltac:(rewrite Hr; exact En1) H34) as ([s1 j1] & D2 & T1 & _ & _ & J1).
  rewrite D1 in D2. injection D2 as <- <-. cbn [fst snd] in T1, J1. rewrite <- T1, Cp in J1. unfold says. rewrite Lj, J1. reflexivity.
Qed.

Lemma rt_partial : forall env o w0 gs now g w c out line v, host_ok env -> o_output_type o = OutJSON -> Forall received_group (gs ++ [(now, g, w)]) ->
  run_groups env o (Channel_new o w0) (gs ++ [(now, g, w)]) = Ok (c, out ++ [Some line]) -> says line ["partial_radiotext"] v ->
  let ps := flat_map rt_segment (decoded_in (gs ++ [(now, g, w)]) (out ++ [Some line])) in
  steady ps -> exists earlier msg v' l f k, ps = earlier ++ msg /\ uniform f v' msg /\
    gapless (part_writes msg) l /\ v = VStr (rds_text l ++ repeat 32 k).
Proof.
  intros env o w0 gs now g w c out line v H OJ F E S ps Sy. destruct (host_env env H) as [Ee _].
  destruct (last_group rt_inv env o H OJ rt_new rt_new_pi rt_had (fun h st now c g w st' j => rt_step env o h st now c g w st' j) gs now g w w0 c out line F E)
    as (old & h & st & c1 & j & D & I & So & Dd & Pj & B & Hc & _).
  set (g' := prepared o now c1 g w) in *. pose proof (says_decoded env j line "partial_radiotext" [] v H Pj ltac:(discriminate) S) as J.
  assert (R : received_group (now, g, w)) by (apply Forall_app in F; destruct F as [_ F2]; inversion F2; assumption).
  assert (Ps : ps = parts old ++ parts (h ++ [(g, w)])) by (unfold ps, parts; rewrite D, flat_map_app; reflexivity).
  rewrite Ps in Sy |- *. apply steady_app in Sy. destruct Sy as [_ Sy].
  pose proof (rt_step env o h st now c1 g w (ch_station c) j I So R B Dd) as (_ & En' & I').
  destruct I as (Fr & En & I).
  destruct (type2_cases env o st g' _ j Dd) as [(Ht & Hv & Hn & D0)|(Nt & _ & _ & _)].
  2: { exfalso. rewrite (decoded_absent env o st g' _ j "partial_radiotext" Ee So B Dd eq_refl) in J; [discriminate|]. intros Ht.
       destruct Nt as [Nt|[Nt|Nt]]; [congruence| |].
       - unfold type_keys. cbv zeta. rewrite Nt. reflexivity.
       - apply N.eqb_neq in Nt. unfold type_keys, app_keys. cbv zeta. rewrite Nt. by_cases. }
  assert (Hr : text_of (had st g') = text_of st /\ ab_of (had st g') = ab_of st) by (unfold text_of, ab_of; rewrite had_rt; auto). destruct Hr as (Hr1 & Hr2).
  destruct (g_has g' BLOCK3 && g_has g' BLOCK4) eqn:H34.
  2: { exfalso. unfold decodeType2 in D0. rewrite H34 in D0. cbn [negb] in D0. assert (j = JObj (header env o st g')) as -> by congruence.
       cbn [jget] in J. rewrite (header_no env o st g' "partial_radiotext" B eq_refl) in J. discriminate J. }
  destruct (decodeType2_rt env o (had st g') g' _ (header_rt env o st g' B) ltac:(rewrite Hr1; exact En) H34) as ([s1 j1] & D1 & T1 & _).
  rewrite D0 in D1. injection D1 as <- <-. cbn [fst snd] in T1. rewrite Hr1, Hr2 in T1.
  destruct (decodeType2_partial env o (had st g') g' _ (header_absent env o st g' "partial_radiotext" B eq_refl) ltac:(rewrite Hr1; exact En) H34) as ([s2 j2] & D2 & J2).
  rewrite D0 in D2. injection D2 as <- <-. cbn [snd] in J2. rewrite Hr1, Hr2, <- T1 in J2.
  destruct (jget ["partial_radiotext"] j) as [v0|] eqn:Ej; [|discriminate J]. destruct (J2 v0 eq_refl) as (Cp & Nt & ->). injection J as <-. cbn [value_of].
  destruct (I' Sy) as [(e & m & n & E1 & F1 & T) _]. destruct (partial_spec _ _ _ T Cp Nt) as (l & k & Gp & Et).
  exists (parts old ++ e), m, n, l, (ab_of (ch_station c)), k. split; [rewrite E1, app_assoc; reflexivity|]. split; [exact F1|]. split; [exact Gp|]. f_equal. exact Et.
Qed.

(* ---- a change of the A/B flag ---- *)
Lemma suffix_split : forall (A : Type) (e m a b : list A) x, e ++ m = a ++ x :: b -> (exists k, b = k ++ m) \/ (exists k, m = k ++ x :: b).
Proof.
  intros A e m a b x E. apply app_eq_app in E. destruct E as (l & [[-> E]|[-> E]]).
  - destruct l as [|y l]; [right; exists []; symmetry; exact E|]. left. injection E as -> ->. exists l. reflexivity.
  - right. exists l. exact E.
Qed.
Lemma two_flags : forall f v k x y b, uniform f v (k ++ x :: y :: b) -> p_flag x = p_flag y.
Proof.
  intros f v k x y b U. apply Forall_app in U. destruct U as [_ U]. inversion U as [|? ? [A1 _] U1]; subst. inversion U1 as [|? ? [A2 _] _]; subst. congruence.
Qed.
Lemma flag_suffix : forall e m a b x y f v, e ++ m = a ++ x :: y :: b -> uniform f v m -> p_flag x <> p_flag y -> exists k, y :: b = k ++ m.
Proof.
  intros e m a b x y f v E U N0. destruct (suffix_split _ _ _ _ _ _ E) as [H|[k ->]]; [exact H|]. exfalso. apply N0. exact (two_flags f v k x y b U).
Qed.
Lemma flag_change : forall a x y b s, rt_shown (a ++ x :: y :: b) s -> p_flag x <> p_flag y -> b <> [] \/ p_pos y <> 0 -> rt_made_of (y :: b) s.
Proof.
  intros a x y b s [(e & m & v & l & f & E & U & H)|(before & q & E & P0 & (e & m & v & l & f & E1 & U & G & H) & _)] N0 C.
  - left. destruct (flag_suffix _ _ _ _ _ _ _ _ (eq_sym E) U N0) as [k K]. exists k, m, v, l, f. auto.
  - right. destruct (snoc_cases _ b) as [->|(b0 & z & ->)].
    + destruct C as [C|C]; [congruence|]. exfalso. apply C. change (a ++ x :: [y]) with (a ++ [x] ++ [y]) in E. rewrite app_assoc in E. apply app_inj_tail in E. destruct E as [_ ->]. exact P0.
    + exists (y :: b0), q. assert (X : a ++ x :: y :: b0 = before /\ z = q).
      { apply app_inj_tail. rewrite <- E, <- app_assoc. reflexivity. }
      destruct X as [X ->]. split; [reflexivity|]. split; [exact P0|]. rewrite E1 in X.
      destruct (flag_suffix _ _ _ _ _ _ _ _ (eq_sym X) U N0) as [k K]. exists k, m, v, l, f. auto.
Qed.
