(* Transparent data channels, in-house data and groups no application is assigned to (C58, C74). *)
From Verif.Model Require Import Base Util Group Options Tables RdsString Json Tmc Station Channel.
From Verif.Spec Require Import Numerals Unicode JsonText Session Identity History Quality Texts Apps Fields Labels.
From Verif.Proofs Require Import Tac Numerals JsonP Schema TextP CleanP UpdateP SessionP LineP FrameP ChannelP HistoryP LinesP ShowP StringP GetP AfP TraceP KeysP RtP AppsP FieldsP LabelsP.

Local Open Scope string_scope.
Local Open Scope N_scope.
Local Open Scope list_scope.

Lemma up_to_end_split : forall l, (up_to_end l = l /\ ~ In end_of_text l) \/ exists t r, l = t ++ end_of_text :: r /\ ~ In end_of_text t /\ up_to_end l = t ++ [end_of_text].
Proof.
  induction l as [|b l IH]; [left; split; [reflexivity|intros []]|]. cbn [up_to_end]. destruct (N.eqb_spec b 0x0D) as [->|N0].
  - right. exists [], l. repeat split. intros [].
  - destruct IH as [[E Ni]|(t & r & -> & Ni & E)].
    + left. rewrite E. split; [reflexivity|]. intros [X|X]; [apply N0; rewrite X; reflexivity|contradiction].
    + right. exists (b :: t), r. rewrite E. split; [reflexivity|]. split; [|reflexivity]. intros [X|X]; [apply N0; rewrite X; reflexivity|contradiction].
Qed.
(* The text of a whole buffer written at once *)
Lemma text_of : forall u n l, 0 < n -> N.of_nat (length l) = n -> Forall (fun b => b < 256) l ->
  s_str u (set_all u (RDSString_new n) (place 0 l)) = Some (rds_text (up_to_end l)).
Proof.
  intros u n l Hn L F. pose proof (tracks_sized _ _ _ (new_tracks n)) as Sz.
  assert (X : exists l', up_to_end l = l' /\ let s' := set_all u (RDSString_new n) (place 0 l) in s_isComplete s' = true /\ shown_bytes s' = l' /\ Forall (fun b => b < 256) (s_data s')).
  { destruct (up_to_end_split l) as [[E Ni]|(t & r & E & Ni & Eu)].
    - exists l. split; [exact E|]. destruct (full_bytes u n (RDSString_new n) l Sz) as (A & _ & B & C); [discriminate|exact Hn|exact F|exact L|exact Ni|]. auto.
    - exists (t ++ [end_of_text]). split; [exact Eu|]. destruct (run_bytes u n (RDSString_new n) l t r Sz) as (A & _ & B & C); [discriminate|exact Hn|exact F|exact E|lia|exact Ni|]. auto. }
  destruct X as (l' & -> & C & B & D). pose proof (complete_str u _ D C) as S. rewrite set_all_encoding in S. cbn [RDSString_new s_encoding] in S. rewrite B in S. exact S.
Qed.
Lemma hex_bytes_join : forall l, Forall (fun b => b < 256) l -> hex_bytes l (join (map (getHexString 2) l) [32]).
Proof.
  induction l as [|b l IH]; intros F; [reflexivity|]. inversion F as [|? ? Hb Fl]; subst. destruct l as [|b' l]; [apply getHexString_ok; [exact Hb|lia]|].
  cbn [map]. exists (getHexString 2 b), (join (map (getHexString 2) (b' :: l)) [32]). split; [reflexivity|]. split; [apply getHexString_ok; [exact Hb|lia]|]. apply IH. exact Fl.
Qed.
Lemma word_bytes : forall a, a < 2 ^ 16 -> getUint8 a 8 = hi a /\ getUint8 a 0 = lo a /\ hi a < 256 /\ lo a < 256.
Proof.
  intros a A. unfold getUint8, hi, lo. rewrite !getBits_arith. change (2 ^ 0) with 1. change (2 ^ 8) with 256. change (2 ^ 16) with 65536 in A. rewrite N.div_1_r. lia.
Qed.
Lemma push_list : forall l p env, value_of (env_float env) (JArr (map JN l)) = VArr (map VNum (map dec_string l)) /\ (p = p :> list string).
Proof.
  intros l p env. split; [|reflexivity]. cbn [value_of]. f_equal. rewrite !map_map. apply map_ext. intros a. unfold JN. cbn [value_of]. rewrite dec_string_Z_of_N. reflexivity.
Qed.

Lemma four_bytes : forall u a b c d, Forall (fun b => b < 256) [a; b; c; d] -> s_str u (s_set2 u (s_set2 u (RDSString_new 4) 0 a b) 2 c d) = Some (rds_text (up_to_end [a; b; c; d])).
Proof. intros u a b c d F. rewrite <- (text_of u 4 [a; b; c; d] eq_refl eq_refl F). unfold set_all, s_set2. cbn [place fold_left fst snd]. change (0 + 1 + 1 + 1) with 3. change (0 + 1 + 1) with 2. change (0 + 1) with 1. change (2 + 1) with 3. reflexivity. Qed.
Lemma two_bytes : forall u a b, Forall (fun b => b < 256) [a; b] -> s_str u (s_set2 u (RDSString_new 2) 0 a b) = Some (rds_text (up_to_end [a; b])).
Proof. intros u a b F. rewrite <- (text_of u 2 [a; b] eq_refl eq_refl F). unfold set_all, s_set2. cbn [place fold_left fst snd]. reflexivity. Qed.

Lemma t5_core : forall env st dec full j0 st' j addr a b c d t, s_str (env_ucs2 env) dec = Some t ->
 (j <- jset (tdata "address") (JN addr) j0 ;; j <- jset (tdata "raw") (JStr (join (map (getHexString 2) [a; b; c; d]) [32])) j ;;
    j <- (if s_isComplete full then
            text <- str_basic env full ;;
            j <- jset (tdata "full_text") (JStr text) j ;;
            jset (tdata "full_raw") (JStr (join (map (getHexString 2) (s_getData full)) [32])) j
          else Ok j) ;;
    text <- str_basic env dec ;;
    j <- jset (tdata "as_text") (JStr text) j ;;
    Ok (set_full_tdc st full, j)) = Ok (st', j) ->
  jget (tdata "address") j = Some (JN addr) /\ jget (tdata "raw") j = Some (JStr (join (map (getHexString 2) [a; b; c; d]) [32])) /\
  jget (tdata "as_text") j = Some (JStr t).
Proof.
  intros env st dec full j0 st' j addr a b c d t Tx D.
  unbind D. unbind D. unbind D. unbind D. unbind D. assert (y3 = j) as -> by congruence. clear D.
  unfold str_basic in B2. rewrite Tx in B2. assert (y2 = t) as -> by congruence.
  assert (Kp : forall k, In k ["address"; "raw"] -> jget (tdata k) y1 = jget (tdata k) y0).
  { intros k K. destruct (s_isComplete full); [|congruence]. unbind B1. unbind B1. destruct K as [<-|[<-|[]]]; got; reflexivity. }
  split; [erewrite jset_other; [|exact B3|reflexivity]; rewrite Kp by (cbn; tauto); got|].
  split; [erewrite jset_other; [|exact B3|reflexivity]; rewrite Kp by (cbn; tauto); got|]. got.
Qed.
Lemma type5_A : forall env st g j0 st' j b2 a b c d, decodeType5 env st g j0 = Ok (st', j) ->
  gt_version (g_type g) = VA -> g_get g BLOCK2 = b2 -> getUint8 (g_get g BLOCK3) 8 = a -> getUint8 (g_get g BLOCK3) 0 = b -> getUint8 (g_get g BLOCK4) 8 = c -> getUint8 (g_get g BLOCK4) 0 = d ->
  a < 256 -> b < 256 -> c < 256 -> d < 256 ->
  jget (tdata "address") j = Some (JN (b2 mod 32)) /\ jget (tdata "raw") j = Some (JStr (join (map (getHexString 2) [a; b; c; d]) [32])) /\
  jget (tdata "as_text") j = Some (JStr (rds_text (up_to_end [a; b; c; d]))).
Proof.
  intros env st g j0 st' j b2 a b c d D V E2 Ea Eb Ec Ed Ha Hb Hc Hd. unfold decodeType5 in D. cbv zeta in D. rewrite V, E2, Ea, Eb, Ec, Ed in D. cbn [Version_eqb] in D.
  assert (Ad : getBits 5 b2 0 = b2 mod 32) by (rewrite getBits_arith; change (2 ^ 0) with 1; rewrite N.div_1_r; reflexivity). rewrite Ad in D.
  eapply t5_core; [|exact D]. apply four_bytes. repeat constructor; assumption.
Qed.
Lemma type5_B : forall env st g j0 st' j b2 c d, decodeType5 env st g j0 = Ok (st', j) ->
  gt_version (g_type g) = VB -> g_get g BLOCK2 = b2 -> getUint8 (g_get g BLOCK4) 8 = c -> getUint8 (g_get g BLOCK4) 0 = d -> c < 256 -> d < 256 ->
  jget (tdata "address") j = Some (JN (b2 mod 32)) /\ jget (tdata "raw") j = Some (JStr (join (map (getHexString 2) [c; d]) [32])) /\
  jget (tdata "as_text") j = Some (JStr (rds_text (up_to_end [c; d]))).
Proof.
  intros env st g j0 st' j b2 c d D V E2 Ec Ed Hc Hd. unfold decodeType5 in D. cbv zeta in D. rewrite V, E2, Ec, Ed in D. cbn [Version_eqb] in D.
  assert (Ad : getBits 5 b2 0 = b2 mod 32) by (rewrite getBits_arith; change (2 ^ 0) with 1; rewrite N.div_1_r; reflexivity). rewrite Ad in D.
  assert (Tx := two_bytes (env_ucs2 env) c d ltac:(repeat constructor; assumption)).
  remember (s_set2 _ (RDSString_new 2) _ _ _) as dec eqn:Xd in D. rewrite <- Xd in Tx. clear Xd.
  unbind D. unbind D. unbind D. unbind D. assert (y2 = j) as -> by congruence. clear D.
  unfold str_basic in B1. rewrite Tx in B1. assert (y1 = rds_text (up_to_end [c; d])) as -> by congruence.
  split; [got|]. split; got.
Qed.

Section Data.
  Variable env : Env.
  Variable o : Options.
  Hypothesis H : host_ok env.
  Hypothesis HT : host_text env.
  Hypothesis OJ : o_output_type o = OutJSON.

  (* A group of a type that no application was assigned to is decoded by its own rules *)
  Lemma own_decoded : forall w0 gs0 gs1 now g c out p n v,
    let gs := gs1 ++ [(now, g, 0)] in
    Forall received_group (gs0 ++ gs) -> p <> 0 -> three p (pis gs0) -> Forall (stays p) gs -> carried_pi (now, g, 0) = Some p ->
    is_type g n v -> In (mkGroupType n v) for_applications -> (n = 15 -> v <> VA) -> not_announced (mkGroupType n v) (groups_of (gs0 ++ gs)) ->
    run_groups env o (Channel_new o w0) (gs0 ++ gs) = Ok (c, out) ->
    exists out' ln c1 st j m, out = out' ++ [Some ln] /\ decodeByType env o st (prepared o now c1 g 0) (JObj m) = Ok (ch_station c, j) /\
      find_type (mkGroupType n v) (st_oda_app_for_group st) = None /\ (forall k, in_header k = false -> obj_find k m = None) /\
      forall q, line_at q ln = option_map (value_of (env_float env)) (jget q j).
  Proof.
    intros w0 gs0 gs1 now g c out p n v gs F Np T3 S Pg [Ht Ty] Fa N15 Na E. rewrite <- Ty in Fa, Na |- *.
    destruct (app_state env o H HT OJ w0 gs0 gs1 now g c out p F Np T3 S Pg Ht Fa E) as (out' & ln & c1 & st & j & Eo & So & B & Dd & Pj & Sh & _ & Fl).
    specialize (Fl Na). assert (Ty' : g_type (prepared o now c1 g 0) = g_type g) by (rewrite prepared_type; reflexivity).
    assert (Ht' : g_has_type (prepared o now c1 g 0) = true) by (rewrite prepared_has_type, Ht; reflexivity).
    assert (Rw : raw_group st (prepared o now c1 g 0) = false).
    { unfold raw_group. cbv zeta. rewrite Fl, Ty', Ty. cbn [gt_version gt_number]. destruct v; [|reflexivity|reflexivity]. cbn [Version_eqb andb]. apply N.eqb_neq. intros ->. apply N15; reflexivity. }
    unfold decoded in Dd. rewrite Ht' in Dd. exists out', ln, c1, (had st (prepared o now c1 g 0)), j, (header env o st (prepared o now c1 g 0)). split; [exact Eo|]. split; [exact Dd|].
    split; [rewrite had_oda, <- Ty'; exact Fl|]. split; [|exact (Sh Rw)]. intros k K. apply header_no; [exact B|exact K].
  Qed.

  Lemma transparent : forall w0 gs0 gs1 now g c out p v,
    let gs := gs1 ++ [(now, g, 0)] in
    Forall received_group (gs0 ++ gs) -> p <> 0 -> three p (pis gs0) -> Forall (stays p) gs -> carried_pi (now, g, 0) = Some p ->
    is_type g 5 v -> v <> VC -> not_announced (mkGroupType 5 v) (groups_of (gs0 ++ gs)) -> blk_is_received (g_b3 g) = true -> blk_is_received (g_b4 g) = true ->
    run_groups env o (Channel_new o w0) (gs0 ++ gs) = Ok (c, out) ->
    let b3 := blk_data (g_b3 g) in let b4 := blk_data (g_b4 g) in let l := match v with VA => [hi b3; lo b3; hi b4; lo b4] | _ => [hi b4; lo b4] end in
    exists out' line, out = out' ++ [Some line] /\ says_n line ["transparent_data"; "address"] (blk_data (g_b2 g) mod 32) /\
      (exists t, says line ["transparent_data"; "raw"] (VStr t) /\ hex_bytes l t) /\
      says line ["transparent_data"; "as_text"] (VStr (rds_text (up_to_end l))).
  Proof.
    intros w0 gs0 gs1 now g c out p v gs F Np T3 S Pg Ty Nv Na R3 R4 E b3 b4 l.
    destruct (own_decoded w0 gs0 gs1 now g c out p 5 v F Np T3 S Pg Ty) as (out' & ln & c1 & st & j & m & Eo & D & Fl & N0 & L); [destruct v; [cbn; tauto|cbn; tauto|contradiction]|discriminate|exact Na|exact E|].
    exists out', ln. split; [exact Eo|].
    assert (R : received_group (now, g, 0)) by (apply Forall_app in F; destruct F as [_ F2]; apply Forall_app in F2; destruct F2 as [_ F2]; inversion F2; assumption).
    destruct R as (_ & _ & Q2 & Q3 & Q4). destruct (word_bytes _ Q3) as (W1 & W2 & W3 & W4). destruct (word_bytes _ Q4) as (W5 & W6 & W7 & W8). fold b3 in W1, W2, W3, W4. fold b4 in W5, W6, W7, W8.
    destruct (prepared_is o now c1 g 5 v Ty) as [T1 T2]. unfold decodeByType in D. rewrite T2, Fl in D. cbn [gt_number gt_version] in D.
    replace (Version_eqb v VC) with false in D by (destruct v; [reflexivity|reflexivity|contradiction]). cbn [N.eqb Pos.eqb andb] in D. cbv zeta iota in D.
    assert (G2 : g_get (prepared o now c1 g 0) BLOCK2 = blk_data (g_b2 g)) by (rewrite prepared_get; reflexivity).
    assert (G3 : g_get (prepared o now c1 g 0) BLOCK3 = b3) by (rewrite prepared_get; reflexivity).
    assert (G4 : g_get (prepared o now c1 g 0) BLOCK4 = b4) by (rewrite prepared_get; reflexivity).
    assert (X : jget (tdata "address") j = Some (JN (blk_data (g_b2 g) mod 32)) /\ jget (tdata "raw") j = Some (JStr (join (map (getHexString 2) l) [32])) /\
      jget (tdata "as_text") j = Some (JStr (rds_text (up_to_end l)))).
    { unfold l. destruct v; [| |contradiction].
      - apply (type5_A env _ _ _ _ _ _ _ _ _ _ D); rewrite ?T2, ?G2, ?G3, ?G4; auto.
      - apply (type5_B env _ _ _ _ _ _ _ _ D); rewrite ?T2, ?G2, ?G3, ?G4; auto. }
    destruct X as (X1 & X2 & X3). change ["transparent_data"; "address"] with (tdata "address"). change ["transparent_data"; "raw"] with (tdata "raw"). change ["transparent_data"; "as_text"] with (tdata "as_text").
    unfold says. rewrite !L, X2, X3. split; [apply (says_n_JN env); rewrite L, X1; reflexivity|]. split; [|reflexivity].
    eexists. split; [reflexivity|]. apply hex_bytes_join. unfold l. destruct v; repeat constructor; assumption.
  Qed.

  Lemma in_house : forall w0 gs0 gs1 now g c out p v,
    let gs := gs1 ++ [(now, g, 0)] in
    Forall received_group (gs0 ++ gs) -> p <> 0 -> three p (pis gs0) -> Forall (stays p) gs -> carried_pi (now, g, 0) = Some p ->
    is_type g 6 v -> v <> VC -> not_announced (mkGroupType 6 v) (groups_of (gs0 ++ gs)) ->
    run_groups env o (Channel_new o w0) (gs0 ++ gs) = Ok (c, out) ->
    let r3 := blk_is_received (g_b3 g) in let r4 := blk_is_received (g_b4 g) in
    exists out' line, out = out' ++ [Some line] /\
      says_list line ["in_house_data"] (blk_data (g_b2 g) mod 32 ::
        match v with
        | VA => (if r3 then [blk_data (g_b3 g)] else []) ++ (if r3 && r4 then [blk_data (g_b4 g)] else [])
        | _ => if r4 then [blk_data (g_b4 g)] else []
        end).
  Proof.
    intros w0 gs0 gs1 now g c out p v gs F Np T3 S Pg Ty Nv Na E r3 r4.
    destruct (own_decoded w0 gs0 gs1 now g c out p 6 v F Np T3 S Pg Ty) as (out' & ln & c1 & st & j & m & Eo & D & Fl & N0 & L); [destruct v; [cbn; tauto|cbn; tauto|contradiction]|discriminate|exact Na|exact E|].
    exists out', ln. split; [exact Eo|].
    assert (R : received_group (now, g, 0)) by (apply Forall_app in F; destruct F as [_ F2]; apply Forall_app in F2; destruct F2 as [_ F2]; inversion F2; assumption).
    destruct R as (_ & _ & Q2 & Q3 & Q4).
    destruct (prepared_is o now c1 g 6 v Ty) as [T1 T2]. unfold decodeByType in D. rewrite T2, Fl in D. cbn [gt_number gt_version] in D.
    replace (Version_eqb v VC) with false in D by (destruct v; [reflexivity|reflexivity|contradiction]). cbn [N.eqb Pos.eqb andb] in D. cbv zeta iota in D.
    unbind D. assert (y = j) as -> by congruence. clear D.
    set (l := match v with VA => (if r3 then [blk_data (g_b3 g)] else []) ++ (if r3 && r4 then [blk_data (g_b4 g)] else []) | _ => if r4 then [blk_data (g_b4 g)] else [] end).
    assert (U : jpush_all ["in_house_data"] (map JN (blk_data (g_b2 g) mod 32 :: l)) (JObj m) = Ok j).
    { unfold decodeType6, g_has in B. rewrite T2, !prepared_block, !prepared_get in B. unfold g_get in B. cbn [g_block gt_version] in B. cbv zeta in B. rewrite !getBits_arith in B.
      change (2 ^ 0) with 1 in B. rewrite !N.div_1_r in B. change (2 ^ 5) with 32 in B. rewrite (N.mod_small (blk_data (g_b3 g))), (N.mod_small (blk_data (g_b4 g))) in B by assumption. fold r3 r4 in B.
      cbn [map jpush_all]. unbind B. cbn [bind]. unfold l. clear l.
      destruct v; [|clear Nv|contradiction]; cbn [Version_eqb] in B; destruct r3, r4; cbn [andb app map jpush_all] in *; try exact B; try (unbind B; cbn [bind]; first [exact B|rewrite B; reflexivity]); try (rewrite B; reflexivity). }
    assert (J : jget ["in_house_data"] j = Some (JArr (map JN (blk_data (g_b2 g) mod 32 :: l)))).
    { rewrite (push_absent _ _ _ _ U) by (cbn [jget]; rewrite N0 by reflexivity; reflexivity). reflexivity. }
    exists (map dec_string (blk_data (g_b2 g) mod 32 :: l)). unfold says. rewrite L, J. split; [cbn [option_map]; rewrite (proj1 (push_list _ [] env)); reflexivity|].
    clear. induction (blk_data (g_b2 g) mod 32 :: l) as [|a r IH]; constructor; [apply dec_string_value|exact IH].
  Qed.
End Data.
