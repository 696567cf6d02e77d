(* RadioText sent without an end mark (C110). *)
From Verif.Model Require Import Util Group Options Tables Json RdsString Tmc Station Channel.
From Verif.Spec Require Import Unicode JsonText Session Identity History Quality Texts.
From Verif.Proofs Require Import Tac Numerals JsonP Schema StationP TextP CleanP UpdateP SessionP LineP FrameP ChannelP LinesP HistoryP ShowP TraceP KeysP StringP FreqP PsP RtP LossyP.

Local Open Scope string_scope.
Local Open Scope N_scope.
Local Open Scope list_scope.

(* The text, the A/B flag and the text seen at the last first part *)
Definition held3 : Type := (RDSString * bool * bytes)%type.
Definition tri (st : Station) : held3 := (text_of st, ab_of st, prev_of st).
Definition rt_next (u : bytes -> option bytes) (x : held3) (q : rt_part) : held3 :=
  (rt_put u (fst (fst x)) (snd (fst x)) q, p_flag q, if rt_cand (fst (fst x)) q then rt_msg (fst (fst x)) else snd x).

Lemma tri_had : forall st g, tri (had st g) = tri st.
Proof. intros st g. unfold tri, text_of, ab_of, prev_of. rewrite had_rt. reflexivity. Qed.

Lemma outcome3 : forall env o st now c g w st' j, s_encoding (text_of st) = EncBasic -> received_group (now, g, w) ->
  let g' := prepared o now c g w in bler_ok g' -> decoded env o st g' = Ok (st', j) ->
  (exists q, rt_segment (g, w) = [q] /\ part_ok q /\ tri st' = rt_next (env_ucs2 env) (tri st) q) \/
  (rt_segment (g, w) = [] /\ (tri st' = tri st \/ plus_group st g')).
Proof.
  intros env o st now c g w st' j En R g' B D.
  destruct (type2_cases env o st g' st' j D) as [(Ht & Hv & Hn & D0)|(No & (K1 & K2 & K3) & P & _)].
  2: { right. split; [exact (no_part o now c g w R No)|]. destruct P as [P|P]; [left|right; exact P]. unfold tri, text_of, ab_of, prev_of. rewrite P, K2, K3. reflexivity. }
  destruct (g_has g' BLOCK3 && g_has g' BLOCK4) eqn:H34.
  - left. exists (part_of g').
    assert (Sg : rt_segment (g, w) = [part_of g']).
    { rewrite (part_prepared o now c g w R). cbv zeta. fold g'. rewrite Ht, Hv, Hn, H34. reflexivity. }
    assert (Hr : text_of (had st g') = text_of st /\ ab_of (had st g') = ab_of st /\ prev_of (had st g') = prev_of st) by (unfold text_of, ab_of, prev_of; rewrite had_rt; auto). destruct Hr as (Hr1 & Hr2 & Hr3).
    destruct (decodeType2_rt env o (had st g') g' _ (header_rt env o st g' B) ltac:(rewrite Hr1; exact En) H34) as ([s1 j1] & D1 & T1 & A1 & V1 & _).
    rewrite D0 in D1. injection D1 as <- <-. cbn [fst] in T1, A1, V1. rewrite Hr1, Hr2 in T1. rewrite Hr1, Hr3 in V1. split; [exact Sg|]. split.
    + pose proof (segment_ok (g, w) R) as X. rewrite Sg in X. inversion X; assumption.
    + unfold tri at 1. rewrite T1, A1, V1. reflexivity.
  - right. unfold decodeType2 in D0. rewrite H34 in D0. cbn [negb] in D0. assert (st' = had st g') as -> by congruence. rewrite tri_had.
    split; [rewrite (part_prepared o now c g w R); cbv zeta; fold g'; rewrite H34, andb_false_r; reflexivity|]. left. reflexivity.
Qed.

(* ---- no end mark in the buffer ---- *)
Definition clear_data (s : RDSString) : Prop := ~ In end_of_text (s_data s).
Lemma in_list_set : forall (d : bytes) n x y, In y (list_set d n x) -> In y d \/ y = x.
Proof.
  induction d as [|b d IH]; intros n x y H; [left; destruct n; exact H|]. destruct n as [|n]; cbn [list_set] in H; destruct H as [H|H]; auto.
  - left. right. exact H.
  - left. left. exact H.
  - destruct (IH _ _ _ H); auto. left. right. assumption.
Qed.
Lemma set_clear : forall u n s p b, sized n s -> clear_data s -> b <> end_of_text -> clear_data (s_set u s p b).
Proof.
  intros u n s p b Z C Nb X. rewrite (set_data u n s p b Z) in X. destruct (p <? n); [|exact (C X)]. destruct (in_list_set _ _ _ _ X) as [Y|Y]; [exact (C Y)|congruence].
Qed.
Lemma set_all_clear : forall u n ws s, sized n s -> clear_data s -> Forall (fun pb => snd pb < 256 /\ snd pb <> end_of_text) ws -> clear_data (set_all u s ws).
Proof.
  intros u n. induction ws as [|[p b] r IH]; intros s Z C F; [exact C|]. inversion F as [|? ? [F1 F2] Fr]; subst. cbn [snd] in *. unfold set_all. cbn [fold_left fst snd].
  apply IH; [apply set_sized; assumption|apply (set_clear u n); assumption|exact Fr].
Qed.
Lemma resize_clear : forall s n, clear_data s -> clear_data (s_resize s n).
Proof.
  intros s n C X. unfold s_resize in X. cbn [s_data] in X. apply in_app_or in X. destruct X as [X|X].
  - apply C. rewrite <- (firstn_skipn (N.to_nat n) (s_data s)). apply in_or_app. left. exact X.
  - apply repeat_spec in X. discriminate X.
Qed.
Lemma place_mem : forall l p pb, In pb (place p l) -> In (snd pb) l.
Proof. induction l as [|b l IH]; intros p pb H; [destruct H|]. destruct H as [<-|H]; [left; reflexivity|right; exact (IH _ _ H)]. Qed.
Lemma place_clear : forall l p, Forall (fun b => b < 256) l -> ~ In end_of_text l -> Forall (fun pb => snd pb < 256 /\ snd pb <> end_of_text) (place p l).
Proof.
  intros l p F Nt. apply Forall_forall. intros pb I. apply place_mem in I. split; [rewrite Forall_forall in F; apply F; exact I|]. intros X. rewrite X in I. exact (Nt I).
Qed.
Lemma put_clear : forall u n s ab q, sized n s -> clear_data s -> part_ok q -> ~ In end_of_text (p_chars q) -> clear_data (rt_put u s ab q).
Proof.
  intros u n s ab q Z C (P1 & P2 & _) Nt. unfold rt_put. apply (set_all_clear u (rt_size (p_version q))); [|apply resize_clear; destruct (Bool.eqb _ _); exact C|apply place_clear; assumption].
  apply (resize_sized n). destruct (Bool.eqb _ _); [exact Z|apply clear_sized; exact Z].
Qed.

Definition marked (q : rt_part) : Prop := In end_of_text (p_chars q).
Definition quiet (h : list (Group * N)) (st : Station) : Prop := any_rt h st /\ (Forall (fun q => ~ marked q) (parts h) -> clear_data (text_of st)).
Lemma quiet_new : forall st, st_radiotext st = RadioText_default -> st_oda_app_for_group st = [] -> quiet [] st.
Proof.
  intros st E O. split; [apply any_new; assumption|]. intros _. unfold text_of, clear_data. rewrite E. intros X. apply repeat_spec in X. discriminate X.
Qed.
Lemma quiet_had : forall h st g, quiet h st -> quiet h (had st g).
Proof. intros h st g [A C]. split; [apply any_had; exact A|]. unfold text_of in *. rewrite had_rt. exact C. Qed.
Lemma parts_snoc : forall k x, parts (k ++ [x]) = parts k ++ rt_segment x.
Proof. intros k x. unfold parts. rewrite flat_map_app. cbn [flat_map]. rewrite app_nil_r. reflexivity. Qed.
Lemma quiet_step : forall env o h st now c g w st' j, quiet h st -> st_ok st -> received_group (now, g, w) ->
  bler_ok (prepared o now c g w) -> decoded env o st (prepared o now c g w) = Ok (st', j) -> quiet (h ++ [(g, w)]) st'.
Proof.
  intros env o h st now c g w st' j [A C] So R B D. split; [exact (any_step env o h st now c g w st' j A So R B D)|]. rewrite parts_snoc. intros F. apply Forall_app in F. destruct F as [F1 F2].
  specialize (C F1). destruct A as (_ & En & n & Z). destruct (rt_outcome env o st now c g w st' j En R B D) as [(q & Sg & Pk & -> & _)|(_ & _ & [->| ->] & _)]; [|exact C|exact C].
  rewrite Sg in F2. inversion F2; subst. apply (put_clear _ n); assumption.
Qed.

(* ---- the state after the parts ---- *)
Definition sim (u : bytes -> option bytes) (H0 : list (Group * N)) (x0 : held3) (k : list (Group * N)) (st : Station) : Prop :=
  Forall (fun x => received_group (0%Z, fst x, snd x)) k /\ any_rt (H0 ++ k) st /\ (no_plus (H0 ++ k) k -> tri st = fold_left (rt_next u) (parts k) x0).
Lemma sim_had : forall u H0 x0 k st g, sim u H0 x0 k st -> sim u H0 x0 k (had st g).
Proof. intros u H0 x0 k st g (F & A & W). split; [exact F|]. split; [exact (any_had _ _ _ A)|]. rewrite tri_had. exact W. Qed.
Lemma sim_step : forall env o H0 x0 k st now c g w st' j, sim (env_ucs2 env) H0 x0 k st -> st_ok st -> received_group (now, g, w) ->
  bler_ok (prepared o now c g w) -> decoded env o st (prepared o now c g w) = Ok (st', j) -> sim (env_ucs2 env) H0 x0 (k ++ [(g, w)]) st'.
Proof.
  intros env o H0 x0 k st now c g w st' j (Fk & A & W) So R B D. pose proof (any_step env o _ st now c g w st' j A So R B D) as A'. rewrite <- app_assoc in A'.
  split; [apply Forall_app; split; [exact Fk|constructor; [exact R|constructor]]|].
  split; [exact A'|]. destruct A as (Io & En & n & Z). intros Np. rewrite parts_snoc, fold_left_app.
  specialize (W (no_plus_app _ _ _ Np)). rewrite <- W.
  destruct (outcome3 env o st now c g w st' j En R B D) as [(q & Sg & _ & ->)|(Sg & [Tx|Pl])]; rewrite Sg; [reflexivity|exact Tx|].
  exfalso. destruct Pl as (Ht & Od & Fi). unfold oda_inv in Io. rewrite Io in Fi. apply find_rev in Fi.
  assert (Ew : w = 0).
  { destruct (w =? 0) eqn:Ew; [lia|]. unfold oda_type in Od. rewrite prepared_type, Ew in Od. discriminate Od. }
  subst w. rewrite prepared_type in Fi. rewrite prepared_has_type in Ht. cbn [N.eqb] in Fi, Ht. apply (Np g); [apply in_or_app; right; left; reflexivity|exact Ht|].
  rewrite app_assoc, flat_map_app. apply in_or_app. left. exact Fi.
Qed.

(* ---- one message ---- *)
Lemma place_split : forall a b i j l, a <> [] -> place i a ++ b = place j l -> i = j /\ exists l', l = a ++ l' /\ b = place (j + N.of_nat (length a)) l'.
Proof.
  induction a as [|x a IH]; intros b i j l Na E; [congruence|]. destruct l as [|y l]; [discriminate E|]. cbn [place app] in E. injection E as -> -> E. split; [reflexivity|].
  destruct a as [|z a].
  - exists l. split; [reflexivity|]. cbn [place app] in E. rewrite E. f_equal.
  - destruct (IH b (j + 1) (j + 1) l ltac:(discriminate) E) as (_ & l' & -> & ->). exists l'. split; [reflexivity|]. f_equal. cbn [length]. lia.
Qed.
Lemma later_parts : forall m i l, Forall part_ok m -> 0 < i -> part_writes m = place i l -> Forall (fun q => p_pos q <> 0) m.
Proof.
  induction m as [|q m IH]; intros i l F Hi E; [constructor|]. inversion F as [|? ? (Pl & Pb & Pn) Fm]; subst. unfold part_writes in E. cbn [flat_map] in E. fold (part_writes m) in E.
  destruct (place_split _ _ _ _ _ Pn E) as (Pq & l' & _ & E'). constructor; [lia|]. apply (IH (i + N.of_nat (length (p_chars q))) l'); [exact Fm|lia|exact E'].
Qed.
Lemma rest_fold : forall u f v m s prev, sized (rt_size v) s -> uniform f v m -> Forall part_ok m -> Forall (fun q => p_pos q <> 0) m ->
  fold_left (rt_next u) m (s, f, prev) = (set_all u s (part_writes m), f, prev).
Proof.
  intros u f v. induction m as [|q m IH]; intros s prev Z U F P; [reflexivity|]. inversion U as [|? ? [Qf Qv] Um]; subst. inversion F as [|? ? Pk Fm]; subst. inversion P as [|? ? P0 Pm]; subst.
  cbn [fold_left]. unfold rt_next at 2. cbn [fst snd]. unfold rt_cand. apply N.eqb_neq in P0. rewrite P0. cbn [andb]. unfold rt_put. rewrite Bool.eqb_reflx, (resize_same _ _ Z).
  rewrite IH; [|apply set_all_sized; [exact Z|apply place_byte, Pk]|exact Um|exact Fm|exact Pm]. unfold part_writes. cbn [flat_map]. fold (part_writes m). rewrite set_all_app. reflexivity.
Qed.
Lemma message_fold : forall u n s ab prev f v m l, sized n s -> s_encoding s = EncBasic -> clear_data s -> uniform f v m -> Forall part_ok m -> part_writes m = place 0 l -> l <> [] ->
  exists s0 q, hd_error m = Some q /\ p_pos q = 0 /\ sized (rt_size v) s0 /\ s_encoding s0 = EncBasic /\ clear_data s0 /\
    fold_left (rt_next u) m (s, ab, prev) = (set_all u s0 (place 0 l), f, if rt_cand s q then rt_msg s else prev).
Proof.
  intros u n s ab prev f v [|q m] l Z En C U F E Nl; [destruct l; [congruence|discriminate E]|].
  inversion U as [|? ? [Qf Qv] Um]; subst. inversion F as [|? ? Pk Fm]; subst. unfold part_writes in E. cbn [flat_map] in E. fold (part_writes m) in E.
  destruct (place_split _ _ _ _ _ (proj2 (proj2 Pk)) E) as (P0 & l' & El & E').
  assert (Lp : Forall (fun q => p_pos q <> 0) m).
  { apply (later_parts m (0 + N.of_nat (length (p_chars q))) l'); [exact Fm| |exact E']. destruct Pk as (_ & _ & Pn). destruct (p_chars q); [congruence|cbn [length]; lia]. }
  exists (s_resize (if Bool.eqb ab (p_flag q) then s else s_clear s) (rt_size (p_version q))), q. split; [reflexivity|]. split; [exact P0|].
  assert (Z0 : sized (rt_size (p_version q)) (s_resize (if Bool.eqb ab (p_flag q) then s else s_clear s) (rt_size (p_version q))))
    by (apply (resize_sized n); destruct (Bool.eqb _ _); [exact Z|apply clear_sized; exact Z]).
  split; [exact Z0|]. split; [destruct (Bool.eqb _ _); exact En|]. split; [apply resize_clear; destruct (Bool.eqb _ _); exact C|].
  cbn [fold_left]. unfold rt_next at 2. cbn [fst snd]. unfold rt_put.
  rewrite (rest_fold u (p_flag q) (p_version q) m); [|apply set_all_sized; [exact Z0|apply place_byte, Pk]|exact Um|exact Fm|exact Lp].
  rewrite <- set_all_app, E. reflexivity.
Qed.

(* A message that is not full and has no end mark, at the first part of the next one *)
Lemma unended : forall u n s0 l, sized n s0 -> s_encoding s0 = EncBasic -> clear_data s0 -> Forall (fun b => b < 256) l -> ~ In end_of_text l ->
  1 < N.of_nat (length l) < n -> let s := set_all u s0 (place 0 l) in
  sized n s /\ s_encoding s = EncBasic /\ clear_data s /\ (forall q, p_pos q = 0 -> rt_cand s q = true) /\ rt_msg s = rtrim (rds_text l).
Proof.
  intros u n s0 l Z En C Fb Nt [L1 L2] s.
  assert (Zs : sized n s) by (apply set_all_sized; [exact Z|apply place_byte; exact Fb]).
  assert (Cs : clear_data s) by (apply (set_all_clear u n); [exact Z|exact C|apply place_clear; assumption]).
  split; [exact Zs|]. split; [unfold s; rewrite set_all_encoding; exact En|]. split; [exact Cs|].
  destruct (set_run u n l s0 Z ltac:(congruence) ltac:(lia) Fb ltac:(intros ->; cbn in L1; lia)) as (Sq & _ & Fd). fold s in Sq, Fd.
  destruct Zs as [Zl Zb]. pose proof (term_full _ Cs) as Tf.
  assert (Ex : s_getExpectedLength s = n) by (unfold s_getExpectedLength; rewrite Tf; lia).
  assert (Cp : s_isComplete s = false) by (unfold s_isComplete, s_getReceivedLength; rewrite Ex, Sq; apply N.leb_gt; lia).
  split.
  - intros q P0. unfold rt_cand. rewrite P0, Sq, Cp. replace (1 <? N.of_nat (length l)) with true by (symmetry; apply N.ltb_lt; lia). cbn [N.eqb andb negb].
    destruct (s_hasPreviouslyReceivedTerminators s) eqn:Hp; [|reflexivity]. exfalso. unfold s_hasPreviouslyReceivedTerminators in Hp. apply existsb_exists in Hp. destruct Hp as (x & Ix & Ex').
    apply N.eqb_eq in Ex'. subst x. exact (Cs Ix).
  - unfold rt_msg, s_getData. rewrite getData_blank; [|rewrite Sq, Ex; lia|rewrite Ex; lia]. rewrite Sq, N.sub_0_r, Nnat.Nat2N.id, Fd, flat_map_app, (visible_text _ Fb), blanks_text. apply rtrim_blanks.
Qed.

Lemma short_part : forall x q, rt_segment x = [q] -> (length (p_chars q) <= 4)%nat.
Proof.
  intros [g w] q H. unfold rt_segment in H. destruct (carries 2 g w); [|discriminate H]. destruct (gt_version (g_type g)); injection H as <-; cbn [p_chars length]; lia.
Qed.
Lemma rt_size_big : forall v, 32 <= rt_size v.
Proof. destruct v; cbn; lia. Qed.
Lemma first_part_incomplete : forall u n s ab q, sized n s -> s_encoding s = EncBasic -> clear_data s -> part_ok q -> ~ marked q -> p_pos q = 0 -> (length (p_chars q) <= 4)%nat ->
  s_isComplete (rt_put u s ab q) = false.
Proof.
  intros u n s ab q Z En C Pk Nm P0 L4. pose proof (put_clear u n s ab q Z C Pk Nm) as C'. pose proof (put_sized u n s ab q Z Pk) as [Zl _].
  unfold s_isComplete, s_getExpectedLength, s_getReceivedLength. rewrite (term_full _ C'), Zl. pose proof (rt_size_big (p_version q)). apply N.leb_gt.
  assert (Sq : s_sequential_length (rt_put u s ab q) = N.of_nat (length (p_chars q))); [|lia].
  unfold rt_put. rewrite P0. destruct Pk as (_ & Pb & Pn).
  apply (set_run u (rt_size (p_version q)) (p_chars q)); [apply (resize_sized n); destruct (Bool.eqb _ _); [exact Z|apply clear_sized; exact Z]|destruct (Bool.eqb _ _); cbn [s_encoding s_resize s_clear]; congruence|lia|exact Pb|exact Pn].
Qed.

Lemma message_bytes : forall f v m l, Forall part_ok m -> uniform f v m -> part_writes m = place 0 l -> Forall (fun b => b < 256) l.
Proof.
  intros f v m l F U E. apply part_writes_byte in F. rewrite E in F. clear - F. revert F. generalize 0. induction l as [|b l IH]; intros i W; [constructor|].
  cbn [place] in W. inversion W; subst. constructor; [assumption|]. eapply IH; eassumption.
Qed.
Lemma message_unmarked : forall m i l, Forall (fun q => ~ marked q) m -> part_writes m = place i l -> ~ In end_of_text l.
Proof.
  intros m i l F E X. assert (Y : exists p, In (p, end_of_text) (place i l)).
  { clear - X. revert i. induction l as [|b l IH]; intros i; [destruct X|]. destruct X as [->|X]; [exists i; left; reflexivity|]. destruct (IH X (i + 1)) as (p & Hp). exists p. right. exact Hp. }
  destruct Y as (p & Y). rewrite <- E in Y. unfold part_writes in Y. apply in_flat_map in Y. destruct Y as (q & Iq & Y). apply place_mem in Y. rewrite Forall_forall in F. exact (F q Iq Y).
Qed.

(* A message without end mark received twice, at the first part of the next *)
Lemma repeated : forall u n x f v m1 m2 l q, sized n (fst (fst x)) -> s_encoding (fst (fst x)) = EncBasic -> clear_data (fst (fst x)) ->
  uniform f v m1 -> uniform f v m2 -> Forall part_ok m1 -> Forall part_ok m2 -> Forall (fun q => ~ marked q) m1 ->
  part_writes m1 = place 0 l -> part_writes m2 = place 0 l -> 1 < N.of_nat (length l) < rt_size v -> p_pos q = 0 ->
  exists s, fold_left (rt_next u) (m1 ++ m2) x = (s, f, rtrim (rds_text l)) /\ sized (rt_size v) s /\ s_encoding s = EncBasic /\ clear_data s /\
    rt_cand s q = true /\ rt_msg s = rtrim (rds_text l).
Proof.
  intros u n [[s ab] prev] f v m1 m2 l q Z En C U1 U2 F1 F2 Nm E1 E2 Ll P0. cbn [fst] in Z, En, C.
  assert (Nl : l <> []) by (intros ->; cbn in Ll; lia).
  pose proof (message_bytes _ _ _ _ F1 U1 E1) as Fb. pose proof (message_unmarked _ _ _ Nm E1) as Nt.
  rewrite fold_left_app. destruct (message_fold u n s ab prev f v m1 l Z En C U1 F1 E1 Nl) as (s1 & q1 & _ & _ & Z1 & En1 & C1 & ->).
  destruct (unended u (rt_size v) s1 l Z1 En1 C1 Fb Nt Ll) as (Z1' & En1' & C1' & Ca1 & Ms1).
  match goal with |- context [fold_left _ _ (?a, _, ?b)] => destruct (message_fold u (rt_size v) a f b f v m2 l Z1' En1' C1' U2 F2 E2 Nl) as (s2 & q2 & _ & P2 & Z2 & En2 & C2 & ->) end.
  destruct (unended u (rt_size v) s2 l Z2 En2 C2 Fb Nt Ll) as (Z2' & En2' & C2' & Ca2 & Ms2).
  exists (set_all u s2 (place 0 l)). rewrite (Ca1 q2 P2), Ms1. split; [reflexivity|]. split; [exact Z2'|]. split; [exact En2'|]. split; [exact C2'|]. split; [exact (Ca2 q P0)|exact Ms2].
Qed.

Lemma no_end_shown : forall env o w0 gs0 gs1 now g c out p f v m1 m2 q l,
  host_ok env -> host_text env -> o_output_type o = OutJSON ->
  let gs := gs1 ++ [(now, g, 0)] in
  Forall received_group (gs0 ++ gs) -> p <> 0 -> three p (pis gs0) -> Forall (stays p) gs ->
  Forall (fun x => rt_segment (snd (fst x), snd x) <> [] -> carried_pi x = Some p) gs ->
  flat_map rt_segment (groups_of gs1) = m1 ++ m2 -> rt_segment (g, 0) = [q] -> p_pos q = 0 ->
  uniform f v m1 -> uniform f v m2 -> part_writes m1 = place 0 l -> part_writes m2 = place 0 l -> 1 < N.of_nat (length l) < rt_size v ->
  Forall (fun q => ~ In end_of_text (p_chars q)) (flat_map rt_segment (groups_of (gs0 ++ gs))) ->
  no_plus (groups_of (gs0 ++ gs)) (groups_of gs) ->
  run_groups env o (Channel_new o w0) (gs0 ++ gs) = Ok (c, out) ->
  exists out' line s, out = out' ++ [Some line] /\ says line ["radiotext"] (VStr s) /\ trimmed (rds_text l) s.
Proof.
  intros env o w0 gs0 gs1 now g c out p f v m1 m2 q l H HT OJ gs F Np T3 S P Pg1 Sgq P0 U1 U2 W1 W2 Ll Nm Pf E.
  destruct (host_env env H) as [Ee _]. pose proof (host_text_txt env HT) as Et.
  apply Forall_app in F. destruct F as [F0 F].
  rewrite run_groups_app in E. destruct (run_groups env o (Channel_new o w0) gs0) as [[c0 out0]| |] eqn:E0; cbn [bind] in E; try discriminate.
  destruct (run_groups env o c0 gs) as [[c2 out2]| |] eqn:E1; cbn [bind] in E; try discriminate. injection E as <- <-.
  pose proof (three_locked _ _ _ _ _ _ _ OJ E0 Np T3) as L.
  destruct (station_history quiet env o H OJ (fun w => quiet_new (Station_new w) eq_refl eq_refl) (fun w p => quiet_new (Station_new_pi w p) eq_refl eq_refl) quiet_had (fun h st now c g w st' j => quiet_step env o h st now c g w st' j) gs0 w0 c0 out0 F0 E0)
    as (old & h0 & D0 & I0 & C0).
  unfold groups_of in Nm. rewrite map_app, flat_map_app in Nm. apply Forall_app in Nm. destruct Nm as [Nm0 Nm].
  fold (groups_of gs0) in Nm0. fold (groups_of gs) in Nm.
  assert (C0' : clear_data (text_of (ch_station c0))).
  { apply C0. apply Forall_forall. intros x Ix. unfold parts in Ix. apply in_flat_map in Ix. destruct Ix as (y & Iy & Ix). rewrite Forall_forall in Nm0. apply Nm0. apply in_flat_map. exists y. split; [|exact Ix].
    apply (decoded_sub gs0 out0). rewrite D0. apply in_or_app. right. exact Iy. }
  set (x0 := tri (ch_station c0)).
  assert (W0 : sim (env_ucs2 env) h0 x0 [] (ch_station c0)).
  { split; [constructor|]. split; [rewrite app_nil_r; exact I0|]. intros _. reflexivity. }
  pose proof (run_fine env o gs0 _ _ _ H Et (created_fine o _ (or_introl (ex_intro _ w0 eq_refl))) F0 E0) as Fc0.
  destruct (run_snoc _ _ _ _ _ _ _ _ _ E1) as (c1 & out1 & line & Ea & Eb & ->).
  pose proof S as S'. apply Forall_app in S'. destruct S' as [S1 S2]. inversion S2 as [|? ? Sg0 _]; subst.
  pose proof F as F'. apply Forall_app in F'. destruct F' as [F1 F2]. inversion F2 as [|? ? R _]; subst.
  destruct (steady_history (sim (env_ucs2 env) h0 x0) env o p H OJ (sim_had (env_ucs2 env) h0 x0) (fun h st now c g w st' j => sim_step env o h0 x0 h st now c g w st' j) gs1 [] c0 c1 out1 (proj1 Fc0) L W0 F1 S1 Ea)
    as (L1 & Hc1 & I1).
  pose proof P as P'. apply Forall_app in P'. destruct P' as [P1 P2]. inversion P2 as [|? ? Pg _]; subst. cbn [fst snd] in Pg. specialize (Pg ltac:(rewrite Sgq; discriminate)).
  destruct (locked_printed _ _ _ _ _ _ _ _ _ H OJ Hc1 (proj1 R) L1 Pg Eb) as (ln & ->).
  pose proof (all_decoded _ rt_segment env o p H OJ gs1 c0 c1 _ (proj1 Fc0) L F1 S1 P1 Ea) as Sd. change (map grp gs1) with (groups_of gs1) in Sd.
  cbn [app] in I1. destruct I1 as (Fk & (A1o & En1 & _) & Ws). unfold parts in Ws. rewrite Sd, Pg1 in Ws.
  assert (Gs : groups_of gs = groups_of gs1 ++ [(g, 0)]) by (unfold gs, groups_of; rewrite map_app; reflexivity).
  specialize (Ws ltac:(intros x X Ht An; apply (Pf x); [rewrite Gs; apply in_or_app; left; apply (decoded_sub _ _ _ X)|exact Ht|];
    apply in_flat_map in An; destruct An as (y & Y1 & Y2); apply in_flat_map; exists y; split; [|exact Y2];
    unfold groups_of; rewrite map_app; apply in_or_app; apply in_app_or in Y1; destruct Y1 as [Y1|Y1];
    [left; apply (decoded_sub gs0 out0); rewrite D0; apply in_or_app; right; exact Y1|right; fold (groups_of gs); rewrite Gs; apply in_or_app; left; exact (decoded_sub _ _ _ Y1)])).
  rewrite Gs, flat_map_app in Nm. cbn [flat_map] in Nm. rewrite Sgq, Pg1 in Nm. apply Forall_app in Nm. destruct Nm as [Nm1 Nmq]. apply Forall_app in Nm1. destruct Nm1 as [Nm1 Nm2].
  inversion Nmq as [|? ? Nq _]; subst.
  pose proof (parts_ok _ Fk) as Pok. unfold parts in Pok. rewrite Sd, Pg1 in Pok. apply Forall_app in Pok. destruct Pok as [Pk1 Pk2].
  destruct I0 as (_ & En0 & n0 & Z0).
  destruct (repeated (env_ucs2 env) n0 x0 f v m1 m2 l q Z0 En0 C0' U1 U2 Pk1 Pk2 Nm1 W1 W2 Ll P0) as (s & Ef & Zs & Ens & Cs & Ca & Ms).
  rewrite Ef in Ws. unfold tri in Ws.
  assert (Tx : text_of (ch_station c1) = s /\ ab_of (ch_station c1) = f /\ prev_of (ch_station c1) = rtrim (rds_text l)) by (repeat split; congruence). clear Ws. destruct Tx as (Tx & Ax & Px).
  exists (out0 ++ out1), ln, (rtrim (rds_text l)). split; [rewrite app_assoc; reflexivity|]. split; [|apply rtrim_trimmed].
  (* the line *)
  pose proof (run_fine env o gs1 _ _ _ H Et Fc0 F1 Ea) as Fc1.
  set (g' := prepared o now c1 g 0).
  assert (Tn : tuned c1 g' = ch_station c1) by (apply (locked_tuned p c1 o now g 0 L1 (or_intror Pg))).
  pose proof (part_prepared o now c1 g 0 R) as Sg. cbv zeta in Sg. fold g' in Sg. rewrite Sgq in Sg.
  destruct (g_has_type g' && negb (Version_eqb (gt_version (g_type g')) VC) && (gt_number (g_type g') =? 2) && (g_has g' BLOCK3 && g_has g' BLOCK4)) eqn:Cr; [|discriminate Sg].
  assert (q = part_of g') as Eq by congruence.
  apply andb_prop in Cr. destruct Cr as [Cr H34]. apply andb_prop in Cr. destruct Cr as [Cr Hn]. apply andb_prop in Cr. destruct Cr as [Ht Hv]. apply negb_true_iff in Hv. apply N.eqb_eq in Hn.
  destruct (process_shows env o now c1 g 0 c2 ln H Et OJ Fc1 (proj1 R) Eb (or_introl (type2_raw _ _ Hn))) as (j & Dd & Lj). fold g' in Dd.
  pose proof (prepared_bler o now c1 g 0 Hc1 (proj1 R)) as [_ B]. fold g' in B. rewrite Tn in Dd.
  destruct (type2_cases env o _ g' _ j Dd) as [(_ & _ & _ & D1)|([X|[X|X]] & _)]; [|congruence|congruence|contradiction].
  assert (Hr : text_of (had (ch_station c1) g') = s /\ ab_of (had (ch_station c1) g') = f /\ prev_of (had (ch_station c1) g') = rtrim (rds_text l)) by (unfold text_of, ab_of, prev_of in *; rewrite had_rt; auto). destruct Hr as (Hr1 & Hr2 & Hr3).
  destruct (decodeType2_rt env o (had (ch_station c1) g') g' _ (header_rt env o (ch_station c1) g' B) ltac:(rewrite Hr1; exact Ens) H34) as ([s1 j1] & D2 & _ & _ & _ & J1).
  rewrite D1 in D2. injection D2 as <- <-. cbn [fst snd] in J1. rewrite Hr1, Hr2, Hr3, <- Eq, Ca, Ms in J1.
  assert (Pkq : part_ok q) by (pose proof (segment_ok (g, 0) R) as Z; rewrite Sgq in Z; inversion Z; assumption).
  rewrite (first_part_incomplete (env_ucs2 env) (rt_size v) s f q Zs Ens Cs Pkq Nq P0 (short_part _ _ Sgq)) in J1.
  rewrite (proj2 (FreqP.bytes_eqb_eq _ _) eq_refl) in J1. cbn [andb] in J1. rewrite rtrim_twice in J1. unfold says. rewrite Lj, J1. reflexivity.
Qed.

(* ---- an end mark left over from an earlier message ---- *)
Lemma term_set : forall d T b n, find_terminator d = T -> N.of_nat n < T -> b <> end_of_text -> find_terminator (list_set d n b) = T.
Proof.
  induction d as [|x d IH]; intros T b n E L Nb; cbn [find_terminator] in E; [lia|].
  destruct (N.eqb_spec x kStringTerminator) as [->|Nx]; [lia|]. destruct n as [|n]; cbn [list_set find_terminator].
  - destruct (N.eqb_spec b kStringTerminator) as [->|_]; [exfalso; apply Nb; reflexivity|exact E].
  - destruct (N.eqb_spec x kStringTerminator) as [->|_]; [congruence|]. rewrite (IH (T - 1) b n); [lia|lia|lia|exact Nb].
Qed.
Definition stuck (n T : N) (s : RDSString) : Prop := sized n s /\ find_terminator (s_data s) = T /\ s_sequential_length s <= T.
Lemma stuck_incomplete : forall n T s, T < n -> stuck n T s -> s_isComplete s = false.
Proof.
  intros n T s Tn ((Zl & _) & Tm & Sq). unfold s_isComplete, s_getExpectedLength, s_getReceivedLength. rewrite Tm, Zl. apply N.leb_gt. lia.
Qed.
Lemma set_stuck : forall u n T s p b, T < n -> stuck n T s -> p < T -> b < 256 -> b <> end_of_text -> stuck n T (s_set u s p b).
Proof.
  intros u n T s p b Tn (Z & Tm & Sq) Pp Bb Nb.
  assert (Z' : sized n (s_set u s p b)) by (apply set_sized; assumption). split; [exact Z'|].
  split; [rewrite (set_data u n s p b Z); replace (p <? n) with true by (symmetry; apply N.ltb_lt; lia); apply term_set; [exact Tm|lia|exact Nb]|].
  unfold s_set. destruct (_ <=? p); [exact Sq|]. cbv zeta.
  assert (X : (if (p =? 0) || ((p =? s_prev_pos s + 1) && (s_sequential_length s =? p)) then p + 1 else s_sequential_length s) <= T) by (destruct (_ || _); lia).
  destruct (s_isComplete _); [|exact X]. destruct (s_str _ _); [exact X|]. cbn [s_clear s_sequential_length]. lia.
Qed.
Lemma set_all_stuck : forall u n T ws s, T < n -> stuck n T s -> Forall (fun pb => fst pb < T /\ snd pb < 256 /\ snd pb <> end_of_text) ws -> stuck n T (set_all u s ws).
Proof.
  intros u n T. induction ws as [|[p b] r IH]; intros s Tn St F; [exact St|]. inversion F as [|? ? (F1 & F2 & F3) Fr]; subst. unfold set_all. cbn [fold_left fst snd] in *.
  apply IH; [exact Tn|apply set_stuck; assumption|exact Fr].
Qed.
Lemma place_below : forall l p T, p + N.of_nat (length l) <= T -> Forall (fun b => b < 256) l -> ~ In end_of_text l ->
  Forall (fun pb => fst pb < T /\ snd pb < 256 /\ snd pb <> end_of_text) (place p l).
Proof.
  induction l as [|x l IH]; intros p T H F Nt; cbn [place]; constructor; inversion F; subst; cbn [length] in H.
  - cbn [fst snd]. split; [lia|]. split; [assumption|]. intros ->. apply Nt. left. reflexivity.
  - apply IH; [lia|assumption|]. intros X. apply Nt. right. exact X.
Qed.
Lemma stuck_cand : forall n T s q, T < n -> stuck n T s -> rt_cand s q = false.
Proof.
  intros n T s q Tn ((Zl & _) & Tm & _). unfold rt_cand. replace (s_hasPreviouslyReceivedTerminators s) with true; [rewrite andb_false_r; reflexivity|].
  symmetry. destruct (s_hasPreviouslyReceivedTerminators s) eqn:Hp; [reflexivity|]. exfalso. pose proof (term_full _ (no_terminator s Hp)). lia.
Qed.

(* Part q is of a message that ends before position T, without end mark *)
Definition below (f : bool) (v : Version) (T : N) (q : rt_part) : Prop :=
  p_flag q = f /\ p_version q = v /\ ~ In end_of_text (p_chars q) /\ p_pos q + N.of_nat (length (p_chars q)) <= T.
Definition held (f0 f : bool) (v : Version) (T : N) (k : list (Group * N)) (st : Station) : Prop :=
  s_encoding (text_of st) = EncBasic /\
  (Forall (below f v T) (parts k) -> sized (rt_size v) (text_of st) /\ find_terminator (s_data (text_of st)) = T /\
     (ab_of st = f0 \/ (ab_of st = f /\ s_sequential_length (text_of st) <= T))).
Lemma held_put : forall u f0 f v T s ab q, f0 <> f -> T < rt_size v -> sized (rt_size v) s -> find_terminator (s_data s) = T -> (ab = f0 \/ (ab = f /\ s_sequential_length s <= T)) ->
  part_ok q -> below f v T q -> stuck (rt_size v) T (rt_put u s ab q) /\ rt_cand s q = false.
Proof.
  intros u f0 f v T s ab q Nf Tn Z Tm A (P1 & P2 & _) (Qf & Qv & Qn & Qp). split.
  - unfold rt_put. apply set_all_stuck; [exact Tn| |apply place_below; assumption]. rewrite Qv, Qf.
    assert (X : forall s1, sized (rt_size v) s1 -> find_terminator (s_data s1) = T -> s_sequential_length s1 <= T -> stuck (rt_size v) T (s_resize s1 (rt_size v))).
    { intros s1 Z1 T1 S1. rewrite (resize_same _ _ Z1). split; [exact Z1|]. split; assumption. }
    destruct (Bool.eqb ab f) eqn:Eb.
    + apply X; [exact Z|exact Tm|]. destruct A as [A|[_ A]]; [|exact A]. apply Bool.eqb_prop in Eb. congruence.
    + apply X; [apply clear_sized; exact Z|exact Tm|cbn [s_clear s_sequential_length]; lia].
  - unfold rt_cand. replace (s_hasPreviouslyReceivedTerminators s) with true; [rewrite andb_false_r; reflexivity|].
    symmetry. destruct (s_hasPreviouslyReceivedTerminators s) eqn:Hp; [reflexivity|]. exfalso. pose proof (term_full _ (no_terminator s Hp)). destruct Z. lia.
Qed.
Lemma held_had : forall f0 f v T k st g, held f0 f v T k st -> held f0 f v T k (had st g).
Proof. intros f0 f v T k st g H. unfold held, text_of, ab_of in *. rewrite had_rt. exact H. Qed.
Lemma held_step : forall env o f0 f v T k st now c g w st' j, f0 <> f -> T < rt_size v -> held f0 f v T k st -> st_ok st -> received_group (now, g, w) ->
  bler_ok (prepared o now c g w) -> decoded env o st (prepared o now c g w) = Ok (st', j) -> held f0 f v T (k ++ [(g, w)]) st'.
Proof.
  intros env o f0 f v T k st now c g w st' j Nf Tn [En K] So R B D. unfold held. rewrite parts_snoc.
  destruct (rt_outcome env o st now c g w st' j En R B D) as [(q & Sg & Pk & Tx & Ab)|(Sg & Ab & Tx & _)]; rewrite Sg.
  - split; [rewrite Tx, put_encoding; exact En|]. intros F. apply Forall_app in F. destruct F as [F1 F2]. inversion F2 as [|? ? Bq _]; subst. destruct (K F1) as (Z & Tm & A).
    destruct (held_put (env_ucs2 env) f0 f v T _ _ q Nf Tn Z Tm A Pk Bq) as [(S1 & S2 & S3) _]. rewrite Tx. split; [exact S1|]. split; [exact S2|]. right. split; [rewrite Ab; apply Bq|exact S3].
  - rewrite app_nil_r. destruct Tx as [Tx|Tx]; rewrite Tx.
    + split; [exact En|]. rewrite Ab. exact K.
    + split; [exact En|]. intros F. destruct (K F) as (Z & Tm & A). split; [apply clear_sized; exact Z|]. split; [exact Tm|]. rewrite Ab. destruct A as [A|[A _]]; [left; exact A|right]. split; [exact A|]. cbn [s_clear s_sequential_length]. lia.
Qed.

Lemma term_at : forall d t r, firstn (length (t ++ end_of_text :: r)) d = t ++ end_of_text :: r -> ~ In end_of_text t -> find_terminator d = N.of_nat (length t).
Proof.
  intros d t. revert d. induction t as [|x t IH]; intros d r E Nt; (destruct d as [|y d]; [discriminate E|]); cbn [app length firstn find_terminator] in *.
  - injection E as -> _. reflexivity.
  - injection E as -> E. destruct (N.eqb_spec x kStringTerminator) as [->|_]; [exfalso; apply Nt; left; reflexivity|].
    rewrite (IH d r E ltac:(intros X; apply Nt; right; exact X)). lia.
Qed.

Lemma old_end_mark : forall env o w0 gs0 gsm gs c0 c out0 out p f0 f v t r,
  host_ok env -> host_text env -> o_output_type o = OutJSON ->
  Forall received_group (gs0 ++ gsm ++ gs) -> p <> 0 -> three p (pis gs0) -> Forall (stays p) (gsm ++ gs) ->
  Forall (fun x => rt_segment (snd (fst x), snd x) <> [] -> carried_pi x = Some p) gsm ->
  uniform f0 v (flat_map rt_segment (groups_of gsm)) -> part_writes (flat_map rt_segment (groups_of gsm)) = place 0 (t ++ end_of_text :: r) -> ~ In end_of_text t ->
  no_plus (groups_of (gs0 ++ gsm)) (groups_of gsm) ->
  f <> f0 -> Forall (below f v (N.of_nat (length t))) (flat_map rt_segment (groups_of gs)) ->
  run_groups env o (Channel_new o w0) (gs0 ++ gsm) = Ok (c0, out0) -> run_groups env o c0 gs = Ok (c, out) ->
  forall line value, In (Some line) out -> ~ says line ["radiotext"] value.
Proof.
  intros env o w0 gs0 gsm gs cm c outm out p f0 f v t r H HT OJ F Np T3 S P Un Wr Nt Pf Nf Bl Em E line value Il Sy.
  destruct (host_env env H) as [Ee _]. pose proof (host_text_txt env HT) as Et.
  apply Forall_app in F. destruct F as [F0 F]. apply Forall_app in F. destruct F as [Fm F]. apply Forall_app in S. destruct S as [Sm S].
  rewrite run_groups_app in Em. destruct (run_groups env o (Channel_new o w0) gs0) as [[c0 out0]| |] eqn:E0; cbn [bind] in Em; try discriminate.
  destruct (run_groups env o c0 gsm) as [[c2 out2]| |] eqn:E1; cbn [bind] in Em; try discriminate. assert (c2 = cm) as -> by congruence. clear Em outm.
  pose proof (three_locked _ _ _ _ _ _ _ OJ E0 Np T3) as L.
  destruct (station_history any_rt env o H OJ (fun w => any_new (Station_new w) eq_refl eq_refl) (fun w p => any_new (Station_new_pi w p) eq_refl eq_refl) any_had (fun h st now c g w st' j => any_step env o h st now c g w st' j) gs0 w0 c0 out0 F0 E0)
    as (old & h0 & D0 & I0).
  assert (W0 : win (env_ucs2 env) h0 f0 v [] (ch_station c0)).
  { split; [constructor|]. split; [rewrite app_nil_r; exact I0|]. intros _ _ X. exfalso. apply X. reflexivity. }
  pose proof (run_fine env o gs0 _ _ _ H Et (created_fine o _ (or_introl (ex_intro _ w0 eq_refl))) F0 E0) as Fc0.
  destruct (steady_history (win (env_ucs2 env) h0 f0 v) env o p H OJ (win_had (env_ucs2 env) h0 f0 v) (fun h st now c g w st' j => win_step env o h0 f0 v h st now c g w st' j) gsm [] c0 cm _ (proj1 Fc0) L W0 Fm Sm E1)
    as (L2 & Hc2 & I2).
  pose proof (all_decoded _ rt_segment env o p H OJ gsm c0 cm _ (proj1 Fc0) L Fm Sm P E1) as Sd. change (map grp gsm) with (groups_of gsm) in Sd.
  cbn [app] in I2. destruct I2 as (Fk & A2 & W2). pose proof (parts_ok _ Fk) as Pok. unfold parts in W2, Pok. rewrite Sd in W2, Pok.
  destruct W2 as (s0 & Z0 & En0 & T0 & A0).
  { exact Un. }
  { intros x X Ht An. apply (Pf x); [apply (decoded_sub _ _ _ X)|exact Ht|]. apply in_flat_map in An. destruct An as (y & Y1 & Y2). apply in_flat_map. exists y. split; [|exact Y2].
    unfold groups_of. rewrite map_app. apply in_or_app. apply in_app_or in Y1. destruct Y1 as [Y1|Y1]; [left|right; exact (decoded_sub _ _ _ Y1)].
    apply (decoded_sub gs0 out0). rewrite D0. apply in_or_app. right. exact Y1. }
  { intros X. rewrite X in Wr. destruct t; discriminate Wr. }
  rewrite Wr in T0.
  pose proof (message_bytes _ _ _ _ Pok Un Wr) as Fl.
  assert (Wok : Forall (fun pb => fst pb < rt_size v /\ snd pb < 256) (place 0 (t ++ end_of_text :: r))).
  { rewrite <- Wr. unfold part_writes. apply Forall_flat_map. pose proof (both _ _ _ _ Pok Un) as X. eapply Forall_impl; [|exact X]. intros q (Pk & _ & <-). exact (part_place q Pk). }
  assert (Ll : N.of_nat (length (t ++ end_of_text :: r)) <= rt_size v).
  { clear - Wok. revert Wok. generalize (t ++ end_of_text :: r) as l. intros l Wok. destruct (snoc_cases _ l) as [->|(a & x & ->)]; [cbn; lia|]. rewrite place_app in Wok. apply Forall_app in Wok. destruct Wok as [_ W]. cbn [place] in W. inversion W as [|? ? [X _] _]; subst. cbn [fst] in X. rewrite app_length. cbn [length]. lia. }
  destruct (set_run (env_ucs2 env) (rt_size v) (t ++ end_of_text :: r) s0 Z0 ltac:(congruence) Ll Fl ltac:(destruct t; discriminate)) as (_ & _ & Fd). rewrite <- T0 in Fd.
  set (T := N.of_nat (length t)) in *.
  assert (Tn : T < rt_size v) by (rewrite app_length in Ll; cbn [length] in Ll; lia).
  assert (H0 : held f0 f v T [] (ch_station cm)).
  { split; [rewrite T0, set_all_encoding; exact En0|]. intros _. split; [rewrite T0; apply set_all_sized; [exact Z0|apply place_byte; exact Fl]|].
    split; [apply (term_at _ t r Fd Nt)|left; exact A0]. }
  (* the line *)
  destruct (prefix_of_run env o gs cm c out line H Hc2 F E Il) as (g1 & [[now g] w] & g2 & c1 & out1 & Eg & E2).
  rewrite Eg in F, S, Bl. apply Forall_app in F. destruct F as [F1 F2]. pose proof (Forall_inv F2) as R. apply Forall_app in S. destruct S as [S1 S2]. pose proof (Forall_inv S2) as Sg.
  unfold groups_of in Bl. rewrite map_app, flat_map_app in Bl. apply Forall_app in Bl. destruct Bl as [B1 B2]. cbn [app map flat_map fst snd] in B2. apply Forall_app in B2. destruct B2 as [B2 _].
  destruct (run_snoc _ _ _ _ _ _ _ _ _ E2) as (c3 & out3 & ln & Ea & Eb & Eo). apply app_inj_tail in Eo. destruct Eo as [-> <-].
  destruct (steady_history (held f0 f v T) env o p H OJ (held_had f0 f v T) (fun h st now c g w st' j => held_step env o f0 f v T h st now c g w st' j (fun X => Nf (eq_sym X)) Tn) g1 [] cm c3 _ Hc2 L2 H0 F1 S1 Ea)
    as (L3 & Hc3 & I3). cbn [app] in I3. destruct I3 as [En K].
  assert (Kf : Forall (below f v T) (parts (decoded_in g1 out3))).
  { apply Forall_forall. intros x Ix. unfold parts in Ix. apply in_flat_map in Ix. destruct Ix as (y & Iy & Ix). rewrite Forall_forall in B1. apply B1. apply in_flat_map. exists y. split; [exact (decoded_sub _ _ _ Iy)|exact Ix]. }
  destruct (K Kf) as (Z & Tm & A). clear K.
  set (g' := prepared o now c3 g w).
  assert (Tu : tuned c3 g' = ch_station c3) by (apply (locked_tuned p c3 o now g w L3 Sg)).
  destruct (process_header _ _ _ _ _ _ _ _ H OJ Hc3 (proj1 R) Eb) as [Si _]. fold g' in Si.
  destruct (process_spoken env o now c3 g w OJ Ee Hc3 (proj1 R) Si) as (st' & j & line' & Dd & Ps & _ & Pj & _). fold g' in Dd. rewrite Tu in Dd.
  rewrite Eb in Ps. assert (line' = line) as -> by congruence.
  pose proof (says_decoded env j line "radiotext" [] value H Pj ltac:(discriminate) Sy) as J.
  pose proof (prepared_bler o now c3 g w Hc3 (proj1 R)) as [_ B]. fold g' in B.
  assert (So : st_ok (ch_station c3)) by (rewrite <- Tu; apply tuned_ok; exact Hc3).
  destruct (type2_cases env o (ch_station c3) g' _ j Dd) as [(Ht & Hv & Hn & D3)|(_ & _ & _ & No)].
  2: { rewrite (decoded_absent env o _ g' _ j "radiotext" Ee So B Dd eq_refl No) in J. discriminate. }
  destruct (g_has g' BLOCK3 && g_has g' BLOCK4) eqn:H34.
  2: { unfold decodeType2 in D3. rewrite H34 in D3. cbn [negb] in D3. assert (j = JObj (header env o (ch_station c3) g')) as -> by congruence.
       cbn [jget] in J. rewrite (header_no env o _ g' "radiotext" B eq_refl) in J. discriminate J. }
  assert (Sgq : rt_segment (g, w) = [part_of g']).
  { rewrite (part_prepared o now c3 g w R). cbv zeta. fold g'. rewrite Ht, Hv, Hn, H34. reflexivity. }
  rewrite Sgq in B2. pose proof (Forall_inv B2) as Bq.
  assert (Pkq : part_ok (part_of g')) by (pose proof (segment_ok (g, w) R) as X; rewrite Sgq in X; inversion X; assumption).
  destruct (held_put (env_ucs2 env) f0 f v T _ _ _ (fun X => Nf (eq_sym X)) Tn Z Tm A Pkq Bq) as [St Ca].
  assert (Hr : text_of (had (ch_station c3) g') = text_of (ch_station c3) /\ ab_of (had (ch_station c3) g') = ab_of (ch_station c3)) by (unfold text_of, ab_of; rewrite had_rt; auto). destruct Hr as (Hr1 & Hr2).
  destruct (decodeType2_rt env o (had (ch_station c3) g') g' _ (header_rt env o (ch_station c3) g' B) ltac:(rewrite Hr1; exact En) H34) as ([s1 j1] & D4 & _ & _ & _ & J1).
  rewrite D3 in D4. injection D4 as <- <-. cbn [fst snd] in J1. rewrite Hr1, Hr2, Ca, (stuck_incomplete _ _ _ Tn St) in J1. cbn [andb] in J1. rewrite J1 in J. discriminate J.
Qed.
