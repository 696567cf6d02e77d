(* The programme service name. *)
From Verif.Model Require Import Util Group Options Tables Json RdsString Tmc Station Channel.
From Verif.Spec Require Import Unicode JsonText Session Identity History Quality Texts.
From Verif.Proofs Require Import Tac Numerals JsonP Schema StationP TextP CleanP UpdateP SessionP LineP FrameP ChannelP LinesP HistoryP ShowP TraceP KeysP StringP.

Local Open Scope string_scope.
Local Open Scope N_scope.

Lemma carries_prepared : forall n o now c g w, let g' := prepared o now c g w in
  carries n g w = g_has_type g' && (gt_number (g_type g') =? n) && negb (Version_eqb (gt_version (g_type g')) VC) && g_has g' BLOCK3 && g_has g' BLOCK4.
Proof.
  intros n o now c g w g'. unfold carries, g_has, g'. rewrite prepared_type, prepared_has_type, !prepared_block. destruct (w =? 0); cbn [andb g_block gt_number gt_version Version_eqb negb]; [reflexivity|].
  destruct (_ =? n); reflexivity.
Qed.
Lemma hi_bits : forall b, b < 2 ^ 16 -> getUint8 b 8 = hi b /\ hi b < 256.
Proof. intros b H. unfold getUint8, hi. rewrite getBits_arith. change (2 ^ 8) with 256. change (2 ^ 16) with (256 * 256) in H.
  assert (b / 256 < 256) by (apply N.div_lt_upper_bound; [discriminate|exact H]). rewrite N.mod_small by assumption. split; [reflexivity|assumption]. Qed.
Lemma lo_bits : forall b, getUint8 b 0 = lo b /\ lo b < 256.
Proof. intros b. unfold getUint8, lo. rewrite getBits_arith. change (2 ^ 8) with 256. change (2 ^ 0) with 1. rewrite N.div_1_r. split; [reflexivity|]. apply N.mod_lt. discriminate. Qed.

Definition ps_after (env : Env) (st : Station) (g : Group) : RDSString :=
  if g_has g BLOCK3 && g_has g BLOCK4
  then s_set2 (env_ucs2 env) (st_ps st) (getBits 2 (g_get g BLOCK2) 0 * 2) (getUint8 (g_get g BLOCK4) 8) (getUint8 (g_get g BLOCK4) 0)
  else st_ps st.

Lemma decodeType0_ps : forall env o st g j, conf (String.eqb "ps") absent j -> st_ok st ->
  good (fun sj => st_ps (fst sj) = ps_after env st g /\
    jget ["ps"] (snd sj) = if g_has g BLOCK3 && g_has g BLOCK4 && s_isComplete (ps_after env st g)
                           then Some (JStr (s_last_complete_string (ps_after env st g))) else None) (decodeType0 env o st g j).
Proof.
  intros env o st g j C So. unfold decodeType0, ps_after. cbv zeta. unfold getDICodeString. pose proof So as (Waf & _).
  assert (W : writes (String.eqb "ps") ["di"; "ta"; "is_music"; "alt_frequencies_a"; "alt_frequencies_b"; "partial_alt_frequencies"; "partial_ps"; "debug"])
    by (repeat constructor).
  jstep. jstep. jstep. destruct (g_has g BLOCK3); cbn [negb andb].
  - apply (good_bind _ _ (fun sj => st_ps (fst sj) = st_ps st /\ conf (String.eqb "ps") absent (snd sj))).
    + dif; [|apply good_ok; split; [reflexivity|assumption]].
      eapply good_bind.
      { apply (decodeAF_good (String.eqb "ps") absent); [exact C|exact Waf|]. destruct (o_show_partial o); repeat constructor. }
      intros [l j1] [Wl C1]. apply good_ok. split; [reflexivity|exact C1].
    + clear - W. intros [st1 j] [So C]. cbn [fst snd] in So, C. rewrite So.
      destruct (g_has g BLOCK4); cbn [negb].
      2: { apply good_ok. split; [exact So|]. apply (conf_get _ _ _ "ps" C). reflexivity. }
      destruct (s_isComplete _).
      * destruct C as (m & -> & _). cbn [bind jset jupd]. eexists. split; [reflexivity|]. split; [reflexivity|]. cbn [snd jget]. rewrite find_put. reflexivity.
      * destruct (o_show_partial o).
        2: { apply good_ok. split; [reflexivity|]. apply (conf_get _ _ _ "ps" C). reflexivity. }
        destruct (s_str _ _); jstep; apply good_ok; (split; [reflexivity|]); apply (conf_get _ _ _ "ps" C); reflexivity.
  - eapply good_bind; [apply isMethodB_good; exact Waf|]. intros b _. apply good_ok. split; [destruct b; reflexivity|].
    apply (conf_get _ _ _ "ps" C). reflexivity.
Qed.

Definition ps_inv (env : Env) (h : list (Group * N)) (st : Station) : Prop :=
  st_ps st = set_all (env_ucs2 env) (RDSString_new 8) (ps_writes h).

Lemma ps_writes_app : forall a b, ps_writes (a ++ b) = (ps_writes a ++ ps_writes b)%list.
Proof. intros a b. unfold ps_writes. rewrite !flat_map_app. reflexivity. Qed.
Lemma ps_writes_one : forall g w, ps_writes [(g, w)] = if carries 0 g w
  then [(2 * (blk_data (g_b2 g) mod 4), hi (blk_data (g_b4 g))); (2 * (blk_data (g_b2 g) mod 4) + 1, lo (blk_data (g_b4 g)))] else [].
Proof. intros g w. unfold ps_writes, ps_segment. cbn [flat_map]. rewrite app_nil_r. destruct (carries 0 g w); reflexivity. Qed.
Lemma set_all_app : forall u s a b, set_all u s (a ++ b)%list = set_all u (set_all u s a) b.
Proof. intros u s a b. unfold set_all. apply fold_left_app. Qed.

Lemma had_ps : forall st g, st_ps (had st g) = st_ps st.
Proof. intros st g. unfold had. destruct (_ || _); reflexivity. Qed.

Lemma header_absent : forall env o st g k, bler_ok g -> in_header k = false -> conf (String.eqb k) absent (JObj (header env o st g)).
Proof.
  intros env o st g k B Hk. destruct (header_conf env o st g B) as [(m & Em & X & _) Cn]. injection Em as <-. exists (header env o st g).
  split; [reflexivity|]. split; [exact X|]. intros k' H. apply String.eqb_eq in H. subst k'. apply Cn. exact Hk.
Qed.
Lemma ps_after_writes : forall env st o now c g w h, received_group (now, g, w) ->
  let g' := prepared o now c g w in
  g_has_type g' = true -> Version_eqb (gt_version (g_type g')) VC = false -> gt_number (g_type g') = 0 ->
  ps_inv env h st -> ps_after env st g' = set_all (env_ucs2 env) (RDSString_new 8) (ps_writes (h ++ [(g, w)])).
Proof.
  intros env st o now c g w h (_ & R1 & R2 & R3 & R4) g' Ht Hv Hn I. unfold ps_after. rewrite ps_writes_app, set_all_app.
  rewrite ps_writes_one, (carries_prepared 0 o now c g w). fold g'. rewrite Ht, Hv, Hn.
  cbn [N.eqb andb negb]. destruct (g_has g' BLOCK3 && g_has g' BLOCK4); [|exact I].
  unfold g'. unfold ps_inv in I. rewrite I. rewrite !prepared_get. unfold g_get. cbn [g_block]. unfold s_set2, set_all. cbn [fold_left fst snd].
  destruct (hi_bits _ R4) as [-> _]. destruct (lo_bits (blk_data (g_b4 g))) as [-> _].
  rewrite getBits_arith. change (2 ^ 0) with 1. change (2 ^ 2) with 4. rewrite N.div_1_r. rewrite (N.mul_comm _ 2). reflexivity.
Qed.

Ltac by_cases :=
  repeat match goal with
  | |- context [if ?c then _ else _] => destruct c
  | |- context [match find_type ?a ?b with _ => _ end] => destruct (find_type a b)
  end; try reflexivity.

(* Either the group is decoded by this decoder, or nothing changes *)
Lemma type0_cases : forall env o st g st' j, decoded env o st g = Ok (st', j) ->
  (g_has_type g = true /\ Version_eqb (gt_version (g_type g)) VC = false /\ gt_number (g_type g) = 0 /\
   decodeType0 env o (had st g) g (JObj (header env o st g)) = Ok (st', j)) \/
  ((g_has_type g = false \/ Version_eqb (gt_version (g_type g)) VC = true \/ gt_number (g_type g) <> 0) /\ st_ps st' = st_ps st /\
   (g_has_type g = true -> existsb (String.eqb "ps") (type_keys o st g) = false)).
Proof.
  intros env o st g st' j D. pose proof (decoded_frame env o st g _ D) as Fr. cbn [fst] in Fr. destruct Fr as (_ & Fp & _).
  destruct (g_has_type g) eqn:Ht; [|right; split; [auto|split; [rewrite Fp by reflexivity; apply had_ps|discriminate]]].
  destruct (Version_eqb (gt_version (g_type g)) VC) eqn:Hv.
  { right. split; [auto|]. split; [|intros _; unfold type_keys; cbv zeta; rewrite Hv; reflexivity].
    rewrite Fp; [apply had_ps|]. unfold group_fields. cbv zeta. rewrite Hv. reflexivity. }
  destruct (N.eq_dec (gt_number (g_type g)) 0) as [Hn|Hn].
  - left. repeat split; try assumption. unfold decoded in D. rewrite Ht in D. unfold decodeByType in D. cbv zeta in D. rewrite Hv, Hn in D. exact D.
  - right. apply N.eqb_neq in Hn. split; [right; right; apply N.eqb_neq; exact Hn|]. split.
    + rewrite Fp; [apply had_ps|]. unfold off, group_fields, app_fields. cbv zeta. rewrite Hv, Hn. by_cases.
    + intros _. unfold type_keys, app_keys. cbv zeta. rewrite Hv, Hn. by_cases.
Qed.

Lemma ps_step : forall env o h st now c g w st' j, ps_inv env h st -> st_ok st -> received_group (now, g, w) ->
  bler_ok (prepared o now c g w) -> decoded env o st (prepared o now c g w) = Ok (st', j) -> ps_inv env (h ++ [(g, w)]) st'.
Proof.
  intros env o h st now c g w st' j I So R B D. set (g' := prepared o now c g w) in *.
  destruct (type0_cases env o st g' st' j D) as [(Ht & Hv & Hn & D0)|(No & Ps & _)].
  - destruct (decodeType0_ps env o (had st g') g' _ (header_absent env o st g' "ps" B eq_refl) (had_ok _ _ So)) as ([s1 j1] & D1 & P1 & _).
    rewrite D0 in D1. injection D1 as <- <-. cbn [fst] in P1. unfold ps_inv. rewrite P1.
    apply ps_after_writes; try assumption. unfold ps_inv. rewrite had_ps. exact I.
  - unfold ps_inv. rewrite Ps, I, ps_writes_app. rewrite ps_writes_one, (carries_prepared 0 o now c g w). fold g'. replace (g_has_type g' && (gt_number (g_type g') =? 0) && negb (Version_eqb (gt_version (g_type g')) VC)) with false.
    2: { destruct No as [->|[->|No]]; [reflexivity|rewrite andb_false_r; reflexivity|]. apply N.eqb_neq in No. rewrite No, andb_false_r. reflexivity. }
    cbn [andb]. rewrite app_nil_r. reflexivity.
Qed.
Lemma ps_writes_ok : forall h, Forall (fun x => received_group (0%Z, fst x, snd x)) h -> Forall (fun pb => fst pb < 8 /\ snd pb < 256) (ps_writes h).
Proof.
  intros h F. induction F as [|[g w] h Hx F IH]; [constructor|]. change ((g, w) :: h) with ([(g, w)] ++ h)%list. rewrite ps_writes_app. apply Forall_app. split; [|exact IH].
  rewrite ps_writes_one. destruct (carries 0 g w); [|constructor]. destruct Hx as (_ & _ & _ & _ & H4). cbn [fst] in H4.
  pose proof (N.mod_lt (blk_data (g_b2 g)) 4 ltac:(discriminate)). repeat constructor; cbn [fst snd]; try lia; [apply hi_bits; exact H4|apply lo_bits].
Qed.
Lemma ps_new : forall env w, ps_inv env [] (Station_new w).
Proof. reflexivity. Qed.
Lemma ps_new_pi : forall env w p, ps_inv env [] (Station_new_pi w p).
Proof. reflexivity. Qed.
Lemma ps_had : forall env h st g, ps_inv env h st -> ps_inv env h (had st g).
Proof. intros env h st g H. unfold ps_inv. rewrite had_ps. exact H. Qed.
Lemma ps_tracks : forall env h st, Forall (fun x => received_group (0%Z, fst x, snd x)) h -> ps_inv env h st -> tracks 8 (st_ps st) (ps_writes h) /\ s_encoding (st_ps st) = EncBasic.
Proof.
  intros env h st F I. rewrite I. split; [|rewrite set_all_encoding; reflexivity].
  apply (set_all_tracks (env_ucs2 env) 8 (ps_writes h) (RDSString_new 8) [] (new_tracks 8) (ps_writes_ok h F)).
Qed.
Lemma decoded_received : forall gs out, Forall received_group gs -> Forall (fun x => received_group (0%Z, fst x, snd x)) (decoded_in gs out).
Proof.
  induction gs as [|[[now g] w] gs IH]; intros out F; [constructor|]. inversion F; subst. destruct out as [|[l|] out]; [constructor| |]; unfold decoded_in; cbn [combine flat_map app].
  - constructor; [assumption|apply IH; assumption].
  - apply IH; assumption.
Qed.

(* A name shown as complete *)
Lemma ps_complete : forall env o w0 gs now g w c out line v, host_ok env -> o_output_type o = OutJSON -> Forall received_group (gs ++ [(now, g, w)]) ->
  run_groups env o (Channel_new o w0) (gs ++ [(now, g, w)]) = Ok (c, out ++ [Some line])%list -> says line ["ps"] v ->
  exists l, complete_text 8 (ps_writes (decoded_in (gs ++ [(now, g, w)]) (out ++ [Some line]))) l /\ v = VStr (rds_text l).
Proof.
  intros env o w0 gs now g w c out line v H OJ F E S. destruct (host_env env H) as [Ee _].
  destruct (last_group (ps_inv env) env o H OJ (ps_new env) (ps_new_pi env) (ps_had env) (fun h st now c g w st' j => ps_step env o h st now c g w st' j) gs now g w w0 c out line F E)
    as (old & h & st & c1 & j & D & I & So & Dd & Pj & B & Hc & _).
  set (g' := prepared o now c1 g w) in *. pose proof (says_decoded env j line "ps" [] v H Pj ltac:(discriminate) S) as J.
  assert (R : received_group (now, g, w)) by (apply Forall_app in F; destruct F as [_ F2]; inversion F2; assumption).
  pose proof (decoded_received _ (out ++ [Some line])%list F) as Fd. rewrite D in Fd. apply Forall_app in Fd. destruct Fd as [_ Fd].
  pose proof (ps_step env o h st now c1 g w (ch_station c) j I So R B Dd) as I'. rewrite D, ps_writes_app.
  destruct (ps_tracks env _ _ Fd I') as [T En].
  destruct (type0_cases env o st g' _ j Dd) as [(Ht & Hv & Hn & D0)|(_ & _ & No)].
  - destruct (decodeType0_ps env o (had st g') g' _ (header_absent env o st g' "ps" B eq_refl) (had_ok _ _ So)) as ([s1 j1] & D1 & P1 & J1).
    rewrite D0 in D1. injection D1 as <- <-. cbn [fst snd] in P1, J1. rewrite <- P1 in J1. rewrite J1 in J.
    destruct (g_has g' BLOCK3 && g_has g' BLOCK4) eqn:H34; cbn [andb] in J; [|discriminate]. destruct (s_isComplete (st_ps (ch_station c))) eqn:Cp; [|discriminate].
    injection J as <-. exists (shown_bytes (st_ps (ch_station c))). split; [apply complete_earlier, complete_spec; [exact T|lia|exact Cp]|].
    cbn [value_of]. f_equal. pose proof (complete_str (env_ucs2 env) _ (proj2 (tracks_sized _ _ _ T)) Cp) as X. rewrite En in X.
    assert (Some (s_last_complete_string (st_ps (ch_station c))) = Some (rds_text (shown_bytes (st_ps (ch_station c))))) as Y; [|injection Y; auto].
    rewrite <- X. unfold ps_inv in I'. rewrite ps_writes_app, set_all_app in I'. rewrite I' in Cp |- *. symmetry.
    eapply (set_all_last _ 8); [eapply tracks_sized; apply (set_all_tracks (env_ucs2 env) 8 (ps_writes h) (RDSString_new 8) [] (new_tracks 8))| | | |exact Cp].
    + apply ps_writes_ok. apply Forall_app in Fd. apply Fd.
    + lia.
    + rewrite ps_writes_one, (carries_prepared 0 o now c1 g w). fold g'. rewrite Ht, Hv, Hn. cbn [N.eqb andb negb]. rewrite H34. discriminate.
    + apply ps_writes_ok. apply Forall_app in Fd. apply Fd.
  - rewrite (decoded_absent env o st g' _ j "ps" Ee So B Dd eq_refl No) in J. discriminate.
Qed.

(* ---- a name received in order is shown ---- *)
Lemma run_fine : forall env o gs c c' out, host_ok env -> env_txt env -> ch_fine c -> Forall received_group gs ->
  run_groups env o c gs = Ok (c', out) -> ch_fine c'.
Proof.
  intros env o gs. induction gs as [|[[now g] w] gs IH]; intros c c' out H T Fc F E; cbn [run_groups] in E; [injection E as <- _; exact Fc|].
  destruct (processGroup env o now c g w) as [[c1 l1]| |] eqn:E1; cbn [bind] in E; try discriminate.
  destruct (run_groups env o c1 gs) as [[c2 o2]| |] eqn:E2; cbn [bind] in E; try discriminate. injection E as <- _.
  inversion F as [|? ? R F']; subst. apply (IH c1 c2 o2 H T); [|exact F'|exact E2]. exact (process_fine env o now c g w c1 l1 H T Fc (proj1 R) E1).
Qed.

Lemma type0_raw : forall st g, gt_number (g_type g) = 0 -> raw_group st g = false.
Proof.
  intros st g Hn. unfold raw_group. rewrite Hn. cbv zeta. destruct (find_type _ _) as [a|]; [|rewrite andb_false_r; reflexivity].
  cbn [N.eqb orb negb]. rewrite andb_false_r. reflexivity.
Qed.

Lemma ps_round_trip : forall env o w0 gs0 gs1 now g c out p earlier n0 n1 n2 n3 n4 n5 n6 n7,
  host_ok env -> host_text env -> o_output_type o = OutJSON ->
  let gs := (gs1 ++ [(now, g, 0)])%list in
  Forall received_group (gs0 ++ gs) -> p <> 0 -> three p (pis gs0) -> Forall (stays p) gs ->
  Forall (fun x => ps_segment (snd (fst x), snd x) <> [] -> carried_pi x = Some p) gs ->
  ps_segment (g, 0) <> [] ->
  flat_map ps_segment (groups_of gs) = (earlier ++ [(0, n0, n1); (1, n2, n3); (2, n4, n5); (3, n6, n7)])%list ->
  ~ In end_of_text [n0; n1; n2; n3; n4; n5; n6; n7] ->
  run_groups env o (Channel_new o w0) (gs0 ++ gs) = Ok (c, out) ->
  exists out' line, out = (out' ++ [Some line])%list /\ says line ["ps"] (VStr (rds_text [n0; n1; n2; n3; n4; n5; n6; n7])).
Proof.
  intros env o w0 gs0 gs1 now g c out p earlier n0 n1 n2 n3 n4 n5 n6 n7 H HT OJ gs F Np T3 S P Pl Sg Nt E.
  destruct (host_env env H) as [Ee _]. pose proof (host_text_txt env HT) as Et.
  apply Forall_app in F. destruct F as [F0 F].
  rewrite run_groups_app in E. destruct (run_groups env o (Channel_new o w0) gs0) as [[c0 out0]| |] eqn:E0; cbn [bind] in E; try discriminate.
  destruct (run_groups env o c0 gs) as [[c2 out2]| |] eqn:E1; cbn [bind] in E; try discriminate. injection E as <- <-.
  pose proof (three_locked _ _ _ _ _ _ _ OJ E0 Np T3) as L.
  destruct (station_history (ps_inv env) env o H OJ (ps_new env) (ps_new_pi env) (ps_had env) (fun h st now c g w st' j => ps_step env o h st now c g w st' j) gs0 w0 c0 out0 F0 E0)
    as (old & h0 & D0 & I0).
  assert (Fh0 : Forall (fun x => received_group (0%Z, fst x, snd x)) h0).
  { pose proof (decoded_received gs0 out0 F0) as X. rewrite D0 in X. apply Forall_app in X. apply X. }
  pose proof (run_fine env o gs0 _ _ _ H Et (created_fine o _ (or_introl (ex_intro _ w0 eq_refl))) F0 E0) as Fc0.
  destruct (run_snoc _ _ _ _ _ _ _ _ _ E1) as (c1 & out1 & line & Ea & Eb & ->).
  pose proof S as S'. apply Forall_app in S'. destruct S' as [S1 S2]. inversion S2 as [|? ? Sg0 _]; subst.
  pose proof F as F'. apply Forall_app in F'. destruct F' as [F1 F2]. inversion F2 as [|? ? R _]; subst.
  destruct (steady_history (ps_inv env) env o p H OJ (ps_had env) (fun h st now c g w st' j => ps_step env o h st now c g w st' j) gs1 h0 c0 c1 out1 (proj1 Fc0) L I0 F1 S1 Ea)
    as (L1 & Hc1 & I1).
  destruct (steady_history (ps_inv env) env o p H OJ (ps_had env) (fun h st now c g w st' j => ps_step env o h st now c g w st' j) gs h0 c0 c2 _ (proj1 Fc0) L I0 F S E1)
    as (L2 & Hc2 & I2).
  pose proof P as P'. apply Forall_app in P'. destruct P' as [P1 P2]. inversion P2 as [|? ? Pg _]; subst. cbn [fst snd] in Pg. specialize (Pg Pl).
  destruct (locked_printed _ _ _ _ _ _ _ _ _ H OJ Hc1 (proj1 R) L1 Pg Eb) as (l & ->).
  exists (out0 ++ out1)%list, l. split; [rewrite app_assoc; reflexivity|].
  pose proof (all_decoded _ ps_segment env o p H OJ gs c0 c2 _ (proj1 Fc0) L F S P E1) as Sd. change (map grp gs) with (groups_of gs) in Sd. rewrite Sg in Sd.
  set (name := [n0; n1; n2; n3; n4; n5; n6; n7]) in *.
  assert (W : ps_writes (h0 ++ decoded_in gs (out1 ++ [Some l])) = (ps_writes (h0 ++ []) ++ flat_map (fun s => let '(n, a, b) := s in [(2 * n, a); (2 * n + 1, b)]) earlier ++ place 0 name)%list).
  { rewrite !ps_writes_app. rewrite app_nil_r. f_equal. unfold ps_writes. rewrite Sd, flat_map_app. reflexivity. }
  assert (Fd : Forall (fun x => received_group (0%Z, fst x, snd x)) (h0 ++ decoded_in gs (out1 ++ [Some l])))
    by (apply Forall_app; split; [exact Fh0|apply decoded_received; exact F]).
  pose proof (ps_writes_ok _ Fd) as Wok. rewrite W in Wok. rewrite app_assoc in W, Wok.
  set (W0 := (ps_writes (h0 ++ []) ++ flat_map (fun s => let '(n, a, b) := s in [(2 * n, a); (2 * n + 1, b)]) earlier)%list) in *.
  apply Forall_app in Wok. destruct Wok as [W0ok Wn].
  unfold ps_inv in I2. rewrite W, set_all_app in I2.
  assert (Fn : Forall (fun b => b < 256) name).
  { unfold name. repeat (match goal with X : Forall _ (place _ _) |- _ => idtac end). cbn [place name] in Wn. repeat match goal with X : Forall _ (_ :: _) |- _ => inversion X; clear X; subst end. cbn [fst snd] in *. repeat constructor; tauto. }
  destruct (run_full (env_ucs2 env) 8 (set_all (env_ucs2 env) (RDSString_new 8) W0) name
    (tracks_sized 8 _ _ (set_all_tracks (env_ucs2 env) 8 W0 (RDSString_new 8) [] (new_tracks 8) W0ok)) ltac:(rewrite set_all_encoding; reflexivity) ltac:(lia) Fn eq_refl Nt) as [Cp Lc].
  rewrite <- I2 in Cp, Lc.
  (* the line *)
  pose proof (run_fine env o gs1 _ _ _ H Et Fc0 F1 Ea) as Fc1.
  set (g' := prepared o now c1 g 0).
  assert (Cr : carries 0 g 0 = true) by (unfold ps_segment in Pl; destruct (carries 0 g 0); [reflexivity|congruence]).
  rewrite (carries_prepared 0 o now c1 g 0) in Cr. fold g' in Cr.
  apply andb_prop in Cr. destruct Cr as [Cr H4]. apply andb_prop in Cr. destruct Cr as [Cr H3]. apply andb_prop in Cr. destruct Cr as [Cr Hv]. apply andb_prop in Cr. destruct Cr as [Ht Hn].
  apply negb_true_iff in Hv. apply N.eqb_eq in Hn.
  destruct (process_shows env o now c1 g 0 c2 l H Et OJ Fc1 (proj1 R) Eb (or_introl (type0_raw _ _ Hn))) as (j & Dd & Lj). fold g' in Dd.
  pose proof (prepared_bler o now c1 g 0 Hc1 (proj1 R)) as [_ B]. fold g' in B.
  assert (So : st_ok (tuned c1 g')).
  { unfold g'. rewrite (locked_tuned p c1 o now g 0 L1 (or_intror Pg)). apply Hc1. }
  destruct (type0_cases env o _ g' _ j Dd) as [(_ & _ & _ & D1)|([X|[X|X]] & _)]; [|congruence|congruence|contradiction].
  destruct (decodeType0_ps env o (had (tuned c1 g') g') g' _ (header_absent env o (tuned c1 g') g' "ps" B eq_refl) (had_ok _ _ So)) as ([s1 j1] & D2 & P3 & J1).
  rewrite D1 in D2. injection D2 as <- <-. cbn [fst snd] in P3, J1. rewrite <- P3, Cp, Lc, H3, H4 in J1. cbn [andb] in J1.
  unfold says. rewrite Lj, J1. reflexivity.
Qed.

(* ---- a new name whose first segment was received ---- *)
Lemma sequence_since_0 : forall n ws, in_sequence n ws -> exists w1 w2, ws = (w1 ++ w2)%list /\ 
  (forall i, i < n -> exists b, In (i, b) w2) /\
  (exists b w3, w2 = (0, b) :: w3 /\ Forall (fun x => fst x <> 0) w3).
Proof.
  intros n ws S. induction S as [ws b|ws n c b S IH|ws n p b S IH P].
  - exists ws, [(0, b)]. split; [reflexivity|]. split; [|exists b, []; split; [reflexivity|constructor]].
    intros i L. exists b. left. f_equal. lia.
  - destruct IH as (w1 & w2 & E & I & d & w3 & Z & F). exists w1, (w2 ++ [(n + 1, b)])%list. split; [|split].
    + rewrite app_assoc, <- E, <- app_assoc. reflexivity.
    + intros i L. destruct (N.eq_dec i (n + 1)) as [->|Ne]; [exists b; apply in_or_app; right; left; reflexivity|].
      destruct (I i ltac:(lia)) as (x & X). exists x. apply in_or_app. left. exact X.
    + exists d, (w3 ++ [(n + 1, b)])%list. split; [rewrite Z; reflexivity|]. apply Forall_app. split; [exact F|]. constructor; [cbn; lia|constructor].
  - destruct IH as (w1 & w2 & E & I & d & w3 & Z & F). exists w1, (w2 ++ [(p, b)])%list. split; [|split].
    + rewrite E, <- app_assoc. reflexivity.
    + intros i L. destruct (I i L) as (x & X). exists x. apply in_or_app. left. exact X.
    + exists d, (w3 ++ [(p, b)])%list. split; [rewrite Z; reflexivity|]. apply Forall_app. split; [exact F|]. constructor; [exact P|constructor].
Qed.
Lemma suffix_since_0 : forall (a b w1 w3 : Texts.writes) d, (a ++ b = w1 ++ (0, d) :: w3)%list -> Forall (fun x => fst x <> 0) w3 -> (exists e, In (0, e) b) ->
  exists c, b = (c ++ (0, d) :: w3)%list.
Proof.
  induction a as [|x a IH]; intros b w1 w3 d E F H; [exists w1; exact E|].
  destruct w1 as [|y w1].
  - exfalso. cbn [app] in E. injection E as -> E. destruct H as (e & H). rewrite <- E in F. apply Forall_app in F. destruct F as [_ F]. rewrite Forall_forall in F. apply (F _ H). reflexivity.
  - cbn [app] in E. injection E as -> E. exact (IH b w1 w3 d E F H).
Qed.
Lemma first_in : forall i ws b, In (i, b) ws -> exists b', first_at i ws = Some b' /\ In (i, b') ws.
Proof.
  intros i ws b. induction ws as [|[p x] ws IH]; intros H; [destruct H|]. cbn [first_at]. destruct (N.eqb_spec p i) as [->|Ne].
  - exists x. split; [reflexivity|left; reflexivity].
  - destruct H as [H|H]; [injection H as -> _; exfalso; apply Ne; reflexivity|]. destruct (IH H) as (b' & E & I). exists b'. split; [exact E|right; exact I].
Qed.
Lemma last_in : forall i ws b, In (i, b) ws -> exists b', last_at i ws = Some b' /\ In (i, b') ws.
Proof.
  intros i ws b H. apply in_rev in H. destruct (first_in i (rev ws) b H) as (b' & E & I). exists b'. split; [exact E|]. apply in_rev. exact I.
Qed.
(* Bytes received since a position 0 are all of one text *)
Lemma gapless_since : forall a b l (text : list N), gapless (a ++ b)%list l -> (exists e, In (0, e) b) ->
  Forall (fun x => nth_error text (N.to_nat (fst x)) = Some (snd x)) b -> forall i x, nth_error l i = Some x -> nth_error text i = Some x.
Proof.
  intros a b l text [S L] Z T i x X. destruct (sequence_since_0 _ _ S) as (w1 & w2 & E & I & d & w3 & -> & F).
  destruct (suffix_since_0 a b w1 w3 d E F Z) as (c & ->).
  assert (Li : N.of_nat i < N.of_nat (length l)).
  { assert (i < length l)%nat; [|lia]. apply nth_error_Some. rewrite X. discriminate. }
  destruct (I _ Li) as (y & Y).
  destruct (last_in (N.of_nat i) (c ++ (0, d) :: w3)%list y ltac:(apply in_or_app; right; exact Y)) as (y' & LA & Y').
  pose proof (last_at_earlier (N.of_nat i) _ a _ LA) as LA'. rewrite (L i x X) in LA'. injection LA' as <-.
  rewrite Forall_forall in T. specialize (T _ Y'). cbn [fst snd] in T. rewrite Nat2N.id in T. exact T.
Qed.
Lemma complete_since : forall a b l (text : list N) size, complete_text size (a ++ b)%list l -> N.of_nat (length text) = size -> ~ In end_of_text text -> (exists e, In (0, e) b) ->
  Forall (fun x => nth_error text (N.to_nat (fst x)) = Some (snd x)) b -> l = text.
Proof.
  intros a b l text size [G C] Lt No Z T. pose proof (gapless_since a b l text G Z T) as P.
  destruct C as [[C _]|(l' & -> & _)].
  - apply nth_ext with (d := 0) (d' := 0); [lia|]. intros i Li. destruct (nth_error l i) as [x|] eqn:X; [|apply nth_error_None in X; lia].
    pose proof (P i x X) as Y. erewrite nth_error_nth by exact X. erewrite nth_error_nth by exact Y. reflexivity.
  - exfalso. apply No. apply nth_error_In with (n := length l'). apply P. rewrite nth_error_app2, Nat.sub_diag by lia. reflexivity.
Qed.
Lemma ps_not_mixed : forall env o w0 gs now g w c out line v before after name, host_ok env -> o_output_type o = OutJSON -> Forall received_group (gs ++ [(now, g, w)]) ->
  run_groups env o (Channel_new o w0) (gs ++ [(now, g, w)]) = Ok (c, out ++ [Some line])%list -> says line ["ps"] v ->
  flat_map ps_segment (decoded_in (gs ++ [(now, g, w)]) (out ++ [Some line])) = (before ++ after)%list ->
  length name = 8%nat -> ~ In end_of_text name ->
  Forall (fun s => let '(n, a, b) := s in nth_error name (N.to_nat (2 * n)) = Some a /\ nth_error name (N.to_nat (2 * n + 1)) = Some b) after ->
  (exists a b, In (0, a, b) after) ->
  v = VStr (rds_text name).
Proof.
  intros env o w0 gs now g w c out line v before after name H OJ F E S D L No T (x & y & Z).
  destruct (ps_complete env o w0 gs now g w c out line v H OJ F E S) as (l & C & ->). unfold ps_writes in C. rewrite D, flat_map_app in C.
  assert (l = name) as ->; [|reflexivity]. refine (complete_since _ _ l name 8 C _ No _ _).
  - rewrite L. reflexivity.
  - exists x. apply in_flat_map. exists (0, x, y). split; [exact Z|left; reflexivity].
  - rewrite Forall_forall. intros z I. apply in_flat_map in I. destruct I as ([[n a] b] & I & J). rewrite Forall_forall in T. destruct (T _ I) as [T1 T2].
    destruct J as [<-|[<-|[]]]; assumption.
Qed.
