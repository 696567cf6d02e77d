(* Texts that are shown before they are complete. *)
From Verif.Model Require Import Util Group Options Tables Json RdsString Tmc Station Channel.
From Verif.Spec Require Import Unicode JsonText Session Identity History Quality Texts.
From Verif.Proofs Require Import Tac Numerals JsonP Utf8P Schema StationP TextP CleanP UpdateP SessionP LineP FrameP ChannelP LinesP HistoryP ShowP TraceP KeysP StringP PsP RtP EndP LpsP.

Local Open Scope string_scope.
Local Open Scope N_scope.
Local Open Scope list_scope.

#[local] Strategy 1000 [set_all s_set s_isComplete s_str s_last_complete_string header].

(* ---- what the buffer holds ---- *)
Lemma data_shown : forall n s ws, tracks n s ws -> exists l k, (l = [] \/ gapless ws l) /\ Forall (fun b => b < 256) l /\
  (s_isComplete s = false -> ~ In end_of_text l /\ N.of_nat (length l + k) <= n) /\ s_getData s = map visible l ++ repeat 32 k.
Proof.
  intros n s ws T. destruct (s_isComplete s) eqn:C.
  - exists (shown_bytes s), O. pose proof T as (Tl & Ts & Tb & _). cbn [repeat]. rewrite app_nil_r. split; [|split; [apply shown_byte; exact Tb|split; [discriminate|apply complete_data; exact C]]].
    destruct (shown_bytes s) as [|b l] eqn:Sb; [left; reflexivity|right].
    assert (Hn : 0 < n). { unfold shown_bytes in Sb. destruct (s_data s) as [|x d] eqn:Ed; [rewrite firstn_nil in Sb; discriminate|]. cbn [length] in Tl. lia. }
    rewrite <- Sb. apply (complete_spec n s ws T Hn C).
  - pose proof (term_le (s_data s)) as Te. pose proof C as C0. unfold s_isComplete, s_getReceivedLength in C. apply N.leb_gt in C. pose proof T as (Tl & Ts & Tb & _).
    exists (firstn (N.to_nat (s_sequential_length s)) (s_data s)), (N.to_nat (s_getExpectedLength s) - N.to_nat (s_sequential_length s))%nat.
    assert (Ex : s_getExpectedLength s <= n) by (unfold s_getExpectedLength; lia).
    split; [|split; [|split; [intros _; split|]]].
    + destruct (N.eq_0_gt_0_cases (s_sequential_length s)) as [Z|Ps]; [left; rewrite Z; reflexivity|right]. apply (firstn_gapless n s ws T Ps).
    + rewrite <- (firstn_skipn (N.to_nat (s_sequential_length s)) (s_data s)) in Tb. apply Forall_app in Tb. apply Tb.
    + assert (X : forall d k, (k <= N.to_nat (find_terminator d))%nat -> ~ In end_of_text (firstn k d)).
      { induction d as [|b d IH]; intros [|k] Hk; cbn [firstn]; try (intros []; fail). cbn [find_terminator] in Hk. destruct (b =? kStringTerminator) eqn:Eb; [cbn in Hk; lia|].
        intros [->|I]; [discriminate Eb|]. apply (IH k); [lia|exact I]. }
      apply X. unfold s_getExpectedLength in C. lia.
    + rewrite firstn_length. lia.
    + unfold s_getData. rewrite getData_blank, N.sub_0_r; [reflexivity|lia|]. unfold s_getExpectedLength. lia.
Qed.
Lemma basic_shown : forall u n s ws, tracks n s ws -> s_encoding s = EncBasic -> exists l k, (l = [] \/ gapless ws l) /\
  (s_isComplete s = false -> ~ In end_of_text l /\ N.of_nat (length l + k) <= n) /\ s_str u s = Some (rds_text l ++ repeat 32 k).
Proof.
  intros u n s ws T En. destruct (data_shown n s ws T) as (l & k & G & B & C & D). exists l, k. split; [exact G|]. split; [exact C|].
  unfold s_str. rewrite En, D, flat_map_app, blanks_text, (visible_text _ B). reflexivity.
Qed.

(* ---- programme service name ---- *)
Lemma decodeType0_partial : forall env o st g j, conf (String.eqb "partial_ps") absent j -> st_ok st -> s_encoding (st_ps st) = EncBasic ->
  good (fun sj => jget ["partial_ps"] (snd sj) =
    if g_has g BLOCK3 && g_has g BLOCK4 && negb (s_isComplete (ps_after env st g)) && o_show_partial o
    then option_map JStr (s_str (env_ucs2 env) (ps_after env st g)) else None) (decodeType0 env o st g j).
Proof.
  intros env o st g j C So En. unfold decodeType0, ps_after. cbv zeta. unfold getDICodeString. pose proof So as (Waf & _).
  assert (W : writes (String.eqb "partial_ps") ["di"; "ta"; "is_music"; "alt_frequencies_a"; "alt_frequencies_b"; "partial_alt_frequencies"; "ps"; "debug"])
    by (repeat constructor).
  jstep. jstep. jstep. destruct (g_has g BLOCK3); cbn [negb andb].
  - apply (good_bind _ _ (fun sj => st_ps (fst sj) = st_ps st /\ conf (String.eqb "partial_ps") absent (snd sj))).
    + dif; [|apply good_ok; split; [reflexivity|assumption]].
      eapply good_bind.
      { apply (decodeAF_good (String.eqb "partial_ps") absent); [exact C|exact Waf|]. destruct (o_show_partial o); repeat constructor. }
      intros [l j1] [Wl C1]. apply good_ok. split; [reflexivity|exact C1].
    + clear - W En. intros [st1 j] [So C]. cbn [fst snd] in So, C. rewrite So.
      destruct (g_has g BLOCK4); cbn [negb].
      2: { apply good_ok. apply (conf_get _ _ _ "partial_ps" C). reflexivity. }
      destruct (s_isComplete _); cbn [negb andb].
      * jstep. apply good_ok. apply (conf_get _ _ _ "partial_ps" C). reflexivity.
      * destruct (o_show_partial o); [|apply good_ok; apply (conf_get _ _ _ "partial_ps" C); reflexivity].
        destruct (s_str _ _) as [t|] eqn:Es.
        -- destruct C as (m & -> & _). cbn [bind jset jupd]. eexists. split; [reflexivity|]. cbn [snd jget]. rewrite find_put. reflexivity.
        -- exfalso. edestruct StringP.basic_str as (t & Et); [|rewrite Et in Es; discriminate Es]. unfold s_set2. rewrite !set_encoding, En. discriminate.
  - eapply good_bind; [apply isMethodB_good; exact Waf|]. intros b _. apply good_ok. apply (conf_get _ _ _ "partial_ps" C). reflexivity.
Qed.
Lemma no_partial_ps : forall o st g, (g_has_type g = false \/ Version_eqb (gt_version (g_type g)) VC = true \/ gt_number (g_type g) <> 0) ->
  g_has_type g = true -> existsb (String.eqb "partial_ps") (type_keys o st g) = false.
Proof.
  intros o st g [X|[X|X]] Ht; [congruence| |]; unfold type_keys, app_keys; cbv zeta; [rewrite X; reflexivity|]. apply N.eqb_neq in X. rewrite X. by_cases.
Qed.

Lemma ps_partial : forall env o w0 gs now g w c out line v, host_ok env -> o_output_type o = OutJSON -> Forall received_group (gs ++ [(now, g, w)]) ->
  run_groups env o (Channel_new o w0) (gs ++ [(now, g, w)]) = Ok (c, out ++ [Some line]) -> says line ["partial_ps"] v ->
  let ws := ps_writes (decoded_in (gs ++ [(now, g, w)]) (out ++ [Some line])) in
  exists l k, (l = [] \/ gapless ws l) /\ ~ In end_of_text l /\ N.of_nat (length l + k) <= 8 /\ v = VStr (rds_text l ++ repeat 32 k).
Proof.
  intros env o w0 gs now g w c out line v H OJ F E S ws. destruct (host_env env H) as [Ee _].
  destruct (last_group (ps_inv env) env o H OJ (ps_new env) (ps_new_pi env) (ps_had env) (fun h st now c g w st' j => ps_step env o h st now c g w st' j) gs now g w w0 c out line F E)
    as (old & h & st & c1 & j & D & I & So & Dd & Pj & B & Hc & _).
  set (g' := prepared o now c1 g w) in *. pose proof (says_decoded env j line "partial_ps" [] v H Pj ltac:(discriminate) S) as J.
  assert (R : received_group (now, g, w)) by (apply Forall_app in F; destruct F as [_ F2]; inversion F2; assumption).
  pose proof (decoded_received _ (out ++ [Some line]) F) as Fd. rewrite D in Fd. apply Forall_app in Fd. destruct Fd as [_ Fd].
  pose proof (ps_step env o h st now c1 g w (ch_station c) j I So R B Dd) as I'. unfold ws. rewrite D, ps_writes_app.
  destruct (ps_tracks env _ _ Fd I') as [T En].
  destruct (type0_cases env o st g' _ j Dd) as [(Ht & Hv & Hn & D0)|(Nt & _)].
  2: { rewrite (decoded_absent env o st g' _ j "partial_ps" Ee So B Dd eq_refl (no_partial_ps o st g' Nt)) in J. discriminate. }
  assert (En0 : s_encoding (st_ps (had st g')) = EncBasic) by (rewrite had_ps, I, set_all_encoding; reflexivity).
  destruct (decodeType0_ps env o (had st g') g' _ (header_absent env o st g' "ps" B eq_refl) (had_ok _ _ So)) as ([s1 j1] & D1 & P1 & _).
  rewrite D0 in D1. injection D1 as <- <-. cbn [fst] in P1.
  destruct (decodeType0_partial env o (had st g') g' _ (header_absent env o st g' "partial_ps" B eq_refl) (had_ok _ _ So) En0) as ([s2 j2] & D2 & J2).
  rewrite D0 in D2. injection D2 as <- <-. cbn [snd] in J2. rewrite <- P1 in J2. rewrite J2 in J.
  destruct (g_has g' BLOCK3 && g_has g' BLOCK4); cbn [andb] in J; [|discriminate]. destruct (s_isComplete (st_ps (ch_station c))) eqn:Cp; [discriminate|].
  destruct (o_show_partial o); [|discriminate]. cbn [negb andb] in J.
  destruct (basic_shown (env_ucs2 env) 8 _ _ T En) as (l & k & G & Nc & Es). rewrite Es in J. injection J as <-. destruct (Nc Cp) as [N1 N2].
  exists l, k. split; [destruct G as [G|G]; [left; exact G|right; apply gapless_earlier; exact G]|]. repeat (split; [assumption|]). reflexivity.
Qed.

(* ---- the beginning of a text ---- *)
Lemma run_so_far : forall u n s l, sized n s -> s_encoding s <> EncUCS2 -> Forall (fun b => b < 256) l -> l <> [] -> N.of_nat (length l) < n -> ~ In end_of_text l ->
  let s' := set_all u s (place 0 l) in
  s_isComplete s' = false /\ exists k, N.of_nat (length l + k) <= n /\ s_getData s' = map visible l ++ repeat 32 k.
Proof.
  intros u n s l T E F Ne L Nt s'. destruct (set_run u n l s T E ltac:(lia) F Ne) as (Q & P & D). fold s' in Q, P, D.
  pose proof (set_all_sized u n _ _ T (place_byte _ 0 F)) as T'. fold s' in T'. destruct T' as [Tl Tb].
  pose proof (term_le (s_data s')) as Te.
  assert (Lt : N.of_nat (length l) <= find_terminator (s_data s')).
  { rewrite <- (firstn_skipn (length l) (s_data s')), D. clear - Nt. generalize (skipn (length l) (s_data s')). intros rest. induction l as [|b l IH]; [cbn [length]; lia|]. cbn [app find_terminator length].
    destruct (N.eqb_spec b kStringTerminator) as [->|_]; [exfalso; apply Nt; left; reflexivity|]. specialize (IH (fun X => Nt (or_intror X))). cbv zeta in IH. lia. }
  assert (Ex : N.of_nat (length l) < s_getExpectedLength s' /\ s_getExpectedLength s' <= n) by (unfold s_getExpectedLength; lia). destruct Ex as [E1 E2].
  split; [unfold s_isComplete, s_getReceivedLength; rewrite Q; apply N.leb_gt; exact E1|].
  exists (N.to_nat (s_getExpectedLength s') - length l)%nat. split; [lia|].
  unfold s_getData. rewrite Q, getData_blank, N.sub_0_r, Nnat.Nat2N.id, D; [reflexivity|lia|lia].
Qed.

(* The characters of a name received so far *)
Lemma ps_so_far : forall env o w0 gs0 gs1 now g c out p earlier segs l,
  host_ok env -> host_text env -> o_output_type o = OutJSON -> o_show_partial o = true ->
  let gs := gs1 ++ [(now, g, 0)] in
  Forall received_group (gs0 ++ gs) -> p <> 0 -> three p (pis gs0) -> Forall (stays p) gs ->
  Forall (fun x => ps_segment (snd (fst x), snd x) <> [] -> carried_pi x = Some p) gs ->
  ps_segment (g, 0) <> [] ->
  flat_map ps_segment (groups_of gs) = earlier ++ segs ->
  flat_map (fun s => let '(n, a, b) := s in [(2 * n, a); (2 * n + 1, b)]) segs = place 0 l ->
  l <> [] -> (length l < 8)%nat -> ~ In end_of_text l ->
  run_groups env o (Channel_new o w0) (gs0 ++ gs) = Ok (c, out) ->
  exists out' line k, out = out' ++ [Some line] /\ (length l + k <= 8)%nat /\ says line ["partial_ps"] (VStr (rds_text l ++ repeat 32 k)).
Proof.
  intros env o w0 gs0 gs1 now g c out p earlier segs name H HT OJ SP gs F Np T3 S P Pl Sg Wsg Ne Ll Nt E.
  destruct (host_env env H) as [Ee _]. pose proof (host_text_txt env HT) as Et.
  apply Forall_app in F. destruct F as [F0 F].
  rewrite run_groups_app in E. destruct (run_groups env o (Channel_new o w0) gs0) as [[c0 out0]| |] eqn:E0; cbn [bind] in E; try discriminate.
  destruct (run_groups env o c0 gs) as [[c2 out2]| |] eqn:E1; cbn [bind] in E; try discriminate. injection E as <- <-.
  pose proof (three_locked _ _ _ _ _ _ _ OJ E0 Np T3) as L.
  destruct (station_history (ps_inv env) env o H OJ (ps_new env) (ps_new_pi env) (ps_had env) (fun h st now c g w st' j => ps_step env o h st now c g w st' j) gs0 w0 c0 out0 F0 E0)
    as (old & h0 & D0 & I0).
  assert (Fh0 : Forall (fun x => received_group (0%Z, fst x, snd x)) h0).
  { pose proof (decoded_received gs0 out0 F0) as X. rewrite D0 in X. apply Forall_app in X. apply X. }
  pose proof (run_fine env o gs0 _ _ _ H Et (created_fine o _ (or_introl (ex_intro _ w0 eq_refl))) F0 E0) as Fc0.
  destruct (run_snoc _ _ _ _ _ _ _ _ _ E1) as (c1 & out1 & line & Ea & Eb & ->).
  pose proof S as S'. apply Forall_app in S'. destruct S' as [S1 S2]. inversion S2 as [|? ? Sg0 _]; subst.
  pose proof F as F'. apply Forall_app in F'. destruct F' as [F1 F2]. inversion F2 as [|? ? R _]; subst.
  destruct (steady_history (ps_inv env) env o p H OJ (ps_had env) (fun h st now c g w st' j => ps_step env o h st now c g w st' j) gs1 h0 c0 c1 out1 (proj1 Fc0) L I0 F1 S1 Ea)
    as (L1 & Hc1 & I1).
  destruct (steady_history (ps_inv env) env o p H OJ (ps_had env) (fun h st now c g w st' j => ps_step env o h st now c g w st' j) gs h0 c0 c2 _ (proj1 Fc0) L I0 F S E1)
    as (L2 & Hc2 & I2).
  pose proof P as P'. apply Forall_app in P'. destruct P' as [P1 P2]. inversion P2 as [|? ? Pg _]; subst. cbn [fst snd] in Pg. specialize (Pg Pl).
  destruct (locked_printed _ _ _ _ _ _ _ _ _ H OJ Hc1 (proj1 R) L1 Pg Eb) as (l & ->).
  pose proof (all_decoded _ ps_segment env o p H OJ gs c0 c2 _ (proj1 Fc0) L F S P E1) as Sd. change (map grp gs) with (groups_of gs) in Sd. rewrite Sg in Sd.
  assert (W : ps_writes (h0 ++ decoded_in gs (out1 ++ [Some l])) = ps_writes (h0 ++ []) ++ flat_map (fun s => let '(n, a, b) := s in [(2 * n, a); (2 * n + 1, b)]) earlier ++ place 0 name).
  { rewrite !ps_writes_app. rewrite app_nil_r. f_equal. unfold ps_writes. rewrite Sd, flat_map_app, Wsg. reflexivity. }
  assert (Fd : Forall (fun x => received_group (0%Z, fst x, snd x)) (h0 ++ decoded_in gs (out1 ++ [Some l])))
    by (apply Forall_app; split; [exact Fh0|apply decoded_received; exact F]).
  pose proof (ps_writes_ok _ Fd) as Wok. rewrite W in Wok. rewrite app_assoc in W, Wok.
  set (W0 := ps_writes (h0 ++ []) ++ flat_map (fun s => let '(n, a, b) := s in [(2 * n, a); (2 * n + 1, b)]) earlier) in *.
  apply Forall_app in Wok. destruct Wok as [W0ok Wn].
  unfold ps_inv in I2. rewrite W, set_all_app in I2.
  assert (Fn : Forall (fun b => b < 256) name).
  { clear - Wn. revert Wn. generalize 0. induction name as [|b l IH]; intros i W; [constructor|]. cbn [place] in W. inversion W; subst. constructor; [tauto|]. eapply IH; eassumption. }
  destruct (run_so_far (env_ucs2 env) 8 (set_all (env_ucs2 env) (RDSString_new 8) W0) name
    (tracks_sized 8 _ _ (set_all_tracks (env_ucs2 env) 8 W0 (RDSString_new 8) [] (new_tracks 8) W0ok)) ltac:(rewrite set_all_encoding; discriminate) Fn Ne ltac:(lia) Nt) as [Cp (k & Lk & Dk)].
  exists (out0 ++ out1), l, k. split; [rewrite app_assoc; reflexivity|]. split; [lia|].
  assert (Str : s_str (env_ucs2 env) (st_ps (ch_station c2)) = Some (rds_text name ++ repeat 32 k)).
  { rewrite I2. unfold s_str. rewrite !set_all_encoding. cbn [s_encoding RDSString_new]. rewrite Dk, flat_map_app, blanks_text, (visible_text _ Fn). reflexivity. }
  rewrite <- I2 in Cp. clear Dk.
  (* the line *)
  pose proof (run_fine env o gs1 _ _ _ H Et Fc0 F1 Ea) as Fc1.
  set (g' := prepared o now c1 g 0).
  assert (Cr : carries 0 g 0 = true) by (unfold ps_segment in Pl; destruct (carries 0 g 0); [reflexivity|congruence]).
  rewrite (carries_prepared 0 o now c1 g 0) in Cr. fold g' in Cr.
  apply andb_prop in Cr. destruct Cr as [Cr H4]. apply andb_prop in Cr. destruct Cr as [Cr H3]. apply andb_prop in Cr. destruct Cr as [Cr Hv]. apply andb_prop in Cr. destruct Cr as [Ht Hn].
  apply negb_true_iff in Hv. apply N.eqb_eq in Hn.
  destruct (process_shows env o now c1 g 0 c2 l H Et OJ Fc1 (proj1 R) Eb (or_introl (type0_raw _ _ Hn))) as (j & Dd & Lj). fold g' in Dd.
  pose proof (prepared_bler o now c1 g 0 Hc1 (proj1 R)) as [_ B]. fold g' in B.
  assert (Tn : tuned c1 g' = ch_station c1) by (apply (locked_tuned p c1 o now g 0 L1 (or_intror Pg))). rewrite Tn in Dd.
  assert (So : st_ok (ch_station c1)) by apply Hc1.
  assert (En1 : s_encoding (st_ps (had (ch_station c1) g')) = EncBasic) by (rewrite had_ps, I1, set_all_encoding; reflexivity).
  destruct (type0_cases env o _ g' _ j Dd) as [(_ & _ & _ & D1)|([X|[X|X]] & _)]; [|congruence|congruence|contradiction].
  destruct (decodeType0_ps env o (had (ch_station c1) g') g' _ (header_absent env o (ch_station c1) g' "ps" B eq_refl) (had_ok _ _ So)) as ([s1 j1] & D2 & P3 & _).
  rewrite D1 in D2. injection D2 as <- <-. cbn [fst] in P3.
  destruct (decodeType0_partial env o (had (ch_station c1) g') g' _ (header_absent env o (ch_station c1) g' "partial_ps" B eq_refl) (had_ok _ _ So) En1) as ([s2 j2] & D2 & J2).
  rewrite D1 in D2. injection D2 as <- <-. cbn [snd] in J2. rewrite <- P3, Cp, H3, H4, SP, Str in J2. cbn [negb andb option_map] in J2.
  unfold says. rewrite Lj, J2. reflexivity.
Qed.

(* ---- RadioText ---- *)
Definition ab_text (b : bool) : json := JS (if b then "B" else "A").
Lemma decodeType2_ab : forall env o st g j, conf (String.eqb "rt_ab") absent j -> s_encoding (text_of st) = EncBasic ->
  g_has g BLOCK3 && g_has g BLOCK4 = true ->
  good (fun sj => jget ["rt_ab"] (snd sj) = if o_show_partial o then Some (ab_text (p_flag (part_of g))) else None) (decodeType2 env o st g j).
Proof.
  intros env o st g j C En H34. destruct (decodeType2_shape env o st g En H34) as (rt & R1 & R2 & R3 & Sh). rewrite Sh.
  assert (W : Schema.writes (String.eqb "rt_ab") ["partial_radiotext"; "radiotext"; "debug"]) by (repeat constructor).
  set (v := if o_show_partial o then Some (ab_text (p_flag (part_of g))) else None).
  apply (good_bind _ _ (fun j => exists R, conf (String.eqb "rt_ab") R j /\ R "rt_ab" = v)).
  { unfold v. destruct (o_show_partial o).
    - assert (C0 : conf (fun _ => false) absent j) by (eapply conf_weaken; [exact C|discriminate]).
      destruct (jset_any _ _ ["rt_ab"] (ab_text (p_flag (part_of g))) j C0 eq_refl ltac:(discriminate) eq_refl) as (j1 & E1 & C1).
      unfold ab_text in E1 at 1. rewrite E1. apply good_ok. eexists. split; [exact (conf_now _ _ _ _ C1)|].
      destruct C as (m & -> & _). rewrite jset_top in E1. injection E1 as <-. cbn [jget]. rewrite find_put. reflexivity.
    - apply good_ok. exists absent. split; [exact C|reflexivity]. }
  clear j C Sh. intros j (Rr & C & Ev). unfold rt_fin.
  assert (X : forall j', conf (String.eqb "rt_ab") Rr j' -> jget ["rt_ab"] j' = v).
  { intros j' C'. rewrite (conf_get _ _ _ "rt_ab" C' eq_refl). exact Ev. }
  destruct (s_isComplete _); [|destruct (rt_cand _ _ && _)]; [| |destruct (o_show_partial o)].
  - jstep. apply good_ok. cbn [snd]. apply X. assumption.
  - jstep. apply good_ok. cbn [snd]. apply X. assumption.
  - destruct (s_str _ _) as [t|].
    + destruct (rtrim t); [apply good_ok; apply X; assumption|]. jstep. apply good_ok. apply X. assumption.
    + jstep. apply good_ok. apply X. assumption.
  - apply good_ok. apply X. assumption.
Qed.
Lemma decodeType2_shows : forall env o st g j, conf (String.eqb "partial_radiotext") absent j -> s_encoding (text_of st) = EncBasic ->
  g_has g BLOCK3 && g_has g BLOCK4 = true -> o_show_partial o = true ->
  let s' := rt_put (env_ucs2 env) (text_of st) (ab_of st) (part_of g) in
  s_isComplete s' = false -> p_pos (part_of g) <> 0 ->
  let t := flat_map getRDSCharString (s_getData s') in rtrim t <> [] ->
  good (fun sj => jget ["partial_radiotext"] (snd sj) = Some (JStr t)) (decodeType2 env o st g j).
Proof.
  intros env o st g j C En H34 SP s' Cp Np t Nt. destruct (decodeType2_shape env o st g En H34) as (rt & R1 & R2 & R3 & Sh). rewrite Sh, SP. fold s' in R1.
  assert (W : Schema.writes (String.eqb "partial_radiotext") ["rt_ab"; "radiotext"; "debug"]) by (repeat constructor).
  apply (good_bind _ _ (conf (String.eqb "partial_radiotext") absent)); [assign|].
  clear j C Sh. intros j C. unfold rt_fin. rewrite R1, Cp, SP.
  replace (rt_cand (text_of st) (part_of g)) with false by (unfold rt_cand; apply N.eqb_neq in Np; rewrite Np; reflexivity). cbn [andb].
  assert (En' : s_encoding s' = EncBasic) by (unfold s', rt_put; rewrite set_all_encoding; destruct (Bool.eqb _ _); exact En).
  unfold s_str. rewrite En'. fold t. destruct (rtrim t) eqn:Er; [congruence|].
  destruct C as (m & -> & _). rewrite jset_top. cbn [bind]. apply good_ok. cbn [snd jget]. rewrite find_put. reflexivity.
Qed.

Lemma rt_flag : forall env o w0 gs now g w c out line q, host_ok env -> host_text env -> o_output_type o = OutJSON -> o_show_partial o = true ->
  Forall received_group (gs ++ [(now, g, w)]) -> run_groups env o (Channel_new o w0) (gs ++ [(now, g, w)]) = Ok (c, out ++ [Some line]) ->
  rt_segment (g, w) = [q] -> says line ["rt_ab"] (VStr (bs (if p_flag q then "B" else "A"))).
Proof.
  intros env o w0 gs now g w c out line q H HT OJ SP F E Sg. destruct (host_env env H) as [Ee _]. pose proof (host_text_txt env HT) as Et.
  apply Forall_app in F. destruct F as [F1 F2]. inversion F2 as [|? ? R _]; subst.
  destruct (run_snoc _ _ _ _ _ _ _ _ _ E) as (c1 & out1 & l1 & E1 & E2 & Eo). apply app_inj_tail in Eo. destruct Eo as [<- <-].
  destruct (station_history any_rt env o H OJ (fun w => any_new (Station_new w) eq_refl eq_refl) (fun w p => any_new (Station_new_pi w p) eq_refl eq_refl) any_had (fun h st now c g w st' j => any_step env o h st now c g w st' j) gs w0 c1 out F1 E1)
    as (old & h & D & (_ & En & _)).
  pose proof (run_fine env o gs _ _ _ H Et (created_fine o _ (or_introl (ex_intro _ w0 eq_refl))) F1 E1) as Fc. pose proof (proj1 Fc) as Hc.
  set (g' := prepared o now c1 g w).
  assert (En' : s_encoding (text_of (tuned c1 g')) = EncBasic) by (destruct (tuned_cases c1 g') as [->|(p & ->)]; [exact En|reflexivity]).
  pose proof (part_prepared o now c1 g w R) as Sp. cbv zeta in Sp. fold g' in Sp. rewrite Sp in Sg.
  destruct (g_has_type g' && negb (Version_eqb (gt_version (g_type g')) VC) && (gt_number (g_type g') =? 2) && (g_has g' BLOCK3 && g_has g' BLOCK4)) eqn:Cr; [|discriminate Sg].
  assert (q = part_of g') as -> by congruence. clear Sg Sp.
  apply andb_prop in Cr. destruct Cr as [Cr H34]. apply andb_prop in Cr. destruct Cr as [Cr Hn]. apply andb_prop in Cr. destruct Cr as [Ht Hv]. apply negb_true_iff in Hv. apply N.eqb_eq in Hn.
  destruct (ShowP.process_shows env o now c1 g w c line H Et OJ Fc (proj1 R) E2 (or_introl (type2_raw _ _ Hn))) as (j & Dd & Lj). fold g' in Dd.
  pose proof (prepared_bler o now c1 g w Hc (proj1 R)) as [_ B]. fold g' in B.
  destruct (type2_cases env o _ g' _ j Dd) as [(_ & _ & _ & D1)|([X|[X|X]] & _)]; [|congruence|congruence|contradiction].
  assert (Hr : text_of (had (tuned c1 g') g') = text_of (tuned c1 g')) by (unfold text_of; rewrite had_rt; reflexivity).
  destruct (decodeType2_ab env o (had (tuned c1 g') g') g' _ (header_absent env o (tuned c1 g') g' "rt_ab" B eq_refl) ltac:(rewrite Hr; exact En') H34) as ([s1 j1] & D2 & J1).
  rewrite D1 in D2. injection D2 as <- <-. cbn [snd] in J1. rewrite SP in J1. unfold says. rewrite Lj, J1. unfold ab_text. destruct (p_flag (part_of g')); reflexivity.
Qed.

Lemma rtrim_some : forall l k, (exists b, In b l /\ rds_char (visible b) <> 0x20) -> rtrim (rds_text l ++ repeat 32 k) <> [].
Proof.
  intros l k (b & I & Nb) E. rewrite rtrim_blanks in E.
  destruct (rtrim_trimmed (rds_text l)) as (n & X & _). rewrite E in X. cbn [app] in X.
  apply in_split in I. destruct I as (l1 & l2 & ->). unfold rds_text, utf8_text in X. rewrite map_app, flat_map_app in X. cbn [map flat_map] in X.
  assert (Y : Forall (fun x => x = 32) (utf8_encode (rds_char (visible b)))).
  { assert (Z : Forall (fun x => x = 32) (repeat 32 n)) by (apply Forall_forall; intros x Hx; apply repeat_spec in Hx; exact Hx). rewrite <- X in Z.
    apply Forall_app in Z. destruct Z as [_ Z]. apply Forall_app in Z. apply Z. }
  revert Y. generalize (rds_char (visible b)) Nb. clear. intros c Nc Y. unfold utf8_encode in Y.
  destruct (N.ltb_spec c 0x80); [inversion Y; subst; congruence|]. destruct (c <? 0x800); [|destruct (c <? 0x10000)]; apply Forall_inv in Y; cbv beta in Y; lia.
Qed.

Lemma rt_so_far : forall env o w0 gs0 gs1 now g c out p f v l,
  host_ok env -> host_text env -> o_output_type o = OutJSON -> o_show_partial o = true ->
  let gs := gs1 ++ [(now, g, 0)] in
  Forall received_group (gs0 ++ gs) -> p <> 0 -> three p (pis gs0) -> Forall (stays p) gs ->
  Forall (fun x => rt_segment (snd (fst x), snd x) <> [] -> carried_pi x = Some p) gs ->
  (exists q, rt_segment (g, 0) = [q] /\ p_pos q <> 0) ->
  uniform f v (flat_map rt_segment (groups_of gs)) -> part_writes (flat_map rt_segment (groups_of gs)) = place 0 l ->
  no_plus (groups_of (gs0 ++ gs)) (groups_of gs) ->
  N.of_nat (length l) < rt_size v -> ~ In end_of_text l -> (exists b, In b l /\ rds_char (visible b) <> 0x20) ->
  run_groups env o (Channel_new o w0) (gs0 ++ gs) = Ok (c, out) ->
  exists out' line k, out = out' ++ [Some line] /\ N.of_nat (length l + k) <= rt_size v /\
    says line ["partial_radiotext"] (VStr (rds_text l ++ repeat 32 k)).
Proof.
  intros env o w0 gs0 gs1 now g c out p f v l H HT OJ SP gs F Np T3 S P Pl0 Un Wr Pf Hl Nt Nb E.
  destruct Pl0 as (q & Sq & Pq). assert (Pl : rt_segment (g, 0) <> []) by (rewrite Sq; discriminate).
  destruct (host_env env H) as [Ee _]. pose proof (host_text_txt env HT) as Et.
  apply Forall_app in F. destruct F as [F0 F].
  rewrite run_groups_app in E. destruct (run_groups env o (Channel_new o w0) gs0) as [[c0 out0]| |] eqn:E0; cbn [bind] in E; try discriminate.
  destruct (run_groups env o c0 gs) as [[c2 out2]| |] eqn:E1; cbn [bind] in E; try discriminate. injection E as <- <-.
  pose proof (three_locked _ _ _ _ _ _ _ OJ E0 Np T3) as L.
  destruct (station_history any_rt env o H OJ (fun w => any_new (Station_new w) eq_refl eq_refl) (fun w p => any_new (Station_new_pi w p) eq_refl eq_refl) any_had (fun h st now c g w st' j => any_step env o h st now c g w st' j) gs0 w0 c0 out0 F0 E0)
    as (old & h0 & D0 & I0).
  assert (W0 : win (env_ucs2 env) h0 f v [] (ch_station c0)).
  { split; [constructor|]. split; [rewrite app_nil_r; exact I0|]. intros _ _ X. exfalso. apply X. reflexivity. }
  pose proof (run_fine env o gs0 _ _ _ H Et (created_fine o _ (or_introl (ex_intro _ w0 eq_refl))) F0 E0) as Fc0.
  destruct (run_snoc _ _ _ _ _ _ _ _ _ E1) as (c1 & out1 & line & Ea & Eb & ->).
  pose proof S as S'. apply Forall_app in S'. destruct S' as [S1 S2]. inversion S2 as [|? ? Sg0 _]; subst.
  pose proof F as F'. apply Forall_app in F'. destruct F' as [F1 F2]. inversion F2 as [|? ? R _]; subst.
  destruct (steady_history (win (env_ucs2 env) h0 f v) env o p H OJ (win_had (env_ucs2 env) h0 f v) (fun h st now c g w st' j => win_step env o h0 f v h st now c g w st' j) gs1 [] c0 c1 out1 (proj1 Fc0) L W0 F1 S1 Ea)
    as (L1 & Hc1 & I1).
  destruct (steady_history (win (env_ucs2 env) h0 f v) env o p H OJ (win_had (env_ucs2 env) h0 f v) (fun h st now c g w st' j => win_step env o h0 f v h st now c g w st' j) gs [] c0 c2 _ (proj1 Fc0) L W0 F S E1)
    as (L2 & Hc2 & I2).
  pose proof P as P'. apply Forall_app in P'. destruct P' as [P1 P2]. inversion P2 as [|? ? Pg _]; subst. cbn [fst snd] in Pg. specialize (Pg Pl).
  destruct (locked_printed _ _ _ _ _ _ _ _ _ H OJ Hc1 (proj1 R) L1 Pg Eb) as (ln & ->).
  pose proof (all_decoded _ rt_segment env o p H OJ gs c0 c2 _ (proj1 Fc0) L F S P E1) as Sd. change (map grp gs) with (groups_of gs) in Sd.
  cbn [app] in I1, I2. destruct I2 as (Fk & A2 & W2). unfold parts in W2. rewrite Sd in W2.
  destruct W2 as (s0 & Z0 & En0 & T0 & A0).
  { exact Un. }
  { intros x X Ht An. apply (Pf x); [apply (decoded_sub _ _ _ X)|exact Ht|]. apply in_flat_map in An. destruct An as (y & Y1 & Y2). apply in_flat_map. exists y. split; [|exact Y2].
    unfold groups_of. rewrite map_app. apply in_or_app. apply in_app_or in Y1. destruct Y1 as [Y1|Y1]; [left|right; exact (decoded_sub _ _ _ Y1)].
    apply (decoded_sub gs0 out0). rewrite D0. apply in_or_app. right. exact Y1. }
  { unfold gs, groups_of. rewrite map_app, flat_map_app. cbn [map fst snd flat_map]. rewrite app_nil_r. destruct (rt_segment (g, 0)); [congruence|]. intros X. apply app_eq_nil in X. destruct X as [_ X]. discriminate X. }
  rewrite Wr in T0.
  assert (Pok : Forall part_ok (flat_map rt_segment (groups_of gs))).
  { rewrite <- Sd. apply (parts_ok _ Fk). }
  assert (Wok : Forall (fun pb => fst pb < rt_size v /\ snd pb < 256) (place 0 l)).
  { rewrite <- Wr. unfold part_writes. apply Forall_flat_map. pose proof (both _ _ _ _ Pok Un) as X. eapply Forall_impl; [|exact X]. intros q1 (Pk & _ & <-). exact (part_place q1 Pk). }
  assert (Fl : Forall (fun b => b < 256) l).
  { clear - Wok. revert Wok. generalize 0. induction l as [|b l IH]; intros i W; [constructor|]. cbn [place] in W. inversion W; subst. constructor; [tauto|]. eapply IH; eassumption. }
  assert (Ne : l <> []) by (intros ->; destruct Nb as (b & [] & _)).
  destruct (run_so_far (env_ucs2 env) (rt_size v) s0 l Z0 ltac:(congruence) Fl Ne Hl Nt) as [Cp (k & Lk & Dk)]. rewrite <- T0 in Cp, Dk.
  exists (out0 ++ out1), ln, k. split; [rewrite app_assoc; reflexivity|]. split; [exact Lk|].
  assert (Str : flat_map getRDSCharString (s_getData (text_of (ch_station c2))) = rds_text l ++ repeat 32 k).
  { rewrite Dk, flat_map_app, blanks_text, (visible_text _ Fl). reflexivity. }
  (* the line *)
  pose proof (run_fine env o gs1 _ _ _ H Et Fc0 F1 Ea) as Fc1. destruct I1 as (_ & (_ & En1 & _) & _).
  set (g' := prepared o now c1 g 0).
  assert (Tn : tuned c1 g' = ch_station c1) by (apply (locked_tuned p c1 o now g 0 L1 (or_intror Pg))).
  pose proof (part_prepared o now c1 g 0 R) as Sg. cbv zeta in Sg. fold g' in Sg.
  destruct (g_has_type g' && negb (Version_eqb (gt_version (g_type g')) VC) && (gt_number (g_type g') =? 2) && (g_has g' BLOCK3 && g_has g' BLOCK4)) eqn:Cr; [|congruence].
  assert (q = part_of g') as -> by congruence.
  apply andb_prop in Cr. destruct Cr as [Cr H34]. apply andb_prop in Cr. destruct Cr as [Cr Hn]. apply andb_prop in Cr. destruct Cr as [Ht Hv]. apply negb_true_iff in Hv. apply N.eqb_eq in Hn.
  destruct (ShowP.process_shows env o now c1 g 0 c2 ln H Et OJ Fc1 (proj1 R) Eb (or_introl (type2_raw _ _ Hn))) as (j & Dd & Lj). fold g' in Dd.
  pose proof (prepared_bler o now c1 g 0 Hc1 (proj1 R)) as [_ B]. fold g' in B. rewrite Tn in Dd.
  destruct (type2_cases env o _ g' _ j Dd) as [(_ & _ & _ & D1)|([X|[X|X]] & _)]; [|congruence|congruence|contradiction].
  assert (Hr : text_of (had (ch_station c1) g') = text_of (ch_station c1)) by (unfold text_of; rewrite had_rt; reflexivity).
  destruct (decodeType2_rt env o (had (ch_station c1) g') g' _ (header_rt env o (ch_station c1) g' B) ltac:(rewrite Hr; exact En1) H34) as ([s1 j1] & D2 & T1 & _).
  rewrite D1 in D2. injection D2 as <- <-. cbn [fst snd] in T1. rewrite T1 in Cp, Str.
  destruct (decodeType2_shows env o (had (ch_station c1) g') g' _ (header_absent env o (ch_station c1) g' "partial_radiotext" B eq_refl) ltac:(rewrite Hr; exact En1) H34 SP Cp Pq
    ltac:(rewrite Str; apply rtrim_some; exact Nb)) as ([s2 j2] & D2 & J2).
  rewrite D1 in D2. injection D2 as <- <-. cbn [snd] in J2. rewrite Str in J2. unfold says. rewrite Lj, J2. reflexivity.
Qed.

(* ---- long programme service name ---- *)
Lemma decodeType15A_partial : forall env o st g j, conf (String.eqb "partial_long_ps") absent j -> s_encoding (st_long_ps st) = EncUTF8 ->
  good (fun sj => let t := set_all (env_ucs2 env) (st_long_ps st) (lps_seg g) in
    jget ["partial_long_ps"] (snd sj) = if negb ((g_has g BLOCK3 || g_has g BLOCK4) && s_isComplete t) && o_show_partial o then Some (JStr (s_getData t)) else None)
  (decodeType15A env o st g j).
Proof.
  intros env o st g j C En. rewrite decodeType15A_eq. cbv zeta.
  assert (W : writes (String.eqb "partial_long_ps") ["long_ps"; "debug"]) by (repeat constructor).
  assert (En' : s_encoding (set_all (env_ucs2 env) (st_long_ps st) (lps_seg g)) = EncUTF8) by (rewrite set_all_encoding; exact En).
  remember (set_all (env_ucs2 env) (st_long_ps st) (lps_seg g)) as t eqn:Et. clear Et.
  destruct ((g_has g BLOCK3 || g_has g BLOCK4) && s_isComplete t); cbn [negb andb].
  - jstep. apply good_ok. apply (conf_get _ _ _ "partial_long_ps" C). reflexivity.
  - destruct (o_show_partial o); [|apply good_ok; apply (conf_get _ _ _ "partial_long_ps" C); reflexivity].
    unfold s_str. rewrite En'. destruct C as (m & -> & _). cbn [bind jset jupd]. eexists. split; [reflexivity|]. cbn [snd jget]. rewrite find_put. reflexivity.
Qed.
Lemma no_partial_lps : forall o st g, lps_is g = false \/ find_type t15A (st_oda_app_for_group st) <> None ->
  g_has_type g = true -> existsb (String.eqb "partial_long_ps") (type_keys o st g) = false.
Proof.
  intros o st g No Ht.
  assert (No' : (gt_number (g_type g) =? 15) && Version_eqb (gt_version (g_type g)) VA = false \/ g_type g = t15A /\ find_type t15A (st_oda_app_for_group st) <> None).
  { destruct No as [No|No]; [left; unfold lps_is in No; rewrite Ht in No; exact No|]. destruct (_ && _) eqn:Is; [|left; reflexivity]. right. split; [|exact No]. apply lps_type. unfold lps_is. rewrite Ht. exact Is. }
  unfold type_keys, app_keys. cbv zeta. destruct No' as [No'|[Ty Nf]].
  - rewrite No'. by_cases.
  - rewrite Ty. destruct (find_type t15A _) as [a|]; [|congruence]. change (gt_number t15A) with 15. change (gt_version t15A) with VA. cbn [Version_eqb N.eqb Pos.eqb andb]. by_cases.
Qed.

Lemma lps_partial : forall env o w0 gs now g w c out line v, host_ok env -> o_output_type o = OutJSON -> Forall received_group (gs ++ [(now, g, w)]) ->
  run_groups env o (Channel_new o w0) (gs ++ [(now, g, w)]) = Ok (c, out ++ [Some line]) -> says line ["partial_long_ps"] v ->
  exists l k, (l = [] \/ gapless (flat_map long_segment (decoded_in (gs ++ [(now, g, w)]) (out ++ [Some line]))) l) /\ v = VStr (map visible l ++ repeat 32 k).
Proof.
  intros env o w0 gs now g w c out line v H OJ F E S. destruct (host_env env H) as [Ee _].
  destruct (last_group (lps_inv (env_ucs2 env)) env o H OJ (lps_new _) (lps_new_pi _) (lps_had _) (fun h st now c g w st' j => lps_step env o h st now c g w st' j) gs now g w w0 c out line F E)
    as (old & h & st & c1 & j & D & I & So & Dd & Pj & B & Hc & _).
  set (g' := prepared o now c1 g w) in *. pose proof (says_decoded env j line "partial_long_ps" [] v H Pj ltac:(discriminate) S) as J.
  assert (R : received_group (now, g, w)) by (apply Forall_app in F; destruct F as [_ F2]; inversion F2; assumption).
  destruct (type15_cases env o st g' _ j Dd) as [(Is & Fi & D0)|(No & _)].
  2: { rewrite (decoded_absent env o st g' _ j "partial_long_ps" Ee So B Dd eq_refl (no_partial_lps o st g' No)) in J. discriminate. }
  destruct I as (Fh & Io & I). specialize (I (proj2 (not_announced_none t15A h st Io) Fi)).
  pose proof (had_lps st g') as Hp.
  destruct (decodeType15A_partial env o (had st g') g' _ (header_absent env o st g' "partial_long_ps" B eq_refl) ltac:(rewrite Hp, I, set_all_encoding; reflexivity)) as ([s1 j1] & D1 & J1).
  rewrite D0 in D1. injection D1 as <- <-. cbn [snd] in J1. cbv zeta in J1. rewrite Hp, I in J1.
  pose proof (lps_prepared o now c1 g w R) as Sg. cbv zeta in Sg. fold g' in Sg. rewrite Is in Sg. rewrite <- Sg in J1.
  assert (Fd : Forall (fun x => received_group (0%Z, fst x, snd x)) (h ++ [(g, w)])) by (apply Forall_app; split; [exact Fh|constructor; [exact R|constructor]]).
  pose proof (lps_ok _ Fd) as Wok. unfold lps_writes in Wok. rewrite flat_map_app in Wok. cbn [flat_map] in Wok. rewrite app_nil_r in Wok. fold (lps_writes h) in Wok.
  pose proof (set_all_tracks (env_ucs2 env) 32 _ LongPS_default [] long_tracks Wok) as T. cbn [app] in T. rewrite set_all_app in T.
  remember (set_all (env_ucs2 env) (set_all (env_ucs2 env) LongPS_default (lps_writes h)) (long_segment (g, w))) as s' eqn:Es'. rewrite J1 in J.
  destruct (negb _ && o_show_partial o); [|discriminate J]. injection J as <-. destruct (data_shown 32 s' _ T) as (l & k & G & _ & _ & Ed).
  exists l, k. split; [|cbn [value_of]; rewrite Ed; reflexivity]. destruct G as [G|G]; [left; exact G|right].
  rewrite D, flat_map_app. apply gapless_earlier. rewrite flat_map_app. cbn [flat_map]. rewrite app_nil_r. exact G.
Qed.

Lemma lps_so_far : forall env o w0 gs0 gs1 now g w c out p cs l earlier,
  host_ok env -> host_text env -> o_output_type o = OutJSON -> o_show_partial o = true ->
  let gs := gs1 ++ [(now, g, w)] in
  Forall received_group (gs0 ++ gs) -> p <> 0 -> three p (pis gs0) -> Forall (stays p) gs ->
  Forall (fun x => long_segment (snd (fst x), snd x) <> [] -> carried_pi x = Some p) gs ->
  long_segment (g, w) <> [] -> not_announced t15A (groups_of (gs0 ++ gs)) ->
  flat_map long_segment (groups_of gs) = earlier ++ place 0 l ->
  Forall scalar cs -> ~ In 0 cs -> ~ In end_of_text cs -> l = utf8_text cs -> l <> [] -> (length l < 32)%nat ->
  run_groups env o (Channel_new o w0) (gs0 ++ gs) = Ok (c, out) ->
  exists out' line k, out = out' ++ [Some line] /\ (length l + k <= 32)%nat /\ says line ["partial_long_ps"] (VStr (utf8_text cs ++ repeat 32 k)).
Proof.
  intros env o w0 gs0 gs1 now g w c out p cs l earlier H HT OJ SP gs F Np T3 S P Pl Na Sg Fc N0 N1 Hl Ne Ll E.
  pose proof P as P'. apply Forall_app in P'. destruct P' as [_ P2]. inversion P2 as [|? ? Pg _]; subst. cbn [fst snd] in Pg. specialize (Pg Pl).
  destruct (last_shown (lps_inv (env_ucs2 env)) env o H HT OJ (lps_new _) (lps_new_pi _) (lps_had _) (fun h st now c g w st' j => lps_step env o h st now c g w st' j) w0 gs0 gs1 now g w c out p F Np T3 S Pg E)
    as (old & h0 & out0 & out1 & ln & c1 & st & j & D0 & -> & L0 & L1 & I & So & B & _ & Dd & _ & Pj & Ad).
  exists (out0 ++ out1), ln. set (g' := prepared o now c1 g w) in *.
  specialize (Ad _ long_segment P). fold gs in Ad. rewrite Sg in Ad. remember (utf8_text cs) as l eqn:Hl.
  assert (R : received_group (now, g, w)) by (apply Forall_app in F; destruct F as [_ F2]; apply Forall_app in F2; destruct F2 as [_ F2]; inversion F2; assumption).
  pose proof (lps_prepared o now c1 g w R) as Sp. cbv zeta in Sp. fold g' in Sp.
  destruct (lps_is g') eqn:Is; [|congruence].
  destruct I as (Fh & Io & I).
  assert (Na1 : not_announced t15A (h0 ++ decoded_in gs1 out1)).
  { intros a X. apply (Na a). apply in_flat_map in X. destruct X as (y & Y1 & Y2). apply in_flat_map. exists y. split; [|exact Y2].
    unfold groups_of. rewrite map_app. apply in_or_app. apply in_app_or in Y1. destruct Y1 as [Y1|Y1].
    - left. apply (decoded_sub gs0 out0). rewrite D0. apply in_or_app. right. exact Y1.
    - right. unfold gs. rewrite map_app. apply in_or_app. left. exact (decoded_sub _ _ _ Y1). }
  specialize (I Na1). pose proof (proj1 (not_announced_none t15A _ st Io) Na1) as Fi.
  destruct (type15_cases env o st g' _ j Dd) as [(_ & _ & D1)|([X|X] & _)]; [|congruence|contradiction].
  pose proof (had_lps st g') as Hp.
  destruct (decodeType15A_partial env o (had st g') g' _ (header_absent env o st g' "partial_long_ps" B eq_refl) ltac:(rewrite Hp, I, set_all_encoding; reflexivity)) as ([s1 j1] & D2 & J1).
  rewrite D1 in D2. injection D2 as <- <-. cbn [snd] in J1. cbv zeta in J1.
  rewrite Hp, I, <- Sp in J1.
  assert (Wr : set_all (env_ucs2 env) (set_all (env_ucs2 env) LongPS_default (lps_writes (h0 ++ decoded_in gs1 out1))) (long_segment (g, w)) =
    set_all (env_ucs2 env) (set_all (env_ucs2 env) LongPS_default (lps_writes h0 ++ earlier)) (place 0 l)).
  { rewrite <- !set_all_app. f_equal. unfold lps_writes. rewrite flat_map_app, <- !app_assoc. f_equal. rewrite <- Ad. unfold gs.
    rewrite (decoded_in_app gs1 [(now, g, w)] out1 [Some ln] L1), flat_map_app. cbn [decoded_in combine flat_map app]. rewrite app_nil_r. reflexivity. }
  rewrite Wr in J1.
  assert (Wok : Forall (fun pb => fst pb < 32 /\ snd pb < 256) ((lps_writes h0 ++ earlier) ++ place 0 l)).
  { rewrite <- app_assoc, <- Ad. unfold lps_writes. rewrite <- flat_map_app. apply lps_ok. apply Forall_app in Fh. destruct Fh as [Fh0 _]. apply Forall_app. split; [exact Fh0|].
    apply decoded_received. apply Forall_app in F. apply F. }
  apply Forall_app in Wok. destruct Wok as [W0 W1].
  pose proof (tracks_sized _ _ _ (set_all_tracks (env_ucs2 env) 32 _ LongPS_default [] long_tracks W0)) as Z0.
  assert (En0 : s_encoding (set_all (env_ucs2 env) LongPS_default (lps_writes h0 ++ earlier)) = EncUTF8) by (rewrite set_all_encoding; reflexivity).
  remember (set_all (env_ucs2 env) LongPS_default (lps_writes h0 ++ earlier)) as s0 eqn:Es0. clear Es0.
  assert (Fl : Forall (fun b => b < 256) l).
  { clear - W1. revert W1. generalize 0. induction l as [|b l IH]; intros i W; [constructor|]. cbn [place] in W. inversion W; subst. constructor; [tauto|]. eapply IH; eassumption. }
  destruct (visible_id cs Fc N0 N1) as [Vi Nt]. rewrite <- Hl in Vi, Nt.
  destruct (run_so_far (env_ucs2 env) 32 s0 l Z0 ltac:(congruence) Fl Ne ltac:(lia) Nt) as [Cp (k & Lk & Dk)]. exists k.
  split; [rewrite app_assoc; reflexivity|]. split; [lia|].
  remember (set_all (env_ucs2 env) s0 (place 0 l)) as s' eqn:Es'. rewrite Cp, andb_false_r, SP in J1. cbn [negb andb] in J1. rewrite Dk, Vi in J1.
  assert (Cj : clean j).
  { rewrite decodeType15A_eq in D1. cbv zeta in D1. rewrite Hp, I, <- Sp, Wr in D1. rewrite Cp, andb_false_r, SP in D1. unfold s_str in D1. rewrite Es', set_all_encoding, En0 in D1. rewrite <- Es' in D1. rewrite Dk, Vi in D1. cbn [bind jset jupd] in D1.
    assert (Ej : j = JObj (obj_put "partial_long_ps" (JStr (l ++ repeat 32 k)) (header env o st g'))) by congruence. rewrite Ej.
    apply put_clean; [apply header_clean; apply host_text_txt; exact HT|reflexivity|].
    unfold clean. cbn [json_utf8]. apply valid_is_utf8. exists (cs ++ repeat 32 k). split.
    - apply Forall_app. split; [exact Fc|]. apply Forall_forall. intros x Hx. apply repeat_spec in Hx. subst x. left. lia.
    - unfold utf8_text. rewrite flat_map_app. fold (utf8_text cs). rewrite <- Hl. f_equal. clear. induction k as [|k IH]; [reflexivity|]. cbn [repeat flat_map]. rewrite <- IH. reflexivity. }
  unfold says. rewrite (clean_shows env j ln H Cj Pj), J1. reflexivity.
Qed.
