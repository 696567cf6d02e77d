(* Names of which parts are lost or repeated (C109). *)
From Verif.Model Require Import Util Group Options Tables Json RdsString Tmc Station Channel.
From Verif.Spec Require Import Unicode JsonText Session Identity History Quality Texts.
From Verif.Proofs Require Import Tac Numerals JsonP Schema StationP TextP CleanP UpdateP SessionP LineP FrameP ChannelP LinesP HistoryP ShowP TraceP KeysP StringP PsP.

Local Open Scope string_scope.
Local Open Scope N_scope.

(* ---- nothing received in sequence is overlooked ---- *)
Definition notices (s : RDSString) (ws : Texts.writes) : Prop := forall k, in_sequence k ws -> k <= s_sequential_length s.

Lemma in_sequence_nil : forall k, ~ in_sequence k [].
Proof.
  intros k H. remember [] as ws eqn:E. destruct H as [ws b|ws n c b _|ws n p b _ _]; destruct ws; discriminate E.
Qed.
Lemma in_sequence_snoc : forall k ws p b, in_sequence k (ws ++ [(p, b)])%list ->
  (p = 0 /\ k = 1) \/ (exists n ws0 c, p = n + 1 /\ k = n + 2 /\ ws = (ws0 ++ [(n, c)])%list /\ in_sequence (n + 1) ws) \/ (p <> 0 /\ in_sequence k ws).
Proof.
  intros k ws p b H. remember (ws ++ [(p, b)])%list as l eqn:E. destruct H as [w0 d|w0 n c d H|w0 n q d H Q].
  - apply app_inj_tail in E. destruct E as [_ E]. injection E as <- _. left. auto.
  - change [(n, c); (n + 1, d)] with ([(n, c)] ++ [(n + 1, d)])%list in E. rewrite app_assoc in E. apply app_inj_tail in E. destruct E as [<- E].
    assert (p = n + 1) by congruence. right; left. exists n, w0, c. auto.
  - apply app_inj_tail in E. destruct E as [<- E]. assert (p = q) by congruence. subst q. right; right. auto.
Qed.
Lemma set_notices : forall u n s ws p b, tracks n s ws -> s_encoding s <> EncUCS2 -> p < n -> notices s ws -> notices (s_set u s p b) (ws ++ [(p, b)])%list.
Proof.
  intros u n s ws p b T E Hp K k H. destruct (set_basic u n s p b (tracks_sized _ _ _ T) E Hp) as (_ & _ & ->).
  destruct (in_sequence_snoc _ _ _ _ H) as [(-> & ->)|[(m & w0 & c & -> & -> & Ew & H')|(Np & H')]].
  - reflexivity.
  - pose proof (K _ H') as L. destruct T as (_ & _ & _ & D). destruct (D ltac:(lia)) as (_ & (w1 & c1 & E1) & _).
    rewrite Ew in E1. apply app_inj_tail in E1. destruct E1 as [_ E1]. assert (m = s_prev_pos s) by congruence. subst m.
    destruct (N.eqb_spec (s_prev_pos s + 1) 0); [lia|]. rewrite N.eqb_refl. cbn [orb andb]. destruct (N.eqb_spec (s_sequential_length s) (s_prev_pos s + 1)); lia.
  - pose proof (K _ H') as L. destruct (N.eqb_spec p 0); [contradiction|]. cbn [orb]. destruct ((p =? s_prev_pos s + 1) && (s_sequential_length s =? p)) eqn:X; [|exact L].
    apply andb_prop in X. destruct X as [_ X]. apply N.eqb_eq in X. lia.
Qed.
Lemma set_all_notices : forall u n ws' s ws, tracks n s ws -> s_encoding s <> EncUCS2 -> Forall (fun pb => fst pb < n /\ snd pb < 256) ws' -> notices s ws ->
  notices (set_all u s ws') (ws ++ ws')%list.
Proof.
  intros u n ws'. induction ws' as [|[p b] ws' IH]; intros s ws T E F K; [rewrite app_nil_r; exact K|].
  apply Forall_cons_iff in F. destruct F as [[F1 F2] F]. cbn [fst snd] in F1, F2.
  change (set_all u s ((p, b) :: ws')) with (set_all u (s_set u s p b) ws'). replace (ws ++ (p, b) :: ws')%list with ((ws ++ [(p, b)]) ++ ws')%list by (rewrite <- app_assoc; reflexivity).
  apply IH; [apply set_tracks; assumption|rewrite set_encoding; exact E|exact F|apply (set_notices u n); assumption].
Qed.

(* So a complete text is recognised *)
Lemma complete_noticed : forall n s ws l, tracks n s ws -> 0 < n -> notices s ws -> complete_text n ws l -> s_isComplete s = true /\ shown_bytes s = l.
Proof.
  intros n s ws l (A & B & C & D) Hn K [[S L] X]. pose proof (K _ S) as Le. pose proof (in_sequence_pos _ _ S) as Lp.
  destruct (D ltac:(lia)) as (_ & _ & Z).
  assert (Pr : forall i b, nth_error l i = Some b -> nth_error (s_data s) i = Some b).
  { intros i b Hi. assert (i < length l)%nat by (apply nth_error_Some; congruence). pose proof (L i b Hi) as Q. rewrite Z, Nat2N.id in Q by lia. exact Q. }
  assert (Ed : exists r, s_data s = (l ++ r)%list).
  { clear - Pr. revert Pr. generalize (s_data s). induction l as [|x l IH]; intros d Pr; [exists d; reflexivity|].
    pose proof (Pr 0%nat x eq_refl) as P0. destruct d as [|y d]; [discriminate|]. cbn in P0. injection P0 as ->.
    destruct (IH d) as (r & ->); [intros i b Hi; exact (Pr (S i) b Hi)|]. exists r. reflexivity. }
  destruct Ed as (r & Ed).
  assert (Ex : s_getExpectedLength s = N.of_nat (length l)).
  { unfold s_getExpectedLength. rewrite A. destruct X as [(Ln & Ni)|(l' & -> & Ni)].
    - assert (r = []) by (rewrite Ed, app_length in A; destruct r; [reflexivity|cbn [length] in A; lia]). subst r. rewrite app_nil_r in Ed. rewrite Ed, term_full by exact Ni. lia.
    - rewrite Ed, <- app_assoc. cbn [app]. rewrite term_app by exact Ni. rewrite Ed, !app_length in A. rewrite app_length. cbn [length] in *. lia. }
  split.
  - unfold s_isComplete, s_getReceivedLength. rewrite Ex. apply N.leb_le. exact Le.
  - unfold shown_bytes. rewrite Ex, Nat2N.id, Ed, firstn_app, firstn_all, Nat.sub_diag. cbn [firstn]. apply app_nil_r.
Qed.
Lemma new_notices : forall n, notices (RDSString_new n) [].
Proof. intros n k H. destruct (in_sequence_nil _ H). Qed.

(* ---- a name of which all parts were received ---- *)
Lemma ps_any_order : forall env o w0 gs0 gs1 now g c out p l,
  host_ok env -> host_text env -> o_output_type o = OutJSON ->
  let gs := (gs1 ++ [(now, g, 0)])%list in
  Forall received_group (gs0 ++ gs) -> p <> 0 -> three p (pis gs0) -> Forall (stays p) gs ->
  Forall (fun x => ps_segment (snd (fst x), snd x) <> [] -> carried_pi x = Some p) gs ->
  ps_segment (g, 0) <> [] -> complete_text 8 (ps_writes (groups_of gs)) l ->
  run_groups env o (Channel_new o w0) (gs0 ++ gs) = Ok (c, out) ->
  exists out' line, out = (out' ++ [Some line])%list /\ says line ["ps"] (VStr (rds_text l)).
Proof.
  intros env o w0 gs0 gs1 now g c out p name H HT OJ gs F Np T3 S P Pl Cm E.
  destruct (host_env env H) as [Ee _]. pose proof (host_text_txt env HT) as Et.
  apply Forall_app in F. destruct F as [F0 F].
  rewrite run_groups_app in E. destruct (run_groups env o (Channel_new o w0) gs0) as [[c0 out0]| |] eqn:E0; cbn [bind] in E; try discriminate.
  destruct (run_groups env o c0 gs) as [[c2 out2]| |] eqn:E1; cbn [bind] in E; try discriminate. injection E as <- <-.
  pose proof (three_locked _ _ _ _ _ _ _ OJ E0 Np T3) as L.
  destruct (station_history (ps_inv env) env o H OJ (ps_new env) (ps_new_pi env) (ps_had env) (fun h st now c g w st' j => ps_step env o h st now c g w st' j) gs0 w0 c0 out0 F0 E0)
    as (old & h0 & D0 & I0).
  assert (Fh0 : Forall (fun x => received_group (0%Z, fst x, snd x)) h0).
  { pose proof (decoded_received gs0 out0 F0) as X. rewrite D0 in X. apply Forall_app in X. apply X. }
  pose proof (run_fine env o gs0 _ _ _ H Et (created_fine o _ (or_introl (ex_intro _ w0 eq_refl))) F0 E0) as Fc0.
  destruct (run_snoc _ _ _ _ _ _ _ _ _ E1) as (c1 & out1 & line & Ea & Eb & ->).
  pose proof S as S'. apply Forall_app in S'. destruct S' as [S1 S2]. inversion S2 as [|? ? Sg0 _]; subst.
  pose proof F as F'. apply Forall_app in F'. destruct F' as [F1 F2]. inversion F2 as [|? ? R _]; subst.
  destruct (steady_history (ps_inv env) env o p H OJ (ps_had env) (fun h st now c g w st' j => ps_step env o h st now c g w st' j) gs1 h0 c0 c1 out1 (proj1 Fc0) L I0 F1 S1 Ea)
    as (L1 & Hc1 & I1).
  destruct (steady_history (ps_inv env) env o p H OJ (ps_had env) (fun h st now c g w st' j => ps_step env o h st now c g w st' j) gs h0 c0 c2 _ (proj1 Fc0) L I0 F S E1)
    as (L2 & Hc2 & I2).
  pose proof P as P'. apply Forall_app in P'. destruct P' as [P1 P2]. inversion P2 as [|? ? Pg _]; subst. cbn [fst snd] in Pg. specialize (Pg Pl).
  destruct (locked_printed _ _ _ _ _ _ _ _ _ H OJ Hc1 (proj1 R) L1 Pg Eb) as (l & ->).
  exists (out0 ++ out1)%list, l. split; [rewrite app_assoc; reflexivity|].
  pose proof (all_decoded _ ps_segment env o p H OJ gs c0 c2 _ (proj1 Fc0) L F S P E1) as Sd. change (map grp gs) with (groups_of gs) in Sd.
  assert (Fd : Forall (fun x => received_group (0%Z, fst x, snd x)) (h0 ++ decoded_in gs (out1 ++ [Some l])))
    by (apply Forall_app; split; [exact Fh0|apply decoded_received; exact F]).
  assert (Cm' : complete_text 8 (ps_writes (h0 ++ decoded_in gs (out1 ++ [Some l]))) name).
  { rewrite ps_writes_app. apply complete_earlier. unfold ps_writes in Cm |- *. rewrite Sd. exact Cm. }
  destruct (ps_tracks env _ _ Fd I2) as [T En].
  assert (K : notices (st_ps (ch_station c2)) (ps_writes (h0 ++ decoded_in gs (out1 ++ [Some l])))).
  { unfold ps_inv in I2. rewrite I2. apply (set_all_notices (env_ucs2 env) 8 _ (RDSString_new 8) [] (new_tracks 8)); [discriminate|apply ps_writes_ok; exact Fd|apply new_notices]. }
  destruct (complete_noticed 8 _ _ name T ltac:(lia) K Cm') as [Cp Sb].
  (* the line *)
  pose proof (run_fine env o gs1 _ _ _ H Et Fc0 F1 Ea) as Fc1.
  set (g' := prepared o now c1 g 0).
  assert (Cr : carries 0 g 0 = true) by (unfold ps_segment in Pl; destruct (carries 0 g 0); [reflexivity|congruence]).
  pose proof Cr as Cr0. rewrite (carries_prepared 0 o now c1 g 0) in Cr. fold g' in Cr.
  apply andb_prop in Cr. destruct Cr as [Cr H4]. apply andb_prop in Cr. destruct Cr as [Cr H3]. apply andb_prop in Cr. destruct Cr as [Cr Hv]. apply andb_prop in Cr. destruct Cr as [Ht Hn].
  apply negb_true_iff in Hv. apply N.eqb_eq in Hn.
  assert (Lc : s_last_complete_string (st_ps (ch_station c2)) = rds_text name).
  { pose proof (complete_str (env_ucs2 env) _ (proj2 (tracks_sized _ _ _ T)) Cp) as X. rewrite En, Sb in X.
    assert (Dg : exists hd, decoded_in gs (out1 ++ [Some l]) = (hd ++ [(g, 0)])%list).
    { assert (Lo : length out1 = length gs1).
      { destruct (run_groups_good env o gs1 c0 Ee (proj1 Fc0) ltac:(eapply Forall_impl; [|exact F1]; intros [[? ?] ?] Y; apply Y)) as ([cx ox] & Ex & _ & Lx). rewrite Ea in Ex. injection Ex as _ <-. exact Lx. }
      exists (decoded_in gs1 out1). unfold gs, decoded_in. clear - Lo. revert out1 Lo. induction gs1 as [|x gs1 IH]; intros [|y out1] Lo; try discriminate; [reflexivity|].
      cbn [app combine flat_map]. rewrite IH by (injection Lo as Lo; exact Lo). rewrite app_assoc. reflexivity. }
    destruct Dg as (hd & Dg). unfold ps_inv in I2. rewrite Dg, app_assoc, ps_writes_app, set_all_app in I2.
    assert (Y : s_str (env_ucs2 env) (st_ps (ch_station c2)) = Some (s_last_complete_string (st_ps (ch_station c2)))).
    { rewrite I2 in Cp |- *. rewrite Dg, app_assoc in Fd. apply Forall_app in Fd. destruct Fd as [Fd1 Fd2].
      eapply (set_all_last _ 8); [eapply tracks_sized; apply (set_all_tracks (env_ucs2 env) 8 (ps_writes (h0 ++ hd)) (RDSString_new 8) [] (new_tracks 8))| | | |exact Cp].
      - apply ps_writes_ok. exact Fd1.
      - lia.
      - rewrite ps_writes_one, Cr0. discriminate.
      - apply ps_writes_ok. exact Fd2. }
    congruence. }
  destruct (process_shows env o now c1 g 0 c2 l H Et OJ Fc1 (proj1 R) Eb (or_introl (type0_raw _ _ Hn))) as (j & Dd & Lj). fold g' in Dd.
  pose proof (prepared_bler o now c1 g 0 Hc1 (proj1 R)) as [_ B]. fold g' in B.
  assert (So : st_ok (tuned c1 g')).
  { unfold g'. rewrite (locked_tuned p c1 o now g 0 L1 (or_intror Pg)). apply Hc1. }
  destruct (type0_cases env o _ g' _ j Dd) as [(_ & _ & _ & D1)|([X|[X|X]] & _)]; [|congruence|congruence|contradiction].
  destruct (decodeType0_ps env o (had (tuned c1 g') g') g' _ (header_absent env o (tuned c1 g') g' "ps" B eq_refl) (had_ok _ _ So)) as ([s1 j1] & D2 & P3 & J1).
  rewrite D1 in D2. injection D2 as <- <-. cbn [fst snd] in P3, J1. rewrite <- P3, Cp, Lc, H3, H4 in J1. cbn [andb] in J1.
  unfold says. rewrite Lj, J1. reflexivity.
Qed.

(* ---- a name is not shown unless its parts come one directly after the other ---- *)
Lemma sequence_adjacent : forall k ws, in_sequence k ws -> forall n, n + 2 <= k -> exists a c b r, ws = (a ++ [(n, c); (n + 1, b)] ++ r)%list.
Proof.
  intros k ws S. induction S as [ws b|ws m c b S IH|ws m p b S IH P]; intros n Hn; [lia| |].
  - destruct (N.eq_dec n m) as [->|Ne]; [exists ws, c, b, []; reflexivity|].
    destruct (IH n ltac:(lia)) as (a & c1 & b1 & r & E). exists a, c1, b1, (r ++ [(m + 1, b)])%list.
    change [(m, c); (m + 1, b)] with ([(m, c)] ++ [(m + 1, b)])%list. rewrite app_assoc, E, <- !app_assoc. reflexivity.
  - destruct (IH n Hn) as (a & c1 & b1 & r & ->). exists a, c1, b1, (r ++ [(p, b)])%list. rewrite <- !app_assoc. reflexivity.
Qed.
Definition part_writes2 (s : N * N * N) : Texts.writes := let '(n, a, b) := s in [(2 * n, a); (2 * n + 1, b)].
(* Characters 3 and 4 are only received directly after each other if parts 1 and 2 are *)
Lemma parts_adjacent : forall segs a c b r, (flat_map part_writes2 segs = a ++ [(3, c); (4, b)] ++ r)%list ->
  exists s t s1 s2, (segs = s1 ++ [s; t] ++ s2)%list /\ fst (fst s) = 1 /\ fst (fst t) = 2.
Proof.
  induction segs as [|[[n x] y] segs IH]; intros a c b r E; [destruct a; discriminate|].
  cbn [flat_map part_writes2 app] in E. destruct a as [|a1 [|a2 a]]; cbn [app] in E.
  - assert (2 * n = 3) by congruence. lia.
  - destruct segs as [|[[m u] v] segs]; [discriminate|]. cbn [flat_map part_writes2 app] in E.
    assert (2 * n + 1 = 3) by congruence. assert (2 * m = 4) by congruence.
    exists (n, x, y), (m, u, v), [], segs. cbn [fst]. repeat split; lia.
  - injection E as _ _ E. destruct (IH a c b r E) as (s & t & s1 & s2 & -> & S1 & S2). exists s, t, ((n, x, y) :: s1), s2. auto.
Qed.

Lemma prefix_of_run : forall env o gs c c' out line, host_ok env -> ch_ok c -> Forall received_group gs -> run_groups env o c gs = Ok (c', out) -> In (Some line) out ->
  exists gs1 x gs2 c1 out1, (gs = gs1 ++ [x] ++ gs2)%list /\ run_groups env o c (gs1 ++ [x]) = Ok (c1, out1 ++ [Some line])%list.
Proof.
  intros env o gs. induction gs as [|[[now g] w] gs IH] using rev_ind; intros c c' out line H Hc F E I.
  - cbn in E. injection E as _ <-. destruct I.
  - destruct (run_snoc _ _ _ _ _ _ _ _ _ E) as (c1 & out1 & l & Ea & Eb & ->). apply in_app_or in I. destruct I as [I|[I|[]]].
    + apply Forall_app in F. destruct (IH c c1 out1 line H Hc (proj1 F) Ea I) as (g1 & x & g2 & c2 & o2 & -> & E2).
      exists g1, x, (g2 ++ [(now, g, w)])%list, c2, o2. split; [rewrite <- !app_assoc; reflexivity|exact E2].
    + subst l. exists gs, (now, g, w), [], c', out1. split; [reflexivity|exact E].
Qed.

Lemma never_shown : forall env o w0 gs0 gs c out p, host_ok env -> o_output_type o = OutJSON ->
  Forall received_group (gs0 ++ gs) -> p <> 0 -> three p (pis gs0) -> flat_map ps_segment (groups_of gs0) = [] -> Forall (fun x => carried_pi x = Some p) gs ->
  Forall (fun s => snd (fst s) <> end_of_text /\ snd s <> end_of_text) (flat_map ps_segment (groups_of gs)) ->
  (forall s t s1 s2, (flat_map ps_segment (groups_of gs) = s1 ++ [s; t] ++ s2)%list -> ~ (fst (fst s) = 1 /\ fst (fst t) = 2)) ->
  run_groups env o (Channel_new o w0) (gs0 ++ gs) = Ok (c, out) ->
  forall line v, In (Some line) out -> ~ says line ["ps"] v.
Proof.
  intros env o w0 gs0 gs c out p H OJ F Np T3 Z P Ne Adj E line v I S.
  assert (D0 : forall a b, flat_map ps_segment (groups_of a) = [] -> flat_map ps_segment (decoded_in a b) = []).
  { induction a as [|[[n g] w] a IH]; intros b Z0; [reflexivity|]. cbn [groups_of map flat_map fst snd] in Z0. apply app_eq_nil in Z0. destruct Z0 as [Z1 Z2].
    destruct b as [|[l|] b]; [reflexivity| |]; unfold decoded_in; cbn [combine flat_map app]; fold (decoded_in a b); [rewrite Z1; cbn [app]|]; apply IH; exact Z2. }
  destruct (prefix_of_run env o (gs0 ++ gs) _ _ _ line H (channel_new_ok o w0) F E I) as (g1 & [[now g] w] & g2 & c1 & o1 & Eg & E1).
  assert (F1 : Forall received_group (g1 ++ [(now, g, w)])).
  { rewrite Eg, app_assoc in F. apply Forall_app in F. apply F. }
  destruct (ps_complete env o w0 g1 now g w c1 o1 line v H OJ F1 E1 S) as (l & [Sq Cm] & _).
  (* the parts decoded so far are some of the first parts *)
  assert (Q : exists more, flat_map ps_segment (groups_of gs) = (flat_map ps_segment (decoded_in (g1 ++ [(now, g, w)]) (o1 ++ [Some line])) ++ more)%list).
  { assert (X : (exists m, gs0 = (g1 ++ [(now, g, w)]) ++ m)%list \/ (exists m, (g1 ++ [(now, g, w)]) = gs0 ++ m /\ exists m2, gs = m ++ m2)%list).
    { rewrite app_assoc in Eg. apply app_eq_app in Eg. destruct Eg as (m & [[A B]|[A B]]); [left; exists m; exact A|right; exists m; split; [exact A|exists g2; exact B]]. }
    destruct X as [(m & X)|(m & X & m2 & Y)].
    - exists (flat_map ps_segment (groups_of gs)). rewrite D0; [reflexivity|]. rewrite X in Z. unfold groups_of in Z |- *. rewrite map_app, flat_map_app in Z. apply app_eq_nil in Z. apply Z.
    - rewrite X in E1, F1 |- *. rewrite run_groups_app in E1. destruct (run_groups env o (Channel_new o w0) gs0) as [[c0 out0]| |] eqn:E0; cbn [bind] in E1; try discriminate.
      destruct (run_groups env o c0 m) as [[c2 out2]| |] eqn:E2; cbn [bind] in E1; try discriminate.
      assert (Eo : (out0 ++ out2 = o1 ++ [Some line])%list) by congruence.
      apply Forall_app in F1. destruct F1 as [F0 Fm]. destruct (host_env env H) as [Ee _].
      assert (Bl : forall a, Forall received_group a -> Forall (fun x => g_has_bler (snd (fst x)) = false) a)
        by (intros a Fa; eapply Forall_impl; [|exact Fa]; intros [[? ?] ?] Y0; apply Y0).
      destruct (run_groups_good env o gs0 _ Ee (channel_new_ok o w0) (Bl _ F0)) as ([cx ox] & Ex & Ok0 & Lx). rewrite E0 in Ex. assert (cx = c0 /\ ox = out0) as [-> ->] by (split; congruence). cbn [fst snd] in Ok0, Lx.
      rewrite <- Eo. unfold decoded_in. assert (Cb : forall (A B : Type) (a : list A) (b : list B) a' b', length b = length a -> combine (a ++ a') (b ++ b') = (combine a b ++ combine a' b')%list).
      { clear. intros A B a. induction a as [|x a IH]; intros [|y b] a' b' Le; try discriminate; [reflexivity|]. cbn [app combine]. rewrite IH by (injection Le as Le; exact Le). reflexivity. }
      rewrite Cb by exact Lx. rewrite flat_map_app, flat_map_app. fold (decoded_in gs0 out0) (decoded_in m out2). rewrite D0 by exact Z. cbn [app].
      rewrite Y in P. apply Forall_app in P. destruct P as [Pm _].
      rewrite (all_decoded _ ps_segment env o p H OJ m c0 c2 out2 Ok0 (three_locked _ _ _ _ _ _ _ OJ E0 Np T3) Fm); [|eapply Forall_impl; [|exact Pm]; intros x Px; right; exact Px|eapply Forall_impl; [|exact Pm]; intros x Px _; exact Px|exact E2].
      change (map grp m) with (groups_of m). exists (flat_map ps_segment (groups_of m2)). rewrite Y. unfold groups_of. rewrite map_app, flat_map_app. reflexivity. }
  destruct Q as (more & Q). set (segs := flat_map ps_segment (decoded_in (g1 ++ [(now, g, w)]) (o1 ++ [Some line]))) in *.
  change (ps_writes (decoded_in (g1 ++ [(now, g, w)]) (o1 ++ [Some line]))) with (flat_map part_writes2 segs) in Sq.
  assert (L8 : N.of_nat (length l) = 8).
  { destruct Cm as [(L8 & _)|(l' & -> & _)]; [exact L8|]. exfalso. destruct Sq as [_ La]. specialize (La (length l') end_of_text). rewrite nth_error_app2, Nat.sub_diag in La by lia. specialize (La eq_refl).
    assert (In (N.of_nat (length l'), end_of_text) (flat_map part_writes2 segs)).
    { apply in_rev. unfold last_at in La. clear - La. revert La. generalize (rev (flat_map part_writes2 segs)). intros ws. induction ws as [|[q b] ws IH]; intros La; [discriminate|]. cbn [first_at] in La.
      destruct (N.eqb_spec q (N.of_nat (length l'))) as [->|_]; [injection La as ->; left; reflexivity|right; apply IH; exact La]. }
    apply in_flat_map in H0. destruct H0 as ([[n x] y] & Is & Iw). rewrite Q in Ne. apply Forall_app in Ne. destruct Ne as [Ne _]. rewrite Forall_forall in Ne. specialize (Ne _ Is). cbn [fst snd] in Ne.
    destruct Iw as [Iw|[Iw|[]]]; injection Iw as _ Iw; destruct Ne; contradiction. }
  destruct Sq as [Sq _]. rewrite L8 in Sq. destruct (sequence_adjacent _ _ Sq 3 ltac:(lia)) as (a & c3 & b4 & r & Ea).
  destruct (parts_adjacent _ _ _ _ _ Ea) as (s & t & s1 & s2 & Es & N1 & N2).
  apply (Adj s t s1 (s2 ++ more)%list); [|auto]. rewrite Q, Es, <- !app_assoc. reflexivity.
Qed.
