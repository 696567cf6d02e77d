(* RadioText from transmitted bits, and after any disturbance (C113). *)
From Verif.Model Require Import Base Util Float Group BlockSync Options Tables Freq RdsString Rft Json Tmc Station Channel Input Dsp Main.
From Verif.Spec Require Import RdsCode RdsStream Reception Inputs Unicode JsonText Session Identity Texts History Received Program Recording OnAir Host Recovery.
From Verif.Proofs Require Import Tac UpdateP SessionP ChannelP HistoryP HostP PsP RtP InputP MainP Ring BlockSyncP BlockSyncE RecordP AirP BlockSyncS AgainP PartsP.

Definition handed (te : TxGroup * (N * N * N * N)) (x : Z * Group * N) : Prop := delivered (fst te) (bad4 (snd te)) (snd (fst x)) /\ snd x = 0.

Lemma delivered_text : forall te x, handed te x -> rt_segment (snd (fst x), snd x) = text_part (fst te).
Proof.
  intros [t e] [[n g] w] [D W]. cbn [fst snd] in *. subst w. destruct (bad4 e) as [[[f1 f2] f3] f4]. destruct D as (_ & (H2 & G2 & _) & (H3 & G3 & _) & (H4 & G4 & _) & T & Ty & V).
  unfold rt_segment, carries, text_part. rewrite T, Ty, V. unfold g_has in *. unfold g_get in *. cbn [g_block] in *. rewrite H3, H4, G2, G3, G4. cbn [N.eqb andb].
  destruct (tx2 t / 4096 =? 2); [|reflexivity]. destruct (N.testbit (tx2 t) 11); reflexivity.
Qed.

Lemma text_of_groups : forall env o gs0 gs tes0 tes1 te c out p f v l, host_ok env -> host_text env -> o_output_type o = OutJSON ->
  Forall received_group (gs0 ++ gs) -> Forall2 handed (tes0 ++ tes1 ++ [te]) gs ->
  run_groups env o (Channel_new o 0) (gs0 ++ gs) = Ok (c, out) ->
  p <> 0 -> Forall (fun x => tx1 (fst x) = p) (tes0 ++ tes1 ++ [te]) -> (3 <= length tes0)%nat ->
  (forall x, In x (groups_of (gs0 ++ gs)) -> ~ In 0x4BD7 (map snd (announcement x))) ->
  text_part (fst te) <> [] ->
  uniform f v (flat_map (fun x => text_part (fst x)) (tes1 ++ [te])) ->
  complete_text (rt_size v) (part_writes (flat_map (fun x => text_part (fst x)) (tes1 ++ [te]))) l ->
  exists out' line s, out = out' ++ [Some line] /\ says line ["radiotext"%string] (VStr s) /\ trimmed (rds_text l) s.
Proof.
  intros env o gs0 gs tes0 tes1 te c out p f v l H Ht OJ Rg D Er P0 P T0 An Nl Un Cm.
  apply Forall2_app_inv_l in D. destruct D as (ga & gb & Da & Db & ->). apply Forall2_app_inv_l in Db. destruct Db as (gb1 & gl & Db & Dl & ->).
  inversion Dl as [|? [[now g] w] ? ? Dg Dn]; subst. inversion Dn; subst. destruct Dg as [Dg Wg]. cbn [fst snd] in Dg, Wg. subst w.
  assert (Pi : forall l m, Forall (fun x : TxGroup * (N * N * N * N) => tx1 (fst x) = p) l -> Forall2 handed l m -> Forall (fun x => carried_pi x = Some p) m).
  { intros l0 m Fl D. induction D as [|y x l0 m [D1 W1] D IH]; [constructor|]. apply Forall_cons_iff in Fl. destruct Fl as [F1 F2]. constructor; [rewrite (delivered_pi _ _ _ D1 W1), F1; reflexivity|apply IH, F2]. }
  apply Forall_app in P. destruct P as [Pa Pb].
  pose proof (Pi _ _ Pa Da) as Qa. assert (Dm : Forall2 handed (tes1 ++ [te]) (gb1 ++ [(now, g, 0)])) by (apply Forall2_app; [exact Db|exact Dl]).
  pose proof (Pi _ _ Pb Dm) as Qb.
  assert (Sg : forall l m, Forall2 handed l m -> flat_map rt_segment (groups_of m) = flat_map (fun x : TxGroup * (N * N * N * N) => text_part (fst x)) l).
  { intros l0 m D. induction D as [|y x l0 m D1 D IH]; [reflexivity|]. cbn [groups_of map flat_map]. rewrite (delivered_text _ _ D1). f_equal. exact IH. }
  rewrite app_assoc in Er.
  apply (rt_any_order env o 0 (gs0 ++ ga) gb1 now g c out p f v l H Ht OJ).
  - rewrite <- app_assoc. exact Rg.
  - exact P0.
  - unfold three, pis. rewrite flat_map_app. assert (X : exists k, flat_map (fun x => match carried_pi x with Some p => [p] | None => [] end) ga = repeat p k /\ (3 <= k)%nat).
    { exists (length ga). split; [clear - Qa; induction Qa as [|x ga Q _ IH]; [reflexivity|]; cbn [flat_map length repeat app]; rewrite Q, IH; reflexivity|]. assert (Le : length tes0 = length ga) by (clear - Da; induction Da; cbn [length]; congruence). lia. }
    destruct X as (k & -> & Hk). exists (flat_map (fun x => match carried_pi x with Some p => [p] | None => [] end) gs0 ++ repeat p (k - 3)).
    rewrite <- app_assoc. f_equal. change [p; p; p] with (repeat p 3). rewrite <- repeat_app. f_equal. lia.
  - eapply Forall_impl; [|exact Qb]. intros x X. right. exact X.
  - eapply Forall_impl; [|exact Qb]. intros x X _. exact X.
  - pose proof (delivered_text te (now, g, 0) (conj Dg eq_refl)) as X. cbn [fst snd] in X. rewrite X. exact Nl.
  - rewrite (Sg _ _ Dm). exact Un.
  - rewrite (Sg _ _ Dm). exact Cm.
  - intros g1 _ _ X. apply in_flat_map in X. destruct X as (x & X1 & X2). rewrite <- app_assoc in X1. apply (An x X1). apply in_map_iff. eexists. split; [|exact X2]. reflexivity.
  - exact Er.
Qed.

Lemma text_on_air : forall env o clock t input pre b ws0 tes0 tes1 te rest p f v l, host_ok env -> host_text env -> o_output_type o = OutJSON ->
  let tes := tes0 ++ tes1 ++ [te] in
  bit_characters input = pre ++ [b] ++ flat_map block_bits ws0 ++ flat_map rx_bits tes ++ rest -> (length rest < 25)%nat ->
  acquires (o_use_fec o) pre b -> Forall (fun w => w < 2 ^ 26) ws0 -> Forall (rx_ok (o_use_fec o)) tes ->
  let first := recognise (window (pre ++ [b])) in
  Reception.kept [false] (err_flags (following first) (ws0 ++ all_words tes)) -> expect_after (following first) ws0 = OffA ->
  p <> 0 -> Forall (fun x => tx1 (fst x) = p) tes -> (3 <= length tes0)%nat ->
  (forall g, In g (groups_after (o_use_fec o) [] (ascii_bits input)) -> ~ In 0x4BD7 (map snd (announcement (g, 0)))) ->
  text_part (fst te) <> [] ->
  uniform f v (flat_map (fun x => text_part (fst x)) (tes1 ++ [te])) ->
  complete_text (rt_size v) (part_writes (flat_map (fun x => text_part (fst x)) (tes1 ++ [te]))) l ->
  exists items line s, processASCIIBitsInput env o clock t input = Ok (EXIT_SUCCESS, items ++ [Line 0 line]) /\
    says line ["radiotext"%string] (VStr s) /\ trimmed (rds_text l) s.
Proof.
  intros env o clock t input pre b ws0 tes0 tes1 te rest p f v l H Ht OJ tes I L A F R first K E P0 P T0 An Nl Un Cm.
  destruct (bits_as_groups env o clock t input H) as (gs & c & out & M & W & Rg & Er & Ep).
  assert (Q : groups_after (o_use_fec o) [] (ascii_bits input) =
    groups_after (o_use_fec o) [] (pre ++ [b] ++ flat_map block_bits ws0) ++ groups_after (o_use_fec o) (pre ++ [b] ++ flat_map block_bits ws0) (flat_map rx_bits tes)).
  { rewrite ascii_bits_spec, I. rewrite <- (nothing_more (o_use_fec o) pre b ws0 tes (rest ++ [false]) A F R); [|rewrite app_length; cbn; lia|exact K|exact E].
    rewrite <- groups_after_app. f_equal. rewrite <- !app_assoc. reflexivity. }
  assert (Ag : forall x, In x (groups_of gs) -> ~ In 0x4BD7 (map snd (announcement x))).
  { intros x X. unfold groups_of in X. apply in_map_iff in X. destruct X as (y & <- & Y). rewrite Forall_forall in W. rewrite (W y Y). apply An. rewrite <- M. apply in_map_iff. exists y. split; [reflexivity|exact Y]. }
  rewrite Q in M. apply map_split in M. destruct M as (gs0 & gs1 & -> & _ & M1).
  pose proof (delivery (o_use_fec o) pre b ws0 tes A F R K E) as D. rewrite <- M1 in D.
  assert (D' : Forall2 handed tes gs1).
  { apply Forall_app in W. destruct W as [_ W]. clear - D W. revert D. generalize tes. induction W as [|x gs1 Wx W IH]; intros q D; cbn [map] in D; inversion D; subst; constructor; [split; assumption|apply IH; assumption]. }
  destruct (text_of_groups env o gs0 gs1 tes0 tes1 te c out p f v l H Ht OJ Rg D' Er P0 P T0 Ag Nl Un Cm) as (out' & line & s & -> & S & Tr).
  exists (Main.lines_of 0 out'), line, s. split; [|split; [exact S|exact Tr]]. rewrite Ep, lines_app. reflexivity.
Qed.

Lemma text_again : forall env o clock t input bits0 ts0 ts1 ts2 tn rest p f v l,
  host_ok env -> host_text env -> o_output_type o = OutJSON ->
  let bits := bits0 ++ flat_map tx_bits ts0 in
  let ts := ts1 ++ ts2 ++ [tn] in
  bit_characters input = bits ++ flat_map tx_bits ts ++ rest ->
  length ts0 = 14%nat -> Forall tx_ok ts0 -> Forall tx_ok ts ->
  (length (chance_blocks bits (length bits0)) <= 7)%nat -> ~ chance_rhythm bits (length bits0) ->
  p <> 0 -> Forall (fun x => tx1 x = p) ts -> (3 <= length ts1)%nat ->
  (forall g, In g (groups_after (o_use_fec o) [] (ascii_bits input)) -> ~ In 0x4BD7 (map snd (announcement (g, 0)))) ->
  text_part tn <> [] -> uniform f v (flat_map text_part (ts2 ++ [tn])) -> complete_text (rt_size v) (part_writes (flat_map text_part (ts2 ++ [tn]))) l ->
  exists items line s more, processASCIIBitsInput env o clock t input = Ok (EXIT_SUCCESS, items ++ [Line 0 line] ++ more) /\
    says line ["radiotext"%string] (VStr s) /\ trimmed (rds_text l) s.
Proof.
  intros env o clock t input bits0 ts0 ts1 ts2 tn rest p f v l H Ht OJ bits ts I L0 F0 F C R P0 P L1 An Nt Un Cm.
  destruct (bits_as_groups env o clock t input H) as (gs & c & out & M & W & Rg & Er & Ep).
  assert (Ag : forall x, In x (groups_of gs) -> ~ In 0x4BD7 (map snd (announcement x))).
  { intros x X. unfold groups_of in X. apply in_map_iff in X. destruct X as (y & <- & Y). rewrite Forall_forall in W. rewrite (W y Y). apply An. rewrite <- M. apply in_map_iff. exists y. split; [reflexivity|exact Y]. }
  assert (Q : groups_after (o_use_fec o) [] (ascii_bits input) =
    groups_after (o_use_fec o) [] bits ++ groups_after (o_use_fec o) bits (flat_map tx_bits ts) ++ groups_after (o_use_fec o) (bits ++ flat_map tx_bits ts) (rest ++ [false])).
  { rewrite ascii_bits_spec, I. rewrite <- groups_after_more, <- groups_after_app. f_equal. rewrite <- !app_assoc. reflexivity. }
  rewrite Q in M. apply map_split in M. destruct M as (gs0 & gsr & -> & _ & M). apply map_split in M. destruct M as (gs1 & gs2 & -> & M1 & _).
  destruct (recovery (o_use_fec o) bits0 ts0 ts L0 F0 F C R) as [D _]. fold bits in D. rewrite <- M1 in D.
  rewrite app_assoc in Er. rewrite run_groups_app in Er.
  destruct (run_groups env o (Channel_new o 0) (gs0 ++ gs1)) as [[c1 out1]| |] eqn:E1; cbn [bind] in Er; try discriminate.
  destruct (run_groups env o c1 gs2) as [[c2 out2]| |] eqn:E2; cbn [bind] in Er; try discriminate.
  assert (Eo : out = out1 ++ out2) by congruence. subst out.
  assert (Dl : Forall2 handed (map clean ts1 ++ map clean ts2 ++ [clean tn]) gs1).
  { change [clean tn] with (map clean [tn]). rewrite <- !map_app. fold ts. apply Forall_app in W. destruct W as [_ W]. apply Forall_app in W. destruct W as [W _].
    clear - D W. revert gs1 D W. induction ts as [|x l IH]; intros gs1 D W.
    - destruct gs1; [constructor|inversion D].
    - destruct gs1 as [|y gs1]; [inversion D|]. cbn [map] in D |- *. inversion D; subst. inversion W; subst. constructor; [split; assumption|apply IH; assumption]. }
  assert (Fn : forall l, flat_map (fun x : TxGroup * (N * N * N * N) => text_part (fst x)) (map clean l) = flat_map text_part l)
    by (intros l0; induction l0 as [|x l0 IH]; [reflexivity|]; cbn [map flat_map]; rewrite IH; reflexivity).
  assert (Fe : flat_map (fun x : TxGroup * (N * N * N * N) => text_part (fst x)) (map clean ts2 ++ [clean tn]) = flat_map text_part (ts2 ++ [tn]))
    by (change [clean tn] with (map clean [tn]); rewrite <- map_app; apply Fn).
  destruct (text_of_groups env o gs0 gs1 (map clean ts1) (map clean ts2) (clean tn) c1 out1 p f v l H Ht OJ) as (out' & line & s & -> & S & Tr).
  - rewrite app_assoc in Rg. apply Forall_app in Rg. exact (proj1 Rg).
  - exact Dl.
  - exact E1.
  - exact P0.
  - change [clean tn] with (map clean [tn]). rewrite <- !map_app. fold ts. apply Forall_forall. intros x X. apply in_map_iff in X. destruct X as (y & <- & Y).
    rewrite Forall_forall in P. exact (P y Y).
  - rewrite map_length. exact L1.
  - intros x X. apply Ag. unfold groups_of in *. rewrite app_assoc, map_app. apply in_or_app. left. exact X.
  - exact Nt.
  - rewrite Fe. exact Un.
  - rewrite Fe. exact Cm.
  - exists (Main.lines_of 0 out'), line, s, (Main.lines_of 0 out2). split; [|split; [exact S|exact Tr]]. rewrite Ep, lines_app, lines_app. cbn. rewrite <- app_assoc. reflexivity.
Qed.
