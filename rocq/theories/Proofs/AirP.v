(* From transmitted bits to lines (C76). *)
From Verif.Model Require Import Base Util Float Group BlockSync Options Tables Freq RdsString Rft Json Tmc Station Channel Input Dsp Main.
From Verif.Spec Require Import RdsCode RdsStream Reception Inputs Unicode JsonText Session Identity Texts History Received Program Recording OnAir.
From Verif.Proofs Require Import Tac Schema StationP UpdateP SessionP LineP FrameP ChannelP LinesP HistoryP TraceP HostP PsP RtP InputP MainP Syndrome Ring BlockSyncP BlockSyncR BlockSyncT BlockSyncD BlockSyncA BlockSyncG BlockSyncE RecordP.

Lemma groups_after_app : forall fec a b, groups_after fec [] (a ++ b) = groups_after fec [] a ++ groups_after fec a b.
Proof.
  intros fec a b. unfold groups_after, state_after. cbn [bst_run fst]. rewrite bst_run_app. destruct (bst_run (BlockStream_init fec) a) as [s1 g1]. cbn [fst snd].
  destruct (bst_run s1 b) as [s2 g2]. reflexivity.
Qed.
Lemma groups_after_more : forall fec p a b, groups_after fec p (a ++ b) = groups_after fec p a ++ groups_after fec (p ++ a) b.
Proof.
  intros fec p a b. unfold groups_after, state_after. rewrite !bst_run_app. destruct (bst_run (BlockStream_init fec) p) as [s1 g1]. cbn [fst snd].
  destruct (bst_run s1 a) as [s2 g2]. cbn [fst snd]. destruct (bst_run s2 b) as [s3 g3]. reflexivity.
Qed.

Lemma all_words_length : forall tes, length (all_words tes) = (4 * length tes)%nat.
Proof. induction tes as [|[t [[[e1 e2] e3] e4]] tes IH]; [reflexivity|]. unfold all_words. rewrite flat_map_cons. rewrite app_length. fold (all_words tes). rewrite IH. cbn. lia. Qed.
Lemma all_words_lt : forall fec tes, Forall (rx_ok fec) tes -> Forall (fun w => w < 2 ^ 26) (all_words tes).
Proof. intros fec tes F. induction F as [|te tes H F IH]; [constructor|]. unfold all_words. rewrite flat_map_cons. apply Forall_app. split; [eapply rx_words_lt; exact H|exact IH]. Qed.

Lemma flat_length : forall ws, length (flat_map block_bits ws) = (26 * length ws)%nat.
Proof. induction ws as [|w ws IH]; [reflexivity|]. rewrite flat_map_cons, app_length, IH, block_bits_length. cbn [length]. lia. Qed.

(* A few bits more than whole groups are no more groups *)
Lemma nothing_more : forall fec pre b ws0 tes l, acquires fec pre b -> Forall (fun w => w < 2 ^ 26) ws0 -> Forall (rx_ok fec) tes -> (length l < 26)%nat ->
  let o := recognise (window (pre ++ [b])) in
  Reception.kept [false] (err_flags (following o) (ws0 ++ all_words tes)) -> expect_after (following o) ws0 = OffA ->
  groups_after fec (pre ++ [b] ++ flat_map block_bits ws0) (flat_map rx_bits tes ++ l) = groups_after fec (pre ++ [b] ++ flat_map block_bits ws0) (flat_map rx_bits tes).
Proof.
  intros fec pre b ws0 tes l A F R L o K E. rewrite rx_bits_words.
  pose proof (group_every_104 fec pre b ws0 (all_words tes) l A F (all_words_lt fec tes R) L K E) as N1.
  pose proof (group_every_104 fec pre b ws0 (all_words tes) [] A F (all_words_lt fec tes R) ltac:(cbn; lia) K E) as N2.
  rewrite app_nil_r in N2. rewrite groups_after_more in N1 |- *. rewrite !app_length, flat_length, all_words_length in N1. rewrite flat_length, all_words_length in N2.
  destruct (groups_after fec ((pre ++ [b] ++ flat_map block_bits ws0) ++ flat_map block_bits (all_words tes)) l) as [|g gs]; [apply app_nil_r|]. exfalso. cbn [length] in N1.
  assert (Q : N.of_nat (26 * (4 * length tes) + length l) / 104 = N.of_nat (26 * (4 * length tes)) / 104) by lia. lia.
Qed.

(* The program fed with bits *)
Lemma bits_as_groups : forall env o clock t input, host_ok env -> exists gs c out,
  map (fun x => snd (fst x)) gs = groups_after (o_use_fec o) [] (ascii_bits input) /\ Forall (fun x => snd x = 0) gs /\ Forall received_group gs /\
  run_groups env o (Channel_new o 0) gs = Ok (c, out) /\ processASCIIBitsInput env o clock t input = Ok (EXIT_SUCCESS, Main.lines_of 0 out).
Proof.
  intros env o clock t input H. set (tg := bit_groups (BlockStream_init (o_use_fec o)) (timed clock (ascii_bits input))).
  destruct (bit_groups_run (timed clock (ascii_bits input)) (BlockStream_init (o_use_fec o))) as [M W]. rewrite timed_snd in M. fold tg in M, W.
  assert (Sh : Forall bit_shape (snd (bst_run (BlockStream_init (o_use_fec o)) (ascii_bits input)))).
  { destruct (bst_run (BlockStream_init (o_use_fec o)) (ascii_bits input)) as [s' gs0] eqn:E. cbn [snd]. apply (stream_shapes _ _ _ _ E).
    split; [exact default_shape|]. split; [discriminate|]. intros; reflexivity. }
  apply (over_groups _ _ _ M) in Sh.
  assert (Rg : Forall received_group tg).
  { eapply Forall_impl; [|exact Sh]. intros [[n g] w] ((B & _) & N & _). unfold received_group. split; [exact B|].
    exact (conj (N BLOCK1) (conj (N BLOCK2) (conj (N BLOCK3) (N BLOCK4)))). }
  destruct (host_env env H) as [Ee _].
  assert (Bl : Forall (fun x => g_has_bler (snd (fst x)) = false) tg) by (eapply Forall_impl; [|exact Rg]; intros [[n g] w] X; apply X).
  destruct (run_groups_good env o tg (Channel_new o 0) Ee (channel_new_ok o 0) Bl) as ([c out] & E & _).
  exists tg, c, out. split; [exact M|]. split; [exact W|]. split; [exact Rg|]. split; [exact E|]. exact (ascii_run env o clock t input c out E).
Qed.

Lemma map_split : forall (A B : Type) (f : A -> B) l a b, map f l = a ++ b -> exists l1 l2, l = l1 ++ l2 /\ map f l1 = a /\ map f l2 = b.
Proof.
  intros A B f l. induction l as [|x l IH]; intros a b E.
  - destruct a; [|discriminate]. destruct b; [|discriminate]. exists [], []. auto.
  - destruct a as [|y a]; [exists [], (x :: l); auto|]. cbn [map app] in E. injection E as <- E. destruct (IH a b E) as (l1 & l2 & -> & <- & <-). exists (x :: l1), l2. auto.
Qed.

Lemma air_groups : forall env o clock t input pre b ws0 tes rest, host_ok env ->
  bit_characters input = pre ++ [b] ++ flat_map block_bits ws0 ++ flat_map rx_bits tes ++ rest -> (length rest < 25)%nat ->
  acquires (o_use_fec o) pre b -> Forall (fun w => w < 2 ^ 26) ws0 -> Forall (rx_ok (o_use_fec o)) tes ->
  let first := recognise (window (pre ++ [b])) in
  Reception.kept [false] (err_flags (following first) (ws0 ++ all_words tes)) -> expect_after (following first) ws0 = OffA ->
  exists gs0 gs c out, Forall received_group (gs0 ++ gs) /\
    Forall2 (fun te x => delivered (fst te) (bad4 (snd te)) (snd (fst x)) /\ snd x = 0) tes gs /\
    run_groups env o (Channel_new o 0) (gs0 ++ gs) = Ok (c, out) /\
    processASCIIBitsInput env o clock t input = Ok (EXIT_SUCCESS, Main.lines_of 0 out).
Proof.
  intros env o clock t input pre b ws0 tes rest H I L A F R first K E.
  destruct (bits_as_groups env o clock t input H) as (gs & c & out & M & W & Rg & Er & Ep).
  assert (Q : groups_after (o_use_fec o) [] (ascii_bits input) =
    groups_after (o_use_fec o) [] (pre ++ [b] ++ flat_map block_bits ws0) ++ groups_after (o_use_fec o) (pre ++ [b] ++ flat_map block_bits ws0) (flat_map rx_bits tes)).
  { rewrite ascii_bits_spec, I. rewrite <- (nothing_more (o_use_fec o) pre b ws0 tes (rest ++ [false]) A F R); [|rewrite app_length; cbn; lia|exact K|exact E].
    rewrite <- groups_after_app. f_equal. rewrite <- !app_assoc. reflexivity. }
  rewrite Q in M. apply map_split in M. destruct M as (gs0 & gs1 & -> & _ & M1).
  exists gs0, gs1, c, out. split; [exact Rg|]. split; [|split; [exact Er|exact Ep]].
  pose proof (delivery (o_use_fec o) pre b ws0 tes A F R K E) as D. rewrite <- M1 in D.
  apply Forall_app in W. destruct W as [_ W]. clear - D W. revert tes D. induction W as [|x gs1 Wx W IH]; intros tes D; cbn [map] in D; inversion D; subst; constructor; [split; assumption|apply IH; assumption].
Qed.

Lemma delivered_pi : forall t e x, delivered t e (snd (fst x)) -> snd x = 0 -> carried_pi x = Some (tx1 t).
Proof.
  intros t [[[f1 f2] f3] f4] [[n g] w] ((H1 & G1 & _) & _ & _ & _ & _ & _ & V) W. cbn [fst snd] in *. subst w. unfold carried_pi. cbn [N.eqb]. rewrite V.
  unfold g_has in H1. unfold g_get in G1. cbn [g_block] in H1, G1. rewrite H1, G1. destruct (N.testbit (tx2 t) 11); reflexivity.
Qed.
Lemma delivered_name : forall t e (x : Z * Group * N), delivered t e (snd (fst x)) -> snd x = 0 -> ps_segment (snd (fst x), snd x) = name_part t.
Proof.
  intros t [[[f1 f2] f3] f4] [[n g] w] (_ & (H2 & G2 & _) & (H3 & G3 & _) & (H4 & G4 & _) & T & Ty & V) W. cbn [fst snd] in *. subst w.
  unfold ps_segment, carries, name_part. rewrite T, Ty, V. unfold g_has in *. unfold g_get in *. cbn [g_block] in *. rewrite H3, H4, G2, G4. cbn [N.eqb andb].
  destruct (tx2 t / 4096 =? 0); [|reflexivity]. destruct (N.testbit (tx2 t) 11); reflexivity.
Qed.

Lemma name_of_groups : forall env o gs0 gs tes0 tes1 te c out p earlier n0 n1 n2 n3 n4 n5 n6 n7, host_ok env -> host_text env -> o_output_type o = OutJSON ->
  Forall received_group (gs0 ++ gs) -> Forall2 (fun te x => delivered (fst te) (bad4 (snd te)) (snd (fst x)) /\ snd x = 0) (tes0 ++ tes1 ++ [te]) gs ->
  run_groups env o (Channel_new o 0) (gs0 ++ gs) = Ok (c, out) ->
  p <> 0 -> Forall (fun x => tx1 (fst x) = p) (tes0 ++ tes1 ++ [te]) -> (3 <= length tes0)%nat ->
  name_part (fst te) <> [] ->
  flat_map (fun x => name_part (fst x)) (tes1 ++ [te]) = earlier ++ [(0, n0, n1); (1, n2, n3); (2, n4, n5); (3, n6, n7)] ->
  ~ In end_of_text [n0; n1; n2; n3; n4; n5; n6; n7] ->
  exists out' line, out = out' ++ [Some line] /\ says line ["ps"%string] (VStr (rds_text [n0; n1; n2; n3; n4; n5; n6; n7])).
Proof.
  intros env o gs0 gs tes0 tes1 te c out p earlier n0 n1 n2 n3 n4 n5 n6 n7 H Ht OJ Rg D Er P0 P T0 Nl N4 Ne.
  apply Forall2_app_inv_l in D. destruct D as (ga & gb & Da & Db & ->). apply Forall2_app_inv_l in Db. destruct Db as (gb1 & gl & Db & Dl & ->).
  inversion Dl as [|? [[now g] w] ? ? [Dg Wg] Dn]; subst. inversion Dn; subst. cbn [fst snd] in Dg, Wg. subst w.
  assert (Pi : forall l m, Forall (fun x : TxGroup * (N * N * N * N) => tx1 (fst x) = p) l -> Forall2 (fun te x => delivered (fst te) (bad4 (snd te)) (snd (fst x)) /\ snd x = 0) l m ->
    Forall (fun x => carried_pi x = Some p) m).
  { intros l m Fl D. induction D as [|y x l m [D1 W1] D IH]; [constructor|]. apply Forall_cons_iff in Fl. destruct Fl as [F1 F2]. constructor; [rewrite (delivered_pi _ _ _ D1 W1), F1; reflexivity|apply IH, F2]. }
  apply Forall_app in P. destruct P as [Pa Pb].
  pose proof (Pi _ _ Pa Da) as Qa. assert (Dm : Forall2 (fun te x => delivered (fst te) (bad4 (snd te)) (snd (fst x)) /\ snd x = 0) (tes1 ++ [te]) (gb1 ++ [(now, g, 0)])) by (apply Forall2_app; [exact Db|exact Dl]).
  pose proof (Pi _ _ Pb Dm) as Qb.
  assert (Sg : forall l m, Forall2 (fun te x => delivered (fst te) (bad4 (snd te)) (snd (fst x)) /\ snd x = 0) l m -> flat_map ps_segment (groups_of m) = flat_map (fun x : TxGroup * (N * N * N * N) => name_part (fst x)) l).
  { intros l m D. induction D as [|y x l m [D1 W1] D IH]; [reflexivity|]. cbn [groups_of map flat_map]. rewrite (delivered_name _ _ _ D1 W1). f_equal. exact IH. }
  rewrite app_assoc in Er.
  destruct (ps_round_trip env o 0 (gs0 ++ ga) gb1 now g c out p earlier n0 n1 n2 n3 n4 n5 n6 n7 H Ht OJ) as (out' & line & -> & S).
  - rewrite <- app_assoc. exact Rg.
  - exact P0.
  - unfold three, pis. rewrite flat_map_app. assert (X : exists k, flat_map (fun x => match carried_pi x with Some p => [p] | None => [] end) ga = repeat p k /\ (3 <= k)%nat).
    { exists (length ga). split; [clear - Qa; induction Qa as [|x ga Q _ IH]; [reflexivity|]; cbn [flat_map length repeat app]; rewrite Q, IH; reflexivity|]. assert (Le : length tes0 = length ga) by (clear - Da; induction Da; cbn [length]; congruence). lia. }
    destruct X as (k & -> & Hk). exists (flat_map (fun x => match carried_pi x with Some p => [p] | None => [] end) gs0 ++ repeat p (k - 3)).
    rewrite <- app_assoc. f_equal. change [p; p; p] with (repeat p 3). rewrite <- repeat_app. f_equal. lia.
  - eapply Forall_impl; [|exact Qb]. intros x X. right. exact X.
  - eapply Forall_impl; [|exact Qb]. intros x X _. exact X.
  - pose proof (delivered_name _ _ (now, g, 0) Dg eq_refl) as X. cbn [fst snd] in X. rewrite X. exact Nl.
  - rewrite (Sg _ _ Dm). exact N4.
  - exact Ne.
  - exact Er.
  - exists out', line. split; [reflexivity|exact S].
Qed.
Lemma name_on_air : forall env o clock t input pre b ws0 tes0 tes1 te rest p earlier n0 n1 n2 n3 n4 n5 n6 n7, host_ok env -> host_text env -> o_output_type o = OutJSON ->
  let tes := tes0 ++ tes1 ++ [te] in
  bit_characters input = pre ++ [b] ++ flat_map block_bits ws0 ++ flat_map rx_bits tes ++ rest -> (length rest < 25)%nat ->
  acquires (o_use_fec o) pre b -> Forall (fun w => w < 2 ^ 26) ws0 -> Forall (rx_ok (o_use_fec o)) tes ->
  let first := recognise (window (pre ++ [b])) in
  Reception.kept [false] (err_flags (following first) (ws0 ++ all_words tes)) -> expect_after (following first) ws0 = OffA ->
  p <> 0 -> Forall (fun x => tx1 (fst x) = p) tes -> (3 <= length tes0)%nat ->
  name_part (fst te) <> [] ->
  flat_map (fun x => name_part (fst x)) (tes1 ++ [te]) = earlier ++ [(0, n0, n1); (1, n2, n3); (2, n4, n5); (3, n6, n7)] ->
  ~ In end_of_text [n0; n1; n2; n3; n4; n5; n6; n7] ->
  exists items line, processASCIIBitsInput env o clock t input = Ok (EXIT_SUCCESS, items ++ [Line 0 line]) /\
    says line ["ps"%string] (VStr (rds_text [n0; n1; n2; n3; n4; n5; n6; n7])).
Proof.
  intros env o clock t input pre b ws0 tes0 tes1 te rest p earlier n0 n1 n2 n3 n4 n5 n6 n7 H Ht OJ tes I L A F R first K E P0 P T0 Nl N4 Ne.
  destruct (air_groups env o clock t input pre b ws0 tes rest H I L A F R K E) as (gs0 & gs & c & out & Rg & D & Er & Ep).
  destruct (name_of_groups env o gs0 gs tes0 tes1 te c out p earlier n0 n1 n2 n3 n4 n5 n6 n7 H Ht OJ Rg D Er P0 P T0 Nl N4 Ne) as (out' & line & -> & S).
  exists (Main.lines_of 0 out'), line. split; [|exact S]. rewrite Ep, lines_app. reflexivity.
Qed.
