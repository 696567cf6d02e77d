(* Groups read from the lines of a TEF6686 tuner (C120). *)
From Verif.Model Require Import Base Util Float Group BlockSync Options Tables Freq RdsString Rft Json Tmc Station Channel Input Dsp Main.
From Verif.Spec Require Import RdsCode RdsStream Reception Inputs Unicode JsonText Session Identity Frequencies Texts History Received Program Recording OnAir Host Memory Apps Heard TunerText.
From Verif.Proofs Require Import Tac Numerals UpdateP SessionP ShowP ChannelP HistoryP HostP EndP MemoryP InputP MainP HexP RecordP CutP HeardP HeardAllP HexTextP.

(* --- numbers --- *)
Lemma stol16_four : forall a b c d v r, hex_block a b c d = Some v -> hex_value (hd 0 r) = None -> stol16 (a :: b :: c :: d :: r) = Some (Z.of_N v) /\ v < 65536.
Proof.
  intros a b c d v r H Hr. pose proof (hex_block_number _ _ _ _ _ H) as Hn. destruct (stol16_number [a; b; c; d] v ltac:(discriminate) ltac:(cbn; lia) Hn) as [_ B].
  split; [|exact B]. unfold hex_block in H. destruct (hex_value a) as [x|] eqn:Ea; [|discriminate]. destruct (hex_value b) as [xb|] eqn:Eb; [|discriminate].
  destruct (hex_char_plain _ _ Ea) as (S1 & S2 & S3 & _). destruct (hex_char_plain _ _ Eb) as (_ & _ & _ & Y1 & Y2).
  unfold stol16. cbn [skip_space]. rewrite S1. cbv zeta. cbv iota.
  assert (G1 : forall (A : Type) (x y z : A), match a with 43 => x | 45 => y | _ => z end = z).
  { intros A x0 y0 z0. destruct a as [|p]; [reflexivity|]. repeat (destruct p as [p|p|]; try reflexivity); exfalso; congruence. }
  rewrite G1. cbv iota beta.
  match goal with |- context [hex_run ?t 0 0] => assert (G2 : t = a :: b :: c :: d :: r) end.
  { rewrite Y1, Y2. cbn [orb andb]. destruct a as [|p]; [reflexivity|]; repeat (destruct p as [p|p|]; try reflexivity). }
  rewrite G2. assert (G3 : hex_run (a :: b :: c :: d :: r) 0 0 = (v, 4)).
  { cbn [hex_run]. rewrite !hexval_spec, Ea, Eb. destruct (hex_value c) as [xc|]; [|discriminate]. destruct (hex_value d) as [xd|]; [|discriminate].
    assert (Ev : v = x * 4096 + xb * 256 + xc * 16 + xd) by congruence. replace (0 + 1 + 1 + 1 + 1) with 4 by reflexivity.
    destruct r as [|y r]; cbn [hex_run]; [f_equal; lia|]. cbn [hd] in Hr. rewrite hexval_spec, Hr. f_equal. lia. }
  rewrite G3. change (4 =? 0) with false. cbv zeta. cbv iota.
  replace ((-9223372036854775808 <=? Z.of_N v)%Z && (Z.of_N v <=? 9223372036854775807)%Z) with true by lia. reflexivity.
Qed.
Lemma u16_small : forall v, v < 65536 -> z_u16 (Z.of_N v) = v.
Proof. intros v Hv. unfold z_u16. rewrite Z.mod_small by lia. apply N2Z.id. Qed.

(* --- a group of which block 2 has not come yet --- *)
Definition pending (g : Group) : Prop := free_shape g /\ g_has g BLOCK2 = false.
Lemma default_pending : pending (g_disableOffsets Group_default).
Proof. split; [exact default_free|reflexivity]. Qed.
Lemma pending_pi : forall g d, pending g -> pending (g_setBlock g BLOCK1 (plain_block d true)).
Proof.
  intros g d [F H]. split; [apply free_set; [exact F|discriminate]|]. unfold g_has in *. rewrite setBlock_block. exact H.
Qed.
Lemma any_line : forall l g, pending g -> exists g1, (pending g1 /\ forall x, readTEF_loop (l :: x) g = readTEF_loop x g1) \/ (forall x, readTEF_loop (l :: x) g = (g1, x)).
Proof.
  intros l g P. destruct l as [|c r]; [exists g; left; split; [exact P|reflexivity]|].
  destruct (N.eqb_spec c 80) as [->|N1].
  { destruct (stol16 r) as [v|] eqn:E; [exists (g_setBlock g BLOCK1 (plain_block (z_u16 v) true))|exists g]; left; (split; [try apply pending_pi; exact P|]); intros x; cbn [readTEF_loop]; rewrite E; reflexivity. }
  destruct (N.eqb_spec c 82) as [->|N2].
  { destruct (15 <=? N.of_nat (length (82 :: r))) eqn:L.
    - destruct (parse_R (82 :: r) g) as [g'|] eqn:E; [exists g'|exists g]; right; intros x; cbn [readTEF_loop]; rewrite L, E; reflexivity.
    - exists g. left. split; [exact P|]. intros x. cbn [readTEF_loop]. rewrite L. reflexivity. }
  exists g. left. split; [exact P|]. intros x. cbn [readTEF_loop]. destruct c as [|p]; [reflexivity|]. do 7 (destruct p as [p|p|]; try reflexivity; try congruence).
Qed.
Lemma others_skipped : forall more g rest, Forall other_line more -> readTEF_loop (more ++ rest) g = readTEF_loop rest g.
Proof.
  induction more as [|l more IH]; intros g rest F; [reflexivity|]. cbn [app readTEF_loop]. destruct (Forall_inv F) as (N1 & N2 & _). specialize (IH g rest (Forall_inv_tail F)).
  destruct l as [|c r]; [exact IH|]. cbn [hd] in N1, N2. destruct c as [|p]; [exact IH|]. do 7 (destruct p as [p|p|]; try exact IH; try congruence).
Qed.
Lemma any_lines : forall la g, pending g -> exists gs g', pending g' /\ forall lb fuel, lb <> [] -> (length la + length lb <= S fuel)%nat ->
  exists fuel', (length lb <= S fuel')%nat /\ tef_from fuel g (la ++ lb) = gs ++ tef_from fuel' g' lb.
Proof.
  induction la as [|l la IH]; intros g P; [exists [], g; split; [exact P|]; intros lb fuel _ L; exists fuel; split; [exact L|reflexivity]|].
  destruct (any_line l g P) as [g1 [[P1 C]|C]].
  - destruct (IH g1 P1) as (gs & g' & P' & G). exists gs, g'. split; [exact P'|]. intros lb fuel Nb L. cbn [length app] in *. destruct (G lb fuel Nb ltac:(lia)) as (f' & L' & E). exists f'. split; [exact L'|].
    rewrite <- E. unfold tef_from. rewrite C. reflexivity.
  - destruct (IH (g_disableOffsets Group_default) default_pending) as (gs & g' & P' & G). exists (g1 :: gs), g'. split; [exact P'|]. intros lb fuel Nb L. cbn [length app] in *.
    destruct fuel as [|f]; [destruct lb; [contradiction|cbn [length] in L; lia]|].
    destruct (G lb f Nb ltac:(lia)) as (f' & L' & E). exists f'. split; [exact L'|]. rewrite <- E. unfold tef_from at 1. rewrite C. cbn [tef_groups].
    destruct (la ++ lb) as [|x r] eqn:X; [destruct la; [destruct lb; [contradiction|discriminate]|discriminate]|]. reflexivity.
Qed.

(* --- the lines of a group --- *)
Definition has_four (t : TxGroup) (g : Group) : Prop := free_shape g /\
  received g BLOCK1 = Some (tx1 t) /\ received g BLOCK2 = Some (tx2 t) /\ received g BLOCK3 = Some (tx3 t) /\ received g BLOCK4 = Some (tx4 t).
Lemma received_set : forall g n m d, received (g_setBlock g n (plain_block d true)) m = if blockNumber_eqb n m then Some d else received g m.
Proof. intros g n m d. unfold received. rewrite setBlock_block. destruct (blockNumber_eqb n m); reflexivity. Qed.
Lemma read_pair : forall t lines g rest, pending g -> tuner_lines t lines -> exists g1, readTEF_loop (lines ++ rest) g = (g1, rest) /\ has_four t g1.
Proof.
  intros t lines g rest P (more1 & d1 & d2 & d3 & d4 & r1 & more2 & c1 & c2 & c3 & c4 & c5 & c6 & c7 & c8 & c9 & c10 & c11 & c12 & r2 & -> & B1 & B2 & B3 & B4 & Hr & _ & _ & F1 & F2).
  destruct (stol16_four _ _ _ _ _ r1 B1 Hr) as [S1 U1].
  apply hex_block_number in B2, B3, B4. destruct (stol16_number [c1; c2; c3; c4] _ ltac:(discriminate) ltac:(cbn; lia) B2) as [S2 U2]. destruct (stol16_number [c5; c6; c7; c8] _ ltac:(discriminate) ltac:(cbn; lia) B3) as [S3 U3]. destruct (stol16_number [c9; c10; c11; c12] _ ltac:(discriminate) ltac:(cbn; lia) B4) as [S4 U4].
  rewrite <- !app_assoc, others_skipped by exact F1. cbn [app readTEF_loop]. rewrite S1, u16_small by exact U1. rewrite others_skipped by exact F2. cbn [app readTEF_loop].
  pose proof (pending_pi g (tx1 t) P) as P1. set (line := 82 :: c1 :: _). replace (15 <=? N.of_nat (length line)) with true by (subst line; cbn [length]; lia).
  unfold parse_R. change (firstn 4 (skipn 1 line)) with [c1; c2; c3; c4]. change (firstn 4 (skipn 5 line)) with [c5; c6; c7; c8]. change (firstn 4 (skipn 9 line)) with [c9; c10; c11; c12].
  change (stol16 (firstn 2 (skipn 13 line))) with (Some 0%Z). rewrite S2, S3, S4, !u16_small by assumption.
  change (N.land (N.shiftr (z_u32 0) 4) 255 =? 0) with true. change (N.land (N.shiftr (z_u32 0) 2) 255 =? 0) with true. change (N.land (N.shiftr (z_u32 0) 0) 255 =? 0) with true.
  eexists. split; [reflexivity|]. split.
  - destruct P1 as [Fr H2]. apply free_set; [|discriminate]. apply free_set; [|discriminate]. apply free_set; [exact Fr|intros _; exact H2].
  - rewrite !received_set. repeat split.
Qed.
Lemma read_pairs : forall ts lines, Forall2 tuner_lines ts lines -> forall g rest fuel, pending g -> rest <> [] -> (length (concat lines) + length rest <= S fuel)%nat ->
  exists gs g' fuel', pending g' /\ tef_from fuel g (concat lines ++ rest) = gs ++ tef_from fuel' g' rest /\ Forall2 has_four ts gs.
Proof.
  intros ts lines F. induction F as [|t line ts lines W F IH]; intros g rest fuel P Nr L; [exists [], g, fuel; split; [exact P|split; [reflexivity|constructor]]|].
  cbn [concat] in *. rewrite app_length in L. destruct (read_pair t line g (concat lines ++ rest) P W) as (g1 & E & Hg).
  assert (Nl : (1 <= length line)%nat) by (destruct W as (more1 & d1 & d2 & d3 & d4 & r1 & more2 & c1 & c2 & c3 & c4 & c5 & c6 & c7 & c8 & c9 & c10 & c11 & c12 & r2 & -> & _); rewrite !app_length; cbn [length]; lia).
  assert (Nr' : (1 <= length rest)%nat) by (destruct rest; [contradiction|cbn [length]; lia]). destruct fuel as [|f]; [lia|].
  destruct (IH (g_disableOffsets Group_default) rest f default_pending Nr ltac:(lia)) as (gs & g' & f' & P' & Eg & Fg).
  exists (g1 :: gs), g', f'. split; [exact P'|]. split; [|constructor; assumption]. unfold tef_from at 1. rewrite <- app_assoc, E. cbn [tef_groups app]. rewrite <- Eg.
  destruct (concat lines ++ rest) as [|x r] eqn:X; [apply app_eq_nil in X; destruct X; contradiction|]. reflexivity.
Qed.
Lemma split_file : forall lines after, Forall (fun l : bytes => ~ In 10 l) lines -> split_lines (text_file lines ++ after) = lines ++ split_lines after.
Proof.
  induction lines as [|l lines IH]; intros after F; [reflexivity|]. unfold text_file in *. cbn [map concat app]. rewrite <- !app_assoc. cbn [app].
  rewrite split_line by exact (Forall_inv F). f_equal. exact (IH after (Forall_inv_tail F)).
Qed.
Lemma hex_digit_no_end : forall a b c d v, hex_block a b c d = Some v -> a <> 10 /\ b <> 10 /\ c <> 10 /\ d <> 10.
Proof.
  intros a b c d v H. unfold hex_block in H. repeat split; intros ->; change (hex_value 10) with (@None N) in H; repeat (destruct (hex_value _); try discriminate).
Qed.
Lemma pair_no_end : forall t lines, tuner_lines t lines -> Forall (fun l : bytes => ~ In 10 l) lines.
Proof.
  intros t lines (more1 & d1 & d2 & d3 & d4 & r1 & more2 & c1 & c2 & c3 & c4 & c5 & c6 & c7 & c8 & c9 & c10 & c11 & c12 & r2 & -> & B1 & B2 & B3 & B4 & _ & N1 & N2 & F1 & F2).
  apply hex_digit_no_end in B1, B2, B3, B4. repeat (apply Forall_app; split).
  - eapply Forall_impl; [|exact F1]. intros l (_ & _ & X). exact X.
  - constructor; [|constructor]. cbn [In]. intuition congruence.
  - eapply Forall_impl; [|exact F2]. intros l (_ & _ & X). exact X.
  - constructor; [|constructor]. cbn [In]. intuition congruence.
Qed.

(* --- the groups of an input --- *)
Definition at_zero (x : Z * Group) : Z * Group * N := (x, 0).
Lemma four_given : forall ts gs clock, Forall sixteen_bit gs -> Forall2 has_four ts gs -> Forall2 given ts (map at_zero (timed clock gs)).
Proof.
  intros ts gs clock S D. revert clock S. induction D as [|t g ts gs [Fr D1] D IH]; intros clock S; [constructor|]. cbn [timed map]. constructor; [|apply IH; exact (Forall_inv_tail S)].
  unfold at_zero. change (given t (clock O, g, 0)).
  assert (G : given t (clock O, g_setDataStream g 0, 0)) by (apply has_given; [exact Fr|exact (Forall_inv S)|split; [reflexivity|exact D1]]). exact G.
Qed.
Lemma words_received : forall gs clock, Forall plain_group gs -> Forall sixteen_bit gs -> Forall received_group (map at_zero (timed clock gs)).
Proof.
  intros gs. induction gs as [|g gs IH]; intros clock F S; [constructor|]. cbn [timed map]. constructor; [|apply IH; [exact (Forall_inv_tail F)|exact (Forall_inv_tail S)]].
  unfold at_zero, received_group. pose proof (Forall_inv S) as X. destruct (Forall_inv F) as (B & _). split; [exact B|]. repeat split; [exact (X BLOCK1)|exact (X BLOCK2)|exact (X BLOCK3)|exact (X BLOCK4)].
Qed.
Lemma tuner_groups : forall env o clock input p ts, host_ok env -> in_tuner_text input p ts -> exists gs0 gb c out c' more,
  read_groups (tuner_found input) p ts gs0 gb /\ run_groups env o (Channel_new o 0) (gs0 ++ gb) = Ok (c, out) /\
  run_groups env o c more = Ok c' /\ processTEFInput env o clock input = Ok (EXIT_SUCCESS, Main.lines_of 0 (out ++ snd c')).
Proof.
  intros env o clock input p ts H (before & ts0 & lines & after & Ei & Bf & W & P & L3).
  assert (Sp : exists la, split_lines input = la ++ concat lines ++ split_lines after).
  { assert (X : split_lines (text_file (concat lines) ++ after) = concat lines ++ split_lines after).
    { apply split_file. clear - W. induction W as [|t l q ls W1 W IH]; [constructor|]. cbn [concat]. apply Forall_app. split; [exact (pair_no_end _ _ W1)|exact IH]. }
    subst input. destruct Bf as [->|[b ->]]; [exists []; exact X|]. rewrite <- app_assoc. destruct (lines_cut b (text_file (concat lines) ++ after)) as (la & E & _). exists la. cbn [app]. rewrite E, X. reflexivity. }
  destruct Sp as [la Sp]. clear Ei.
  assert (Un : exists f, length (split_lines input) = S f /\ read_tef_input input = tef_from f (g_disableOffsets Group_default) (split_lines input)).
  { unfold read_tef_input. pose proof (split_nonempty input) as N0. destruct (split_lines input) as [|l r]; [contradiction|]. exists (length r). split; reflexivity. }
  destruct Un as (f0 & L0 & G0). destruct (any_lines la _ default_pending) as (g0 & gp & Pp & G).
  assert (Nb : concat lines ++ split_lines after <> []) by (intros X; apply app_eq_nil in X; exact (split_nonempty after (proj2 X))).
  destruct (G (concat lines ++ split_lines after) f0 Nb ltac:(rewrite <- L0, Sp, !app_length; lia)) as (f1 & L1 & G1). rewrite app_length in L1.
  destruct (read_pairs _ _ W gp (split_lines after) f1 Pp (split_nonempty after) L1) as (g1 & gq & f2 & _ & G2 & Fg).
  rewrite G2, <- Sp, <- G0 in G1. remember (tef_from f2 gq (split_lines after)) as g2 eqn:E2. clear E2.
  assert (Pl : Forall plain_group (g0 ++ g1 ++ g2)) by (rewrite <- G1; apply plain_tef).
  assert (Sx : Forall sixteen_bit (g0 ++ g1 ++ g2)) by (rewrite <- G1; apply tef_words).
  destruct (tef_runs env o clock (read_tef_input input) H (plain_tef _ _)) as (c & out & R).
  unfold processTEFInput. rewrite R. cbn [bind]. rewrite G1 in R. change (fun x => (x, 0)) with at_zero in R.
  apply Forall2_app_inv_l in Fg. destruct Fg as (ga & gb & Fa & Fb & ->). apply Forall_app in P. destruct P as [Pa Pb].
  apply Forall_app in Pl. destruct Pl as [Pl0 Pl1]. apply Forall_app in Pl1. destruct Pl1 as [Pl1 Pl2]. apply Forall_app in Pl1. destruct Pl1 as [Pla Plb].
  apply Forall_app in Sx. destruct Sx as [Sx0 Sx1]. apply Forall_app in Sx1. destruct Sx1 as [Sx1 Sx2]. apply Forall_app in Sx1. destruct Sx1 as [Sxa Sxb].
  assert (I0 : incl g0 (read_tef_input input)) by (rewrite G1; intros x Hx; apply in_or_app; left; exact Hx).
  assert (Ia : incl ga (read_tef_input input)) by (rewrite G1; intros x Hx; apply in_or_app; right; apply in_or_app; left; apply in_or_app; left; exact Hx).
  assert (Ib : incl gb (read_tef_input input)) by (rewrite G1; intros x Hx; apply in_or_app; right; apply in_or_app; left; apply in_or_app; right; exact Hx).
  rewrite timed_app, timed_app, timed_app, !map_app in R.
  match type of R with run_groups _ _ _ (_ ++ (map at_zero (timed ?ka ga) ++ map at_zero (timed ?kb gb)) ++ ?y) = _ =>
    remember ka as k1 eqn:Ek1; remember kb as k2 eqn:Ek2; remember y as h2 eqn:Eh2 end. clear Ek1 Ek2 Eh2.
  pose proof (words_received g0 clock Pl0 Sx0) as R0. pose proof (timed_among (fun _ => 0) _ g0 clock I0) as J0. change (map _ (timed clock g0)) with (map at_zero (timed clock g0)) in J0. remember (map at_zero (timed clock g0)) as h0 eqn:Eh0.
  pose proof (four_given ts0 ga k1 Sxa Fa) as Ga. pose proof (words_received ga k1 Pla Sxa) as Ra. pose proof (timed_among (fun _ => 0) _ ga k1 Ia) as Ja. change (map _ (timed k1 ga)) with (map at_zero (timed k1 ga)) in Ja. remember (map at_zero (timed k1 ga)) as ha eqn:Eha.
  pose proof (four_given ts gb k2 Sxb Fb) as Gb. pose proof (words_received gb k2 Plb Sxb) as Rb. pose proof (timed_among (fun _ => 0) _ gb k2 Ib) as Jb. change (map _ (timed k2 gb)) with (map at_zero (timed k2 gb)) in Jb. remember (map at_zero (timed k2 gb)) as hb eqn:Ehb.
  assert (R' : run_groups env o (Channel_new o 0) (((h0 ++ ha) ++ hb) ++ h2) = Ok (c, out)) by (rewrite <- R, <- !app_assoc; reflexivity). clear R. rename R' into R.
  rewrite run_groups_app in R. destruct (run_groups env o (Channel_new o 0) ((h0 ++ ha) ++ hb)) as [[c1 o1]| |] eqn:R1; cbn [bind] in R; try discriminate.
  destruct (run_groups env o c1 h2) as [[c2 o2]| |] eqn:R2; cbn [bind] in R; try discriminate.
  exists (h0 ++ ha), hb, c1, o1, (c2, o2), h2. split; [|split; [exact R1|split; [exact R2|]]].
  - split; [repeat (apply Forall_app; split); assumption|].
    split; [apply three_handed; [exact (given_pis p ts0 ha Pa Ga)|]|split; [exact (given_pis p ts hb Pb Gb)|split; [exact Gb|repeat (apply Forall_app; split); assumption]]].
    assert (Le : length ts0 = length ha) by (clear - Ga; induction Ga; cbn [length]; congruence). lia.
  - cbn [snd]. assert (out = o1 ++ o2) as -> by congruence. reflexivity.
Qed.

Lemma tuner_told : forall env o clock input p ts, host_ok env -> host_text env -> o_output_type o = OutJSON -> p <> 0 -> in_tuner_text input p ts ->
  exists items lines more, processTEFInput env o clock input = Ok (EXIT_SUCCESS, items ++ map (Line 0) lines ++ more) /\ Forall2 (tells (o_rbds o) p) ts lines.
Proof.
  intros env o clock input p ts H HT OJ P0 Hx. destruct (tuner_groups env o clock input p ts H Hx) as (gs0 & gb & c & out & c' & more & (Rg & T3 & Pi & Gv & Al) & Er & _ & Ep).
  destruct (all_told env o p H HT OJ P0 gs0 gb ts c out Rg T3 Pi Gv Er) as (out0 & lines & -> & Fl).
  exists (Main.lines_of 0 out0), lines, (Main.lines_of 0 (snd c')). split; [|exact Fl]. rewrite Ep, !lines_app, lines_all, <- app_assoc. reflexivity.
Qed.
Lemma tuner_in_hex : forall env o clock input p ts, host_ok env -> o_output_type o = OutHex -> o_timestamp o = false -> in_tuner_text input p ts ->
  exists items lines more, processTEFInput env o clock input = Ok (EXIT_SUCCESS, items ++ map (Line 0) lines ++ more) /\ Forall2 Heard.hex_line ts lines.
Proof.
  intros env o clock input p ts H OH OT Hx. destruct (tuner_groups env o clock input p ts H Hx) as (gs0 & gb & c & out & c' & more & (Rg & T3 & Pi & Gv & Al) & Er & _ & Ep).
  rewrite run_groups_app in Er. destruct (run_groups env o (Channel_new o 0) gs0) as [[c1 out1]| |]; cbn [bind] in Er; try discriminate.
  destruct (run_groups env o c1 gb) as [[c2 out2]| |] eqn:E2; cbn [bind] in Er; try discriminate. assert (Eo : out = out1 ++ out2) by congruence. subst out.
  apply Forall_app in Rg. destruct Rg as [_ Rg]. destruct (all_in_hex env o OH OT gb ts c1 c2 out2 Rg Gv E2) as (lines & -> & Fl).
  exists (Main.lines_of 0 out1), lines, (Main.lines_of 0 (snd c')). split; [|exact Fl]. rewrite Ep, !lines_app, lines_all, <- app_assoc. reflexivity.
Qed.
Lemma tuner_last : forall env o clock input p ts (Q : bytes -> Prop), host_ok env -> in_tuner_text input p ts ->
  (forall gs0 gb c out, read_groups (tuner_found input) p ts gs0 gb -> run_groups env o (Channel_new o 0) (gs0 ++ gb) = Ok (c, out) -> exists out' line, out = out' ++ [Some line] /\ Q line) ->
  exists items line more, processTEFInput env o clock input = Ok (EXIT_SUCCESS, items ++ [Line 0 line] ++ more) /\ Q line.
Proof.
  intros env o clock input p ts Q H Hx X. destruct (tuner_groups env o clock input p ts H Hx) as (gs0 & gb & c & out & c' & more & S & Er & _ & Ep).
  destruct (X gs0 gb c out S Er) as (out' & line & -> & Ql). exists (Main.lines_of 0 out'), line, (Main.lines_of 0 (snd c')).
  split; [|exact Ql]. rewrite Ep, !lines_app. cbn. rewrite <- app_assoc. reflexivity.
Qed.
