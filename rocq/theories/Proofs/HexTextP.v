(* Groups read from lines of hexadecimal text (C119). *)
From Verif.Model Require Import Base Util Float Group BlockSync Options Tables Freq RdsString Rft Json Tmc Station Channel Input Dsp Main.
From Verif.Spec Require Import RdsCode RdsStream Reception Inputs Unicode JsonText Session Identity Frequencies Texts History Received Program Recording OnAir Host Memory Apps Heard HexText.
From Verif.Proofs Require Import Tac Numerals UpdateP SessionP ShowP ChannelP HistoryP HostP EndP MemoryP InputP MainP RecordP CutP HeardP HeardAllP.

Definition has_all (t : TxGroup) (g : Group) : Prop :=
  g_data_stream g = 0 /\ received g BLOCK1 = Some (tx1 t) /\ received g BLOCK2 = Some (tx2 t) /\ received g BLOCK3 = Some (tx3 t) /\ received g BLOCK4 = Some (tx4 t).

Lemma read_written : forall o ts lines, Forall2 written_as ts lines -> forall clock rest fuel, rest <> [] -> (length lines + length rest <= fuel)%nat ->
  exists gs fuel' clock', hex_groups fuel o clock (lines ++ rest) = gs ++ hex_groups fuel' o clock' rest /\ Forall2 has_all ts gs.
Proof.
  intros o ts lines F. induction F as [|t line ts lines W F IH]; intros clock rest fuel Nr L; [exists [], fuel, clock; split; [reflexivity|constructor]|].
  cbn [length app] in *. destruct fuel as [|f]; [lia|].
  destruct W as (c1 & c2 & c3 & c4 & c5 & c6 & c7 & c8 & c9 & c10 & c11 & c12 & c13 & c14 & c15 & c16 & r & Nb & B1 & B2 & B3 & B4 & Hd & _).
  destruct (InputP.hex_line o (clock O) 0 line (lines ++ rest) _ _ _ _ _ _ _ _ _ _ _ _ _ _ _ _ r ltac:(lia) (fun _ => Hd) Nb) as (g & E & Sg & R1 & R2 & R3 & R4).
  change (marked 0 line) with line in E. destruct (IH (fun n => clock (S n)) rest f Nr ltac:(lia)) as (gs & f' & ck & Eg & Fg).
  exists (g :: gs), f', ck. cbn [hex_groups]. rewrite E, Eg. split; [reflexivity|]. constructor; [|exact Fg].
  unfold has_all. rewrite R1, R2, R3, R4. repeat split; assumption.
Qed.

Lemma type_code : forall d, d < 2 ^ 16 -> GroupType_of (getBits 5 d 11) = mkGroupType (d / 4096) (if N.testbit d 11 then VB else VA).
Proof.
  intros d L. rewrite getBits_arith. unfold GroupType_of. f_equal.
  - change 0xF with (N.ones 4). rewrite N.land_ones, N.shiftr_div_pow2. change (2 ^ 1) with 2. change (2 ^ 4) with 16. change (2 ^ 5) with 32. change (2 ^ 11) with 2048. lia.
  - rewrite N.testbit_eqb. change 1 with (N.ones 1) at 1. rewrite N.land_ones. change (2 ^ 1) with 2. change (2 ^ 5) with 32. change (2 ^ 11) with 2048.
    assert (X : ((d / 2048) mod 32) mod 2 = (d / 2048) mod 2) by lia. rewrite X. assert (Y : (d / 2048) mod 2 = 0 \/ (d / 2048) mod 2 = 1) by lia. destruct Y as [-> | ->]; reflexivity.
Qed.
Lemma has_given : forall t g now, free_shape g -> sixteen_bit g -> has_all t g -> given t (now, g, 0).
Proof.
  intros t g now (Sh & _ & Ty & _) Sx (_ & R1 & R2 & R3 & R4). pose proof (Sx BLOCK2) as X2.
  unfold received in R1, R2, R3, R4. cbn [g_block] in R1, R2, R3, R4.
  destruct (blk_is_received (g_b1 g)) eqn:H1; [|discriminate]. destruct (blk_is_received (g_b2 g)) eqn:H2; [|discriminate].
  destruct (blk_is_received (g_b3 g)) eqn:H3; [|discriminate]. destruct (blk_is_received (g_b4 g)) eqn:H4; [|discriminate].
  destruct Sh as (_ & _ & _ & _ & Tp). assert (Ht : g_has g BLOCK2 = true) by exact H2. specialize (Tp Ht). rewrite type_code in Tp by exact X2.
  assert (G2 : g_get g BLOCK2 = tx2 t) by (unfold g_get; cbn [g_block]; congruence). rewrite G2 in Tp.
  exists ((if blk_had_errors (g_b1 g) then 1 else 0), (if blk_had_errors (g_b2 g) then 1 else 0), (if blk_had_errors (g_b3 g) then 1 else 0), (if blk_had_errors (g_b4 g) then 1 else 0)).
  split; [|reflexivity]. cbn [fst snd bad4]. unfold delivered, g_has, g_get. cbn [g_block]. rewrite H1, H2, H3, H4, Tp. cbn [gt_number gt_version].
  repeat split; try congruence; try (destruct (blk_had_errors _); reflexivity).
Qed.

Definition read_as (x : Z * Group) : Z * Group * N := (x, g_data_stream (snd x)).
Lemma given_timed : forall ts gs clock, Forall free_shape gs -> Forall sixteen_bit gs -> Forall2 has_all ts gs -> Forall2 given ts (map read_as (timed clock gs)).
Proof.
  intros ts gs clock F S D. revert clock F S. induction D as [|t g ts gs D1 D IH]; intros clock F S; [constructor|]. cbn [timed map]. constructor.
  - unfold read_as. cbn [snd]. rewrite (proj1 D1). apply has_given; [exact (Forall_inv F)|exact (Forall_inv S)|exact D1].
  - apply IH; [exact (Forall_inv_tail F)|exact (Forall_inv_tail S)].
Qed.
Lemma received_timed : forall gs clock, Forall free_shape gs -> Forall sixteen_bit gs -> Forall received_group (map read_as (timed clock gs)).
Proof.
  intros gs. induction gs as [|g gs IH]; intros clock F S; [constructor|]. cbn [timed map]. constructor; [|apply IH; [exact (Forall_inv_tail F)|exact (Forall_inv_tail S)]].
  unfold read_as, received_group. pose proof (Forall_inv S) as X. destruct (Forall_inv F) as ((B & _) & _). split; [exact B|]. repeat split; [exact (X BLOCK1)|exact (X BLOCK2)|exact (X BLOCK3)|exact (X BLOCK4)].
Qed.
Lemma given_pis : forall p ts gb, Forall (fun t => tx1 t = p) ts -> Forall2 given ts gb -> Forall (fun x => carried_pi x = Some p) gb.
Proof.
  intros p ts gb F D. induction D as [|t x ts gb [e D1] D IH]; [constructor|]. constructor; [|apply IH, (Forall_inv_tail F)].
  assert (X : Forall (fun x => carried_pi x = Some p) [x]) by (apply (handed_pi p [(t, e)] [x]); constructor; [exact (Forall_inv F)|constructor|exact D1|constructor]).
  exact (Forall_inv X).
Qed.

Lemma timed_among : forall (w : Group -> N) all gs clock, incl gs all ->
  Forall (fun x => In (snd (fst x), snd x) (map (fun g => (g, w g)) all)) (map (fun x : Z * Group => (x, w (snd x))) (timed clock gs)).
Proof.
  intros w all gs. induction gs as [|g gs IH]; intros clock I; [constructor|]. cbn [timed map]. constructor; [|apply IH; intros x Hx; apply I; right; exact Hx].
  cbn [fst snd]. apply in_map_iff. exists g. split; [reflexivity|apply I; left; reflexivity].
Qed.
(* What is known of the groups read *)
Definition read_groups (found : list (Group * N)) (p : N) (ts : list TxGroup) (gs0 gb : list (Z * Group * N)) : Prop :=
  Forall received_group (gs0 ++ gb) /\ three p (pis gs0) /\ Forall (fun x => carried_pi x = Some p) gb /\ Forall2 given ts gb /\
  Forall (fun x => In (snd (fst x), snd x) found) (gs0 ++ gb).
Lemma hex_text_groups : forall env o clock input p ts, host_ok env -> in_hex_text input p ts -> exists gs0 gb c out c' more,
  read_groups (hex_found o clock input) p ts gs0 gb /\ run_groups env o (Channel_new o 0) (gs0 ++ gb) = Ok (c, out) /\
  run_groups env o c more = Ok c' /\ processHexInput env o clock input = Ok (EXIT_SUCCESS, Main.lines_of 0 (out ++ snd c')).
Proof.
  intros env o clock input p ts H (before & ts0 & lines & after & Ei & Bf & W & P & L3). subst input.
  assert (Sp : exists la, split_lines (before ++ text_file lines ++ after) = la ++ lines ++ split_lines after).
  { assert (X : split_lines (text_file lines ++ after) = lines ++ split_lines after).
    { clear - W. revert W. generalize (ts0 ++ ts). induction lines as [|l lines IH]; intros q W; [reflexivity|]. inversion W as [|t ? q' ? W1 W2]; subst. cbn [text_file map concat app].
      rewrite <- !app_assoc. cbn [app]. rewrite split_line; [f_equal; exact (IH _ W2)|]. destruct W1 as (c1 & c2 & c3 & c4 & c5 & c6 & c7 & c8 & c9 & c10 & c11 & c12 & c13 & c14 & c15 & c16 & r & _ & _ & _ & _ & _ & _ & N). exact N. }
    destruct Bf as [->|[b ->]]; [exists []; exact X|]. rewrite <- app_assoc. destruct (lines_cut b (text_file lines ++ after)) as (la & E & _). exists la. cbn [app]. rewrite E, X. reflexivity. }
  destruct Sp as [la Sp]. destruct (hex_cut_groups o la clock) as [g0 G].
  assert (Nb : lines ++ split_lines after <> []) by (intros X; apply app_eq_nil in X; exact (split_nonempty after (proj2 X))).
  destruct (G (lines ++ split_lines after) (length (split_lines (before ++ text_file lines ++ after))) Nb ltac:(rewrite Sp, !app_length; lia)) as (f1 & L1 & G1). rewrite app_length in L1.
  destruct (read_written o _ _ W (fun n => clock (length g0 + n)%nat) (split_lines after) f1 (split_nonempty after) L1) as (g1 & f2 & ck & G2 & Fg).
  rewrite G2, <- Sp in G1. remember (hex_groups f2 o ck (split_lines after)) as g2 eqn:E2. clear E2.
  fold (read_hex_input o clock (before ++ text_file lines ++ after)) in G1.
  assert (Fr : Forall free_shape (g0 ++ g1 ++ g2)) by (rewrite <- G1; apply hex_free).
  assert (Sx : Forall sixteen_bit (g0 ++ g1 ++ g2)) by (rewrite <- G1; apply hex_words).
  destruct (hex_runs env o clock (read_hex_input o clock (before ++ text_file lines ++ after)) H (plain_hex _ _ _ _)) as (c & out & R).
  unfold processHexInput. cbv zeta. rewrite R. cbn [bind]. rewrite G1 in R. change (fun x => (x, g_data_stream (snd x))) with read_as in R.
  apply Forall2_app_inv_l in Fg. destruct Fg as (ga & gb & Fa & Fb & ->). apply Forall_app in P. destruct P as [Pa Pb].
  apply Forall_app in Fr. destruct Fr as [Fr0 Fr1]. apply Forall_app in Fr1. destruct Fr1 as [Fr1 Fr2]. apply Forall_app in Fr1. destruct Fr1 as [Fra Frb].
  apply Forall_app in Sx. destruct Sx as [Sx0 Sx1]. apply Forall_app in Sx1. destruct Sx1 as [Sx1 Sx2]. apply Forall_app in Sx1. destruct Sx1 as [Sxa Sxb].
  assert (I0 : incl g0 (read_hex_input o clock (before ++ text_file lines ++ after))) by (rewrite G1; intros x Hx; apply in_or_app; left; exact Hx).
  assert (Ia : incl ga (read_hex_input o clock (before ++ text_file lines ++ after))) by (rewrite G1; intros x Hx; apply in_or_app; right; apply in_or_app; left; apply in_or_app; left; exact Hx).
  assert (Ib : incl gb (read_hex_input o clock (before ++ text_file lines ++ after))) by (rewrite G1; intros x Hx; apply in_or_app; right; apply in_or_app; left; apply in_or_app; right; exact Hx).
  rewrite timed_app, timed_app, timed_app, !map_app in R.
  match type of R with run_groups _ _ _ (_ ++ (map read_as (timed ?ka ga) ++ map read_as (timed ?kb gb)) ++ ?y) = _ =>
    remember ka as k1 eqn:Ek1; remember kb as k2 eqn:Ek2; remember y as h2 eqn:Eh2 end. clear Ek1 Ek2 Eh2.
  pose proof (timed_among g_data_stream _ g0 clock I0) as J0. change (map _ (timed clock g0)) with (map read_as (timed clock g0)) in J0. remember (map read_as (timed clock g0)) as h0 eqn:Eh0.
  pose proof (given_timed ts0 ga k1 Fra Sxa Fa) as Ga. pose proof (received_timed ga k1 Fra Sxa) as Ra. pose proof (timed_among g_data_stream _ ga k1 Ia) as Ja. change (map _ (timed k1 ga)) with (map read_as (timed k1 ga)) in Ja. remember (map read_as (timed k1 ga)) as ha eqn:Eha.
  pose proof (given_timed ts gb k2 Frb Sxb Fb) as Gb. pose proof (received_timed gb k2 Frb Sxb) as Rb. pose proof (timed_among g_data_stream _ gb k2 Ib) as Jb. change (map _ (timed k2 gb)) with (map read_as (timed k2 gb)) in Jb. remember (map read_as (timed k2 gb)) as hb eqn:Ehb.
  assert (R' : run_groups env o (Channel_new o 0) (((h0 ++ ha) ++ hb) ++ h2) = Ok (c, out)) by (rewrite <- R, <- !app_assoc; reflexivity). clear R. rename R' into R.
  rewrite run_groups_app in R. destruct (run_groups env o (Channel_new o 0) ((h0 ++ ha) ++ hb)) as [[c1 o1]| |] eqn:R1; cbn [bind] in R; try discriminate.
  destruct (run_groups env o c1 h2) as [[c2 o2]| |] eqn:R2; cbn [bind] in R; try discriminate.
  exists (h0 ++ ha), hb, c1, o1, (c2, o2), h2. split; [|split; [exact R1|split; [exact R2|]]].
  - pose proof (received_timed g0 clock Fr0 Sx0) as R0. rewrite <- Eh0 in R0. split; [repeat (apply Forall_app; split); assumption|].
    split; [apply three_handed; [exact (given_pis p ts0 ha Pa Ga)|]|split; [exact (given_pis p ts hb Pb Gb)|split; [exact Gb|repeat (apply Forall_app; split); assumption]]].
    assert (Le : length ts0 = length ha) by (clear - Ga; induction Ga; cbn [length]; congruence). lia.
  - cbn [snd]. assert (out = o1 ++ o2) as -> by congruence. reflexivity.
Qed.

Lemma lines_all : forall lines, Main.lines_of 0 (map Some lines) = map (Line 0) lines.
Proof. induction lines as [|x l IH]; [reflexivity|]. cbn [map]. unfold Main.lines_of in *. cbn [flat_map app]. rewrite IH. reflexivity. Qed.
Lemma hex_text_told : forall env o clock input p ts, host_ok env -> host_text env -> o_output_type o = OutJSON -> p <> 0 -> in_hex_text input p ts ->
  exists items lines more, processHexInput env o clock input = Ok (EXIT_SUCCESS, items ++ map (Line 0) lines ++ more) /\ Forall2 (tells (o_rbds o) p) ts lines.
Proof.
  intros env o clock input p ts H HT OJ P0 Hx. destruct (hex_text_groups env o clock input p ts H Hx) as (gs0 & gb & c & out & c' & more & (Rg & T3 & Pi & Gv & Al) & Er & _ & Ep).
  destruct (all_told env o p H HT OJ P0 gs0 gb ts c out Rg T3 Pi Gv Er) as (out0 & lines & -> & Fl).
  exists (Main.lines_of 0 out0), lines, (Main.lines_of 0 (snd c')). split; [|exact Fl]. rewrite Ep, !lines_app, lines_all, <- app_assoc. reflexivity.
Qed.
Lemma hex_text_in_hex : forall env o clock input p ts, host_ok env -> o_output_type o = OutHex -> o_timestamp o = false -> in_hex_text input p ts ->
  exists items lines more, processHexInput env o clock input = Ok (EXIT_SUCCESS, items ++ map (Line 0) lines ++ more) /\ Forall2 Heard.hex_line ts lines.
Proof.
  intros env o clock input p ts H OH OT Hx. destruct (hex_text_groups env o clock input p ts H Hx) as (gs0 & gb & c & out & c' & more & (Rg & T3 & Pi & Gv & Al) & Er & _ & Ep).
  rewrite run_groups_app in Er. destruct (run_groups env o (Channel_new o 0) gs0) as [[c1 out1]| |]; cbn [bind] in Er; try discriminate.
  destruct (run_groups env o c1 gb) as [[c2 out2]| |] eqn:E2; cbn [bind] in Er; try discriminate. assert (Eo : out = out1 ++ out2) by congruence. subst out.
  apply Forall_app in Rg. destruct Rg as [_ Rg]. destruct (all_in_hex env o OH OT gb ts c1 c2 out2 Rg Gv E2) as (lines & -> & Fl).
  exists (Main.lines_of 0 out1), lines, (Main.lines_of 0 (snd c')). split; [|exact Fl]. rewrite Ep, !lines_app, lines_all, <- app_assoc. reflexivity.
Qed.
Lemma hex_text_line : forall env o clock input p ts (Q : bytes -> Prop), host_ok env -> in_hex_text input p ts ->
  (forall gs0 gb c out, read_groups (hex_found o clock input) p ts gs0 gb -> run_groups env o (Channel_new o 0) (gs0 ++ gb) = Ok (c, out) -> exists out' line, out = out' ++ [Some line] /\ Q line) ->
  exists items line more, processHexInput env o clock input = Ok (EXIT_SUCCESS, items ++ [Line 0 line] ++ more) /\ Q line.
Proof.
  intros env o clock input p ts Q H Hx X. destruct (hex_text_groups env o clock input p ts H Hx) as (gs0 & gb & c & out & c' & more & S & Er & _ & Ep).
  destruct (X gs0 gb c out S Er) as (out' & line & -> & Ql). exists (Main.lines_of 0 out'), line, (Main.lines_of 0 (snd c')).
  split; [|exact Ql]. rewrite Ep, !lines_app. cbn. rewrite <- app_assoc. reflexivity.
Qed.
