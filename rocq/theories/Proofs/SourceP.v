(* Groups of either kind of text (C121). *)
From Verif.Model Require Import Base Util Float Group BlockSync Options Tables Freq RdsString Rft Json Tmc Station Channel Input Dsp Main.
From Verif.Spec Require Import RdsCode RdsStream Reception Inputs Unicode JsonText Session Identity Frequencies Calendar Clock Texts History Received Program Recording OnAir Host Recovery Apps Traffic Plus Enhanced Heard HexText TunerText.
From Verif.Proofs Require Import Tac UpdateP SessionP ShowP ChannelP HistoryP HostP PsP RtP EndP LpsP AfP LossP InputP Ring BlockSyncP BlockSyncE RecordP AirP BlockSyncS AgainP PartsP AgainTextP MainP CutP HeardP HexTextP TunerTextP.

Definition text_situation (found : list (Group * N)) (p : N) (ts : list TxGroup) (gs0 gb : list (Z * Group * N)) : Prop :=
  Forall received_group (gs0 ++ gb) /\ three p (pis gs0) /\ Forall (fun x => carried_pi x = Some p) gb /\ Forall2 given ts gb /\
  (forall x, In x (groups_of (gs0 ++ gb)) -> In x found).
Lemma source_line : forall s env o, host_ok env -> forall clock input p ts (Q : bytes -> Prop), in_text s input p ts ->
  (forall gs0 gb c out, text_situation (found_in_text s o clock input) p ts gs0 gb -> run_groups env o (Channel_new o 0) (gs0 ++ gb) = Ok (c, out) -> exists out' line, out = out' ++ [Some line] /\ Q line) ->
  exists items line more, output_of s env o clock input = Ok (EXIT_SUCCESS, items ++ [Line 0 line] ++ more) /\ Q line.
Proof.
  intros s env o H clock input p ts Q Hx X.
  assert (Y : forall found gs0 gb, read_groups found p ts gs0 gb -> text_situation found p ts gs0 gb).
  { intros found gs0 gb (Rg & T3 & Pi & Gv & Al). split; [exact Rg|]. split; [exact T3|]. split; [exact Pi|]. split; [exact Gv|].
    intros x I. unfold groups_of in I. apply in_map_iff in I. destruct I as (y & <- & I). rewrite Forall_forall in Al. exact (Al y I). }
  destruct s; cbn [in_text output_of found_in_text] in *.
  - apply (hex_text_line env o clock input p ts Q H Hx). intros gs0 gb c out R. apply X, Y, R.
  - apply (tuner_last env o clock input p ts Q H Hx). intros gs0 gb c out R. apply X, Y, R.
Qed.
Lemma found_streams : forall s o clock input g w, In (g, w) (found_in_text s o clock input) -> w < 4.
Proof.
  intros s o clock input g w I. destruct s; cbn [found_in_text] in I; [unfold hex_found in I|unfold tuner_found in I]; apply in_map_iff in I; destruct I as (g2 & E & I); assert (Ew : w = _) by (symmetry; exact (f_equal snd E)); cbn [snd] in Ew; subst w; [|lia].
  pose proof (plain_hex o (length (split_lines input)) clock (split_lines input)) as F. fold (read_hex_input o clock input) in F. rewrite Forall_forall in F. exact (proj2 (F _ I)).
Qed.
Lemma source_one : forall s env o clock input p ts tn (Q : bytes -> Prop), host_ok env -> host_text env -> o_output_type o = OutJSON -> p <> 0 ->
  in_text s input p (ts ++ [tn]) ->
  (forall c n g c' line, reachable env o c -> received_group (n, g, 0) -> given tn (n, g, 0) -> station_of c' = Some p -> processGroup env o n c g 0 = Ok (c', Some line) -> Q line) ->
  exists items line more, output_of s env o clock input = Ok (EXIT_SUCCESS, items ++ [Line 0 line] ++ more) /\ Q line.
Proof.
  intros s env o clock input p ts tn Q H HT OJ P0 Hd X.
  apply (source_line s env o H clock input p (ts ++ [tn]) Q Hd). intros gs0 gb c out (Rg & T3 & Pi & Gv & Fi) Er.
  destruct (given_last ts tn gb Gv) as (gb1 & n & g & -> & G0 & Gn).
  assert (Pn : carried_pi (n, g, 0) = Some p) by (apply Forall_app in Pi; destruct Pi as [_ Pi]; exact (Forall_inv Pi)).
  destruct (last_shown (fun _ _ => True) env o H HT OJ (fun _ => I) (fun _ _ => I) (fun _ _ _ _ => I) (fun _ _ _ _ _ _ _ _ _ _ _ _ _ => I)
    0 gs0 gb1 n g 0 c out p Rg P0 T3 (pi_stays _ _ Pi) Pn Er) as (_ & _ & out0 & out1 & ln & _ & _ & _ & _ & Eo & _).
  assert (T3' : three p (pis (gs0 ++ gb1 ++ [(n, g, 0)]))).
  { destruct T3 as [e T3]. assert (K : pis (gb1 ++ [(n, g, 0)]) = repeat p (length (gb1 ++ [(n, g, 0)]))).
    { clear - Pi. unfold pis. induction Pi as [|x l Q _ IH]; [reflexivity|]. cbn [flat_map length repeat app]. rewrite Q, IH. reflexivity. }
    exists (e ++ repeat p (length (gb1 ++ [(n, g, 0)]))). unfold pis in *. rewrite flat_map_app, T3, K, <- !app_assoc. f_equal.
    change [p; p; p] with (repeat p 3). rewrite <- !repeat_app. f_equal. lia. }
  pose proof (three_adopted env o 0 _ c out p OJ Er P0 T3') as St.
  rewrite app_assoc in Er, Rg. destruct (run_snoc env o (gs0 ++ gb1) n g 0 _ _ _ Er) as (c1 & out2 & line & E1 & Eg & Eo2).
  assert (El : line = Some ln). { rewrite Eo2, app_assoc in Eo. apply app_inj_tail in Eo. exact (proj2 Eo). }
  exists out2, ln. split; [congruence|]. rewrite El in Eg. apply Forall_app in Rg. destruct Rg as [Rg0 Rg1].
  apply (X c1 n g c ln); try assumption; [|exact (Forall_inv Rg1)].
  exists (Channel_new o 0), (map as_call (gs0 ++ gb1)). eexists. split; [left; exists 0; reflexivity|]. split; [|exact (session_groups env o _ _ _ _ E1)].
  apply Forall_forall. intros y Y. apply in_map_iff in Y. destruct Y as ([[n1 g1] w1] & <- & Y). cbn [as_call possible].
  rewrite Forall_forall in Rg0. destruct (Rg0 _ Y) as [B1 _]. split; [exact B1|].
  assert (Z : In (g1, w1) (found_in_text s o clock input)).
  { apply Fi. unfold groups_of. rewrite app_assoc, map_app. apply in_or_app. left. apply in_map_iff. exists (n1, g1, w1). split; [reflexivity|exact Y]. }
  exact (found_streams _ _ _ _ _ _ Z).
Qed.
