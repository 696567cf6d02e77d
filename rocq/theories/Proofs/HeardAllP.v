(* Every group heard gives a line (C118). *)
From Verif.Model Require Import Base Util Float Group BlockSync Options Tables Freq RdsString Rft Json Tmc Station Channel Input Dsp Main.
From Verif.Spec Require Import RdsStream Inputs Unicode JsonText Session Identity Quality Texts Fields Apps Program Recording OnAir Host Heard.
From Verif.Proofs Require Import Tac Numerals JsonP Schema StationP TextP CleanP UpdateP SessionP LineP FrameP ChannelP LinesP HistoryP ShowP HostP KeysP TraceP PsP RtP EndP LossP FieldsP MainP RecordP HeardP.

Local Open Scope string_scope.
Local Open Scope N_scope.
Local Open Scope list_scope.

Lemma for_apps_types : forall g, gt_number (g_type g) < 16 -> oda_type g = true -> In (g_type g) for_applications.
Proof.
  intros g L T. unfold oda_type in T. cbv zeta in T. destruct (g_type g) as [n v]. cbn [gt_number gt_version] in *.
  assert (C : n = 0 \/ n = 1 \/ n = 2 \/ n = 3 \/ n = 4 \/ n = 5 \/ n = 6 \/ n = 7 \/ n = 8 \/ n = 9 \/ n = 10 \/ n = 11 \/ n = 12 \/ n = 13 \/ n = 14 \/ n = 15) by lia.
  repeat (destruct C as [->|C]; [destruct v; first [discriminate T|unfold for_applications; repeat (first [left; reflexivity|right])]|]).
  subst n. destruct v; first [discriminate T|unfold for_applications; repeat (first [left; reflexivity|right])].
Qed.

Lemma number_names : forall n, n < 16 -> dec_string n = bs (nth (N.to_nat n) group_numbers EmptyString).
Proof.
  intros n L. assert (E : forallb (fun n => bytes_eqb (dec_string n) (bs (nth (N.to_nat n) group_numbers EmptyString))) (nseq 0 16) = true) by (vm_compute; reflexivity).
  rewrite forallb_forall in E. apply ShowP.bytes_eqb_eq, E. apply nseq_In; lia.
Qed.
Lemma step_told : forall env o now c g c' line, host_ok env -> env_txt env -> o_output_type o = OutJSON -> ch_fine c -> g_has_bler g = false ->
  processGroup env o now c g 0 = Ok (c', Some line) -> let g' := prepared o now c g 0 in
  (only_error line /\ oda_type g' = true) \/
  forall k, in_header k = true -> line_at [k] line = option_map (value_of (env_float env)) (obj_find k (header env o (tuned c g') g')).
Proof.
  intros env o now c g c' line H E OJ Fc Hb P g'. destruct (host_env env H) as [Eo FL]. pose proof Fc as [Hc Sc].
  destruct (process_header _ _ _ _ _ _ _ _ H OJ Hc Hb P) as [S L]. fold g' in S, L. destruct (oda_type g') eqn:T; [destruct L as [L|L]; [left; split; [exact L|reflexivity]|right; exact L]|right].
  destruct (ShowP.process_shows env o now c g 0 c' line H E OJ Fc Hb P (or_introl (raw_fixed _ _ T))) as (j & D & Lj).
  destruct (process_spoken env o now c g 0 OJ Eo Hc Hb S) as (st' & j' & line' & D' & _ & _ & _ & Hd). fold g' in D, D', Hd. rewrite D in D'. assert (j' = j) as -> by congruence.
  intros k K. rewrite Lj, Hd by exact K. reflexivity.
Qed.

Lemma group_told : forall env o now c g c' line p t, host_ok env -> env_txt env -> o_output_type o = OutJSON -> ch_fine c -> received_group (now, g, 0) ->
  processGroup env o now c g 0 = Ok (c', Some line) -> station_of c' = Some p -> p < 2 ^ 16 -> given t (now, g, 0) -> tells (o_rbds o) p t line.
Proof.
  intros env o now c g c' line p t H E OJ Fc Rg P St Lp Gv. destruct (given_facts t now g 0 Gv) as (_ & Ht & Ty & (_ & R2 & _) & G2 & _). pose proof Rg as (Hb & _ & B2 & _).
  assert (L2 : tx2 t / 4096 < 16) by (rewrite G2 in B2; lia).
  destruct (step_told env o now c g c' line H E OJ Fc Hb P) as [[Oe Od]|L].
  - right. split; [|exact Oe]. unfold oda_type in Od. rewrite (prepared_type o now c g 0) in Od. change (0 =? 0) with true in Od. cbv iota in Od. unfold tx_group_type. rewrite <- Ty. apply for_apps_types; [rewrite Ty; exact L2|exact Od].
  - left. destruct (process_header _ _ _ _ _ _ _ _ H OJ (proj1 Fc) Hb P) as [S _]. destruct (process_station _ _ _ _ _ _ _ _ OJ P) as (Id & _).
    pose proof (prepared_C o now c g 0) as IC. pose proof (prepared_block o now c g 0 BLOCK2) as Bl. pose proof (prepared_type o now c g 0) as Tyg. pose proof (prepared_has_type o now c g 0) as Htg.
    change (0 =? 0) with true in Tyg, Htg. cbv iota in Tyg, Htg.
    remember (prepared o now c g 0) as g' eqn:Eg. clear Eg.
    assert (Hp : st_has_pi (tuned c g') = true) by (unfold silent in S; destruct (st_has_pi (tuned c g')); [reflexivity|discriminate]).
    assert (Sp : st_pi (tuned c g') = p).
    { unfold station_of in St. apply same_station in Id. rewrite Id in St. destruct (had_station (tuned c g') g') as (Y1 & Y2 & _). rewrite Y1, Y2, Hp in St. congruence. }
    assert (M : Identity.main (now, g, 0) = true) by (unfold Identity.main; rewrite Ty; cbn [gt_version]; destruct (N.testbit (tx2 t) 11); reflexivity).
    rewrite M in IC. cbn [negb] in IC.
    assert (H2 : g_has g' BLOCK2 = true) by (unfold g_has; rewrite Bl; exact R2).
    assert (G2' : g_get g' BLOCK2 = tx2 t) by (unfold g_get; rewrite Bl; exact G2).
    assert (Bs : basics o g' = basics_of o g' BLOCK2 true) by (unfold basics; rewrite IC, H2, Htg, Ht; reflexivity).
    split; [|split; [|split]].
    + apply hex4_says; [exact Lp|]. rewrite (L "pi" eq_refl), header_pi, IC, Sp. reflexivity.
    + unfold says. rewrite (L "group" eq_refl), header_basics, Bs by auto. unfold basics_of. rewrite ?G2'. cbn [app obj_find String.eqb Ascii.eqb Bool.eqb option_map value_of].
      rewrite Tyg, Ty. unfold GroupType_str. cbn [gt_number gt_version]. rewrite (number_names _ L2). destruct (N.testbit (tx2 t) 11); reflexivity.
    + unfold says. rewrite (L "tp" eq_refl), header_basics, Bs by auto. unfold basics_of. rewrite ?G2'. cbn [app obj_find String.eqb Ascii.eqb Bool.eqb option_map value_of]. rewrite getBool_testbit. reflexivity.
    + unfold says. rewrite (L "prog_type" eq_refl), header_basics, Bs by auto. unfold basics_of. rewrite ?G2'. cbn [app obj_find String.eqb Ascii.eqb Bool.eqb option_map value_of].
      unfold pty_string. rewrite getBits_arith, pty_table; [reflexivity|apply N.mod_lt; discriminate].
Qed.

Lemma three_more : forall p gs0 gb, three p (pis gs0) -> Forall (fun x => carried_pi x = Some p) gb -> three p (pis (gs0 ++ gb)).
Proof.
  intros p gs0 gb [e T3] Pi. assert (K : pis gb = repeat p (length gb)).
  { clear - Pi. unfold pis. induction Pi as [|x l Q _ IH]; [reflexivity|]. cbn [flat_map length repeat app]. rewrite Q, IH. reflexivity. }
  exists (e ++ repeat p (length gb)). unfold pis in *. rewrite flat_map_app, T3, K, <- !app_assoc. f_equal.
  change [p; p; p] with (repeat p 3). rewrite <- !repeat_app. f_equal. lia.
Qed.

Lemma all_told : forall env o p, host_ok env -> host_text env -> o_output_type o = OutJSON -> p <> 0 ->
  forall gs0 gb ts c out, Forall received_group (gs0 ++ gb) -> three p (pis gs0) -> Forall (fun x => carried_pi x = Some p) gb -> Forall2 given ts gb ->
  run_groups env o (Channel_new o 0) (gs0 ++ gb) = Ok (c, out) ->
  exists out0 lines, out = out0 ++ map Some lines /\ Forall2 (tells (o_rbds o) p) ts lines.
Proof.
  intros env o p H HT OJ P0 gs0 gb. induction gb as [|[[n g] w] gb IH] using rev_ind; intros ts c out Rg T3 Pi Gv Er.
  - inversion Gv; subst. exists out, []. split; [symmetry; apply app_nil_r|constructor].
  - destruct (Forall2_app_inv_r _ _ Gv) as (ts1 & tl & Gv1 & Gl & ->). inversion Gl as [|tn x tl' ? Gn Gz]; subst. inversion Gz; subst.
    destruct (given_facts _ _ _ _ Gn) as (-> & _).
    pose proof Pi as Pi'. apply Forall_app in Pi'. destruct Pi' as [Pi1 Pi2]. pose proof (Forall_inv Pi2) as Pn.
    destruct (last_shown (fun _ _ => True) env o H HT OJ (fun _ => I) (fun _ _ => I) (fun _ _ _ _ => I) (fun _ _ _ _ _ _ _ _ _ _ _ _ _ => I)
      0 gs0 gb n g 0 c out p Rg P0 T3 (pi_stays _ _ Pi) Pn Er) as (_ & _ & out0 & out1 & ln & _ & _ & _ & _ & Eo & _).
    pose proof (three_adopted env o 0 _ c out p OJ Er P0 (three_more _ _ _ T3 Pi)) as St.
    pose proof (latest_16 _ _ Rg (station_latest _ _ _ _ _ _ _ OJ Er St)) as Lp.
    rewrite app_assoc in Er, Rg. destruct (run_snoc env o (gs0 ++ gb) n g 0 _ _ _ Er) as (c1 & out2 & line & E1 & Eg & Eo2).
    assert (El : line = Some ln). { rewrite Eo2, app_assoc in Eo. apply app_inj_tail in Eo. exact (proj2 Eo). }
    apply Forall_app in Rg. destruct Rg as [Rg0 Rg1]. destruct (IH ts1 c1 out2 Rg0 T3 Pi1 Gv1 E1) as (o3 & lines & Eo3 & Fl).
    exists o3, (lines ++ [ln]). split; [rewrite Eo2, Eo3, El, map_app, <- app_assoc; reflexivity|]. apply Forall2_app; [exact Fl|]. constructor; [|constructor].
    pose proof (host_text_txt env HT) as Et.
    apply (group_told env o n c1 g c ln p tn H Et OJ); try assumption.
    + exact (run_fine env o _ _ _ _ H Et (created_fine o _ (or_introl (ex_intro _ 0 eq_refl))) Rg0 E1).
    + exact (Forall_inv Rg1).
    + rewrite <- El. exact Eg.
Qed.

Lemma heard_all : forall env o clock t input p ts, host_ok env -> host_text env -> o_output_type o = OutJSON -> p <> 0 -> heard (o_use_fec o) input p ts ->
  exists items lines more, processASCIIBitsInput env o clock t input = Ok (EXIT_SUCCESS, items ++ map (Line 0) lines ++ more) /\ Forall2 (tells (o_rbds o) p) ts lines.
Proof.
  intros env o clock t input p ts H HT OJ P0 Hd. destruct (heard_groups env o H clock t input p ts Hd) as (gs0 & gb & c & out & c' & more & (Rg & T3 & Pi & Gv & _) & Er & _ & Ep).
  destruct (all_told env o p H HT OJ P0 gs0 gb ts c out Rg T3 Pi Gv Er) as (out0 & lines & -> & Fl).
  exists (Main.lines_of 0 out0), lines, (Main.lines_of 0 (snd c')). split; [|exact Fl]. rewrite Ep, !lines_app.
  assert (X : Main.lines_of 0 (map Some lines) = map (Line 0) lines) by (clear; induction lines as [|x l IH]; [reflexivity|cbn [map]; unfold Main.lines_of in *; cbn [flat_map app]; rewrite IH; reflexivity]).
  rewrite X, <- app_assoc. reflexivity.
Qed.

(* ---- hex output ---- *)
Lemma group_in_hex : forall env o now c g c' line t, o_output_type o = OutHex -> o_timestamp o = false -> received_group (now, g, 0) -> given t (now, g, 0) ->
  processGroup env o now c g 0 = Ok (c', line) -> exists s, line = Some s /\ hex_line t s.
Proof.
  intros env o now c g c' line t OH OT Rg Gv P. destruct (given_facts t now g 0 Gv) as (_ & _ & _ & (R1 & R2 & R3 & R4) & G2 & G3 & G4). pose proof (given_pi _ _ _ _ Gv) as G1.
  destruct Rg as (_ & B1 & B2 & B3 & B4). rewrite process_eq, OH in P. cbv zeta in P.
  assert (El : printAsHex env o (prepared o now c g 0) = line) by congruence. clear P. subst line.
  unfold printAsHex. pose proof (prepared_block o now c g 0 BLOCK1) as X1. pose proof (prepared_block o now c g 0 BLOCK2) as X2.
  pose proof (prepared_block o now c g 0 BLOCK3) as X3. pose proof (prepared_block o now c g 0 BLOCK4) as X4. cbn [g_block] in X1, X2, X3, X4.
  assert (Em : g_isEmpty (prepared o now c g 0) = false) by (unfold g_isEmpty, g_has; cbn [g_block]; rewrite X1, R1; reflexivity). rewrite Em, OT.
  assert (Ds : g_data_stream (prepared o now c g 0) = 0) by reflexivity. rewrite Ds. change (0 <? 0) with false. cbv iota. cbn [app]. rewrite app_nil_r.
  eexists. split; [reflexivity|]. unfold g_printHex. rewrite X1, X2, X3, X4. unfold blk_hex. rewrite R1, R2, R3, R4.
  exists (getHexString 4 (tx1 t)), (getHexString 4 (tx2 t)), (getHexString 4 (tx3 t)), (getHexString 4 (tx4 t)).
  rewrite G1, G2, G3, G4 in *. repeat split; try (apply getHexString_ok; [assumption|lia]).
Qed.
Lemma all_in_hex : forall env o, o_output_type o = OutHex -> o_timestamp o = false ->
  forall gb ts c0 c out, Forall received_group gb -> Forall2 given ts gb -> run_groups env o c0 gb = Ok (c, out) ->
  exists lines, out = map Some lines /\ Forall2 hex_line ts lines.
Proof.
  intros env o OH OT. induction gb as [|[[n g] w] gb IH]; intros ts c0 c out Rg Gv Er; cbn [run_groups] in Er; inversion Gv as [|tn ? ts1 ? Gn Gl]; subst.
  - exists []. split; [injection Er as _ <-; reflexivity|constructor].
  - destruct (given_facts _ _ _ _ Gn) as (-> & _). destruct (processGroup env o n c0 g 0) as [[c1 l1]| |] eqn:E1; cbn [bind] in Er; try discriminate.
    destruct (run_groups env o c1 gb) as [[c2 o2]| |] eqn:E2; cbn [bind] in Er; try discriminate.
    destruct (group_in_hex env o n c0 g c1 l1 tn OH OT (Forall_inv Rg) Gn E1) as (s & -> & Hs). destruct (IH ts1 c1 c2 o2 (Forall_inv_tail Rg) Gl E2) as (lines & -> & Fl).
    exists (s :: lines). split; [cbn [map]; congruence|]. constructor; assumption.
Qed.
Lemma heard_in_hex : forall env o clock t input p ts, host_ok env -> o_output_type o = OutHex -> o_timestamp o = false -> heard (o_use_fec o) input p ts ->
  exists items lines more, processASCIIBitsInput env o clock t input = Ok (EXIT_SUCCESS, items ++ map (Line 0) lines ++ more) /\ Forall2 hex_line ts lines.
Proof.
  intros env o clock t input p ts H OH OT Hd. destruct (heard_groups env o H clock t input p ts Hd) as (gs0 & gb & c & out & c' & more & (Rg & T3 & Pi & Gv & _) & Er & _ & Ep).
  rewrite run_groups_app in Er. destruct (run_groups env o (Channel_new o 0) gs0) as [[c1 out1]| |]; cbn [bind] in Er; try discriminate.
  destruct (run_groups env o c1 gb) as [[c2 out2]| |] eqn:E2; cbn [bind] in Er; try discriminate. assert (Eo : out = out1 ++ out2) by congruence. subst out.
  apply Forall_app in Rg. destruct Rg as [_ Rg]. destruct (all_in_hex env o OH OT gb ts c1 c2 out2 Rg Gv E2) as (lines & -> & Fl).
  exists (Main.lines_of 0 out1), lines, (Main.lines_of 0 (snd c')). split; [|exact Fl]. rewrite Ep, !lines_app.
  assert (X : Main.lines_of 0 (map Some lines) = map (Line 0) lines) by (clear; induction lines as [|x l IH]; [reflexivity|cbn [map]; unfold Main.lines_of in *; cbn [flat_map app]; rewrite IH; reflexivity]).
  rewrite X, <- app_assoc. reflexivity.
Qed.
