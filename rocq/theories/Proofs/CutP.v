(* Input that is cut short (C82). *)
From Verif.Model Require Import Base Util Float Group BlockSync Options Json Tmc Tables Station Input Channel Dsp Main.
From Verif.Spec Require Import Inputs Unicode JsonText Session Identity Texts History Host Program Recording.
From Verif.Proofs Require Import Tac SessionP UpdateP ChannelP LinesP HistoryP InputP MainP RecordP.

Local Open Scope string_scope.
Local Open Scope N_scope.
Local Open Scope list_scope.

Definition the_lines (l : list bytes) : list output_item := map (Line 0) l.
Lemma lines_printed : forall out, Main.lines_of 0 out = the_lines (printed out).
Proof. induction out as [|[l|] out IH]; [reflexivity| |exact IH]. cbn. f_equal. exact IH. Qed.

(* ---- bits ---- *)
Lemma bit_groups_app : forall x s, exists s', forall y, bit_groups s (x ++ y) = bit_groups s x ++ bit_groups s' y.
Proof.
  induction x as [|[now b] x IH]; intros s; [exists s; reflexivity|]. cbn [app bit_groups]. destruct (bst_step s b) as [s1 og].
  destruct (IH s1) as [s' Hs]. exists s'. intros y. rewrite Hs. destruct og; reflexivity.
Qed.
Lemma one_line : forall env o c x c' out, run_groups env o c x = Ok (c', out) -> (length (printed out) <= length x)%nat.
Proof.
  intros env o c x. revert c. induction x as [|[[now g] w] x IH]; intros c c' out E; cbn [run_groups] in E; [injection E as _ <-; cbn; lia|].
  destruct (processGroup env o now c g w) as [[c1 l1]| |]; cbn [bind] in E; try discriminate. destruct (run_groups env o c1 x) as [[c2 o2]| |] eqn:E2; cbn [bind] in E; try discriminate.
  injection E as _ <-. specialize (IH _ _ _ E2). change (l1 :: o2) with ([l1] ++ o2). rewrite printed_app, app_length. cbn [length]. destruct l1; cbn [printed flat_map app length]; lia.
Qed.
Lemma split_run : forall env o a x y c out c' out', run_groups env o (Channel_new o 0) (a ++ x) = Ok (c, out) -> run_groups env o (Channel_new o 0) (a ++ y) = Ok (c', out') ->
  exists c0 o0 ox oy, out = o0 ++ ox /\ out' = o0 ++ oy /\ run_groups env o (Channel_new o 0) a = Ok (c0, o0) /\ run_groups env o c0 x = Ok (c, ox).
Proof.
  intros env o a x y c out c' out' E E'. rewrite run_app in E, E'. destruct (run_groups env o (Channel_new o 0) a) as [[c0 o0]| |]; cbn [bind] in *; try discriminate.
  destruct (run_groups env o c0 x) as [[c1 ox]| |] eqn:Ex; cbn [bind] in *; try discriminate. destruct (run_groups env o c0 y) as [[c2 oy]| |]; cbn [bind] in *; try discriminate.
  exists c0, o0, ox, oy. split; [congruence|]. split; [congruence|]. split; [reflexivity|]. rewrite Ex. congruence.
Qed.
Lemma bits_chars_app : forall a b, bit_characters (a ++ b) = bit_characters a ++ bit_characters b.
Proof. intros a b. unfold bit_characters. rewrite filter_app, map_app. reflexivity. Qed.
Lemma ascii_groups : forall env o clock t input, host_ok env -> exists c out,
  run_groups env o (Channel_new o 0) (bit_groups (BlockStream_init (o_use_fec o)) (timed clock (ascii_bits input))) = Ok (c, out) /\
  processASCIIBitsInput env o clock t input = Ok (EXIT_SUCCESS, the_lines (printed out)).
Proof.
  intros env o clock t input H. set (tg := bit_groups (BlockStream_init (o_use_fec o)) (timed clock (ascii_bits input))).
  destruct (bit_groups_run (timed clock (ascii_bits input)) (BlockStream_init (o_use_fec o))) as [M W]. rewrite timed_snd in M. fold tg in M, W.
  assert (Sh : Forall bit_shape (snd (bst_run (BlockStream_init (o_use_fec o)) (ascii_bits input)))).
  { destruct (bst_run (BlockStream_init (o_use_fec o)) (ascii_bits input)) as [s' gs0] eqn:E. cbn [snd]. apply (stream_shapes _ _ _ _ E).
    split; [exact default_shape|]. split; [discriminate|]. intros; reflexivity. }
  apply (over_groups _ _ _ M) in Sh. destruct (host_env env H) as [Ee _].
  assert (Bl : Forall (fun x => g_has_bler (snd (fst x)) = false) tg) by (eapply Forall_impl; [|exact Sh]; intros [[n g] w] ((B & _) & _); exact B).
  destruct (run_groups_good env o tg (Channel_new o 0) Ee (channel_new_ok o 0) Bl) as ([c out] & E & _).
  exists c, out. split; [exact E|]. rewrite <- lines_printed. exact (ascii_run env o clock t input c out E).
Qed.
Lemma bits_cut : forall env o clock t t' a b, host_ok env -> exists ls end_ more, (length end_ <= 1)%nat /\
  processASCIIBitsInput env o clock t a = Ok (EXIT_SUCCESS, map (Line 0) (ls ++ end_)) /\
  processASCIIBitsInput env o clock t' (a ++ b) = Ok (EXIT_SUCCESS, map (Line 0) (ls ++ more)).
Proof.
  intros env o clock t t' a b H.
  destruct (ascii_groups env o clock t a H) as (c & out & E & P). destruct (ascii_groups env o clock t' (a ++ b) H) as (c' & out' & E' & P').
  rewrite ascii_bits_spec in E, E'. rewrite bits_chars_app, <- app_assoc in E'. rewrite timed_app in E, E'.
  destruct (bit_groups_app (timed clock (bit_characters a)) (BlockStream_init (o_use_fec o))) as [s' Hs]. rewrite Hs in E, E'.
  destruct (split_run _ _ _ _ _ _ _ _ _ E E') as (c0 & o0 & ox & oy & -> & -> & _ & Ex).
  exists (printed o0), (printed ox), (printed oy). rewrite P, P', !printed_app. split; [|split; reflexivity].
  eapply Nat.le_trans; [exact (one_line _ _ _ _ _ _ Ex)|]. cbn [timed bit_groups]. destruct (bst_step s' false) as [s2 [g|]]; cbn [length]; lia.
Qed.

(* ---- lines of text ---- *)
Lemma lines_cut : forall a b, exists la, split_lines (a ++ 10 :: b) = la ++ split_lines b /\ split_lines (a ++ [10]) = la ++ [[]].
Proof.
  induction a as [|x a IH]; intros b; [exists [[]]; split; reflexivity|]. destruct (IH b) as (la & E1 & E2). cbn [app split_lines]. rewrite E1, E2.
  destruct (x =? 10); [exists ([] :: la); split; reflexivity|].
  destruct la as [|l la].
  - exfalso. clear -E2. assert (X : (2 <= length (split_lines (a ++ [10%N])))%nat).
    { clear E2. induction a as [|y a IH]; [cbn; lia|]. cbn [app split_lines]. destruct (y =? 10); cbn [length]; [lia|]. destruct (split_lines (a ++ [10])) as [|l ls]; cbn [length] in *; lia. }
    rewrite E2 in X. cbn in X. lia.
  - exists ((x :: l) :: la). split; reflexivity.
Qed.
Lemma split_nonempty : forall s, split_lines s <> [].
Proof. intros [|c s]; [discriminate|]. cbn [split_lines]. destruct (c =? 10); [discriminate|]. destruct (split_lines s); discriminate. Qed.

Lemma hex_cut_groups : forall o la clock, exists gs, forall lb fuel, lb <> [] -> (length la + length lb <= fuel)%nat ->
  exists fuel', (length lb <= fuel')%nat /\ hex_groups fuel o clock (la ++ lb) = gs ++ hex_groups fuel' o (fun n => clock (length gs + n)%nat) lb.
Proof.
  intros o. induction la as [|l la IH]; intros clock; [exists []; intros lb fuel _ L; exists fuel; split; [exact L|reflexivity]|].
  destruct (N.of_nat (length l) <? 16) eqn:Sh.
  - destruct (IH clock) as [gs G]. exists gs. intros lb fuel Nb L. cbn [length app] in *. destruct fuel as [|f]; [lia|].
    destruct (G lb (S f) Nb ltac:(lia)) as (f' & L' & E). exists f'. split; [exact L'|]. rewrite <- E. cbn [hex_groups].
    destruct (la ++ lb) as [|x r] eqn:X; [destruct la; [destruct lb; [contradiction|discriminate]|discriminate]|].
    assert (R : readHexGroup o (clock O) (l :: x :: r) = readHexGroup o (clock O) (x :: r)) by (unfold readHexGroup; cbn [readHexGroup_loop]; rewrite Sh; reflexivity).
    rewrite R. reflexivity.
  - destruct (IH (fun n => clock (S n))) as [gs G]. exists (fst (readHexGroup o (clock O) [l]) :: gs). intros lb fuel Nb L. cbn [length app] in *. destruct fuel as [|f]; [lia|].
    destruct (G lb f Nb ltac:(lia)) as (f' & L' & E). exists f'. split; [exact L'|]. cbn [hex_groups].
    assert (R : readHexGroup o (clock O) (l :: la ++ lb) = (fst (readHexGroup o (clock O) [l]), la ++ lb)) by (unfold readHexGroup; cbn [readHexGroup_loop]; rewrite Sh; reflexivity).
    rewrite R, E. reflexivity.
Qed.
Lemma timed_ext : forall (A : Type) (l : list A) f g, (forall n, f n = g n) -> timed f l = timed g l.
Proof. intros A l. induction l as [|x l IH]; intros f g E; cbn [timed]; [reflexivity|]. rewrite E. f_equal. apply IH. intros n. apply E. Qed.

Lemma hex_runs : forall env o clock gs, host_ok env -> Forall plain_group gs -> exists c out,
  run_groups env o (Channel_new o 0) (map (fun x => (x, g_data_stream (snd x))) (timed clock gs)) = Ok (c, out).
Proof.
  intros env o clock gs H P. destruct (run_groups_ran env o 0 H (map (fun x => (x, g_data_stream (snd x))) (timed clock gs)) (Channel_new o 0) []) as (c1 & o1 & E1 & _); [|exact (ran_new env o 0)|exists c1, o1; exact E1].
  apply Forall_map. pose proof (MainP.timed_snd _ _ _ clock P) as F. eapply Forall_impl; [|exact F]. intros [t g] Q. exact Q.
Qed.
Lemma empty_line : forall env o now c g c' out, nothing_received g -> g_data_stream g = 0 -> Version_eqb (gt_version (g_type g)) VC = false -> run_groups env o c [((now, g), g_data_stream g)] = Ok (c', out) -> printed out = [].
Proof.
  intros env o now c g c' out Ng St Vc E. rewrite St in E. cbn [run_groups] in E. destruct (processGroup env o now c g 0) as [[c1 l]| |] eqn:Ep; cbn [bind] in E; try discriminate. injection E as _ <-.
  assert (l = None) as ->; [|reflexivity]. destruct (o_output_type o) eqn:Ot; [exact (empty_silent_hex _ _ _ _ _ _ _ _ Ng Ot Ep)|apply (empty_silent env o now c g 0 c1 l Ot); [unfold Identity.main; rewrite Vc; reflexivity|exact Ng|exact Ep]].
Qed.
Lemma hex_cut : forall env o clock a b, host_ok env -> a = [] \/ (exists a', a = a' ++ [10]) -> exists ls more,
  processHexInput env o clock a = Ok (EXIT_SUCCESS, map (Line 0) ls) /\
  processHexInput env o clock (a ++ b) = Ok (EXIT_SUCCESS, map (Line 0) (ls ++ more)).
Proof.
  intros env o clock a b H A.
  assert (La : exists la, split_lines (a ++ b) = la ++ split_lines b /\ split_lines a = la ++ [[]]).
  { destruct A as [->|[a' ->]]; [exists []; split; reflexivity|]. rewrite <- app_assoc. exact (lines_cut a' b). }
  destruct La as (la & E1 & E2). destruct (hex_cut_groups o la clock) as [gs G].
  destruct (G [[]] (length (split_lines a)) ltac:(discriminate) ltac:(rewrite E2, app_length; lia)) as (f1 & L1 & G1). rewrite <- E2 in G1.
  destruct (G (split_lines b) (length (split_lines (a ++ b))) (split_nonempty b) ltac:(rewrite E1, app_length; lia)) as (f2 & L2 & G2). rewrite <- E1 in G2.
  pose proof (plain_hex o (length (split_lines a)) clock (split_lines a)) as P1. pose proof (plain_hex o (length (split_lines (a ++ b))) clock (split_lines (a ++ b))) as P2.
  destruct (hex_runs env o clock _ H P1) as (c & out & R1). destruct (hex_runs env o clock _ H P2) as (c' & out' & R2).
  unfold processHexInput, read_hex_input. cbv zeta. rewrite R1, R2. cbn [bind]. rewrite !lines_printed.
  rewrite G1, timed_app, map_app in R1. rewrite G2, timed_app, map_app in R2.
  destruct (split_run _ _ _ _ _ _ _ _ _ R1 R2) as (c0 & o0 & ox & oy & -> & -> & _ & Ex). exists (printed o0), (printed oy). rewrite !printed_app. split; [|reflexivity].
  replace (printed ox) with (@nil bytes); [rewrite app_nil_r; reflexivity|].
  destruct f1 as [|f1]; [cbn in L1; lia|]. cbn [hex_groups readHexGroup readHexGroup_loop] in Ex. change (N.of_nat (length (@nil N)) <? 16) with true in Ex. cbv iota in Ex.
  symmetry.
  unfold readHexGroup in Ex; cbn [readHexGroup_loop] in Ex; change (N.of_nat (length (@nil N)) <? 16) with true in Ex; cbv iota in Ex; destruct (o_timestamp o); destruct f1; cbn [hex_groups timed map snd] in Ex;
    match type of Ex with run_groups _ _ _ [((?n, ?g), _)] = _ => apply (empty_line env o n _ g _ _ (conj eq_refl (conj eq_refl (conj eq_refl eq_refl))) eq_refl eq_refl Ex) end.
Qed.

Definition tef_from (fuel : nat) (g : Group) (lines : list bytes) : list Group := let '(h, rest) := readTEF_loop lines g in h :: tef_groups fuel rest.
Lemma tef_line : forall l g, exists g1, (forall x, readTEF_loop (l :: x) g = readTEF_loop x g1) \/ (forall x, readTEF_loop (l :: x) g = (g1, x)).
Proof.
  intros l g. destruct l as [|c r]; [exists g; left; reflexivity|].
  destruct (N.eqb_spec c 80) as [->|N1].
  { destruct (stol16 r) as [v|] eqn:E; [exists (g_setBlock g BLOCK1 (plain_block (z_u16 v) true))|exists g]; left; intros x; cbn [readTEF_loop]; rewrite E; reflexivity. }
  destruct (N.eqb_spec c 82) as [->|N2].
  { destruct (15 <=? N.of_nat (length (82 :: r))) eqn:L.
    - destruct (parse_R (82 :: r) g) as [g'|] eqn:E; [exists g'|exists g]; right; intros x; cbn [readTEF_loop]; rewrite L, E; reflexivity.
    - exists g. left. intros x. cbn [readTEF_loop]. rewrite L. reflexivity. }
  exists g. left. intros x. cbn [readTEF_loop]. destruct c as [|p]; [reflexivity|]. do 7 (destruct p as [p|p|]; try reflexivity; try congruence).
Qed.
Lemma tef_cut_groups : forall la g, exists gs g', forall lb fuel, lb <> [] -> (length la + length lb <= S fuel)%nat ->
  exists fuel', (length lb <= S fuel')%nat /\ tef_from fuel g (la ++ lb) = gs ++ tef_from fuel' g' lb.
Proof.
  induction la as [|l la IH]; intros g; [exists [], g; intros lb fuel _ L; exists fuel; split; [exact L|reflexivity]|].
  destruct (tef_line l g) as [g1 [C|C]].
  - destruct (IH g1) as (gs & g' & G). exists gs, g'. intros lb fuel Nb L. cbn [length app] in *. destruct (G lb fuel Nb ltac:(lia)) as (f' & L' & E). exists f'. split; [exact L'|].
    rewrite <- E. unfold tef_from. rewrite C. reflexivity.
  - destruct (IH (g_disableOffsets Group_default)) as (gs & g' & G). exists (g1 :: gs), g'. intros lb fuel Nb L. cbn [length app] in *.
    destruct fuel as [|f]; [destruct lb; [contradiction|cbn [length] in L; lia]|].
    destruct (G lb f Nb ltac:(lia)) as (f' & L' & E). exists f'. split; [exact L'|]. rewrite <- E. unfold tef_from at 1. rewrite C. cbn [tef_groups].
    destruct (la ++ lb) as [|x r] eqn:X; [destruct la; [destruct lb; [contradiction|discriminate]|discriminate]|]. reflexivity.
Qed.
Lemma tef_runs : forall env o clock gs, host_ok env -> Forall plain_group gs -> exists c out,
  run_groups env o (Channel_new o 0) (map (fun x => (x, 0)) (timed clock gs)) = Ok (c, out).
Proof.
  intros env o clock gs H P. destruct (run_groups_ran env o 0 H (map (fun x => (x, 0)) (timed clock gs)) (Channel_new o 0) []) as (c1 & o1 & E1 & _); [|exact (ran_new env o 0)|exists c1, o1; exact E1].
  apply Forall_map. pose proof (MainP.timed_snd _ _ _ clock P) as F. eapply Forall_impl; [|exact F]. intros [t g] [Q _]. split; [exact Q|]. cbn. lia.
Qed.
Lemma tef_cut : forall env o clock a b, host_ok env -> a = [] \/ (exists a', a = a' ++ [10]) -> exists ls end_ more, (length end_ <= 1)%nat /\
  processTEFInput env o clock a = Ok (EXIT_SUCCESS, map (Line 0) (ls ++ end_)) /\
  processTEFInput env o clock (a ++ b) = Ok (EXIT_SUCCESS, map (Line 0) (ls ++ more)).
Proof.
  intros env o clock a b H A.
  assert (La : exists la, split_lines (a ++ b) = la ++ split_lines b /\ split_lines a = la ++ [[]]).
  { destruct A as [->|[a' ->]]; [exists []; split; reflexivity|]. rewrite <- app_assoc. exact (lines_cut a' b). }
  destruct La as (la & E1 & E2). destruct (tef_cut_groups la (g_disableOffsets Group_default)) as (gs & g' & G).
  assert (Un : forall s, exists f, length (split_lines s) = S f /\ read_tef_input s = tef_from f (g_disableOffsets Group_default) (split_lines s)).
  { intros s. unfold read_tef_input. pose proof (split_nonempty s) as N0. destruct (split_lines s) as [|l r]; [contradiction|]. exists (length r). split; reflexivity. }
  destruct (Un a) as (fa & La & Ra). destruct (Un (a ++ b)) as (fb & Lb & Rb).
  destruct (G [[]] fa ltac:(discriminate) ltac:(rewrite <- La, E2, app_length; lia)) as (f1 & L1 & G1). rewrite <- E2, <- Ra in G1.
  destruct (G (split_lines b) fb (split_nonempty b) ltac:(rewrite <- Lb, E1, app_length; lia)) as (f2 & L2 & G2). rewrite <- E1, <- Rb in G2.
  pose proof (plain_tef (length (split_lines a)) (split_lines a)) as P1. pose proof (plain_tef (length (split_lines (a ++ b))) (split_lines (a ++ b))) as P2.
  fold (read_tef_input a) in P1. fold (read_tef_input (a ++ b)) in P2.
  destruct (tef_runs env o clock _ H P1) as (c & out & R1). destruct (tef_runs env o clock _ H P2) as (c' & out' & R2).
  unfold processTEFInput. rewrite R1, R2. cbn [bind]. rewrite !lines_printed.
  rewrite G1, timed_app, map_app in R1. rewrite G2, timed_app, map_app in R2.
  destruct (split_run _ _ _ _ _ _ _ _ _ R1 R2) as (c0 & o0 & ox & oy & -> & -> & _ & Ex). exists (printed o0), (printed ox), (printed oy). rewrite !printed_app. split; [|split; reflexivity].
  eapply Nat.le_trans; [exact (one_line _ _ _ _ _ _ Ex)|]. unfold tef_from. cbn [readTEF_loop]. destruct f1; cbn [tef_groups timed map length]; lia.
Qed.

(* ---- audio ---- *)
Section Audio.
  Variable D : Type.
  Variable env : Env.
  Variable lq : Liquid D.
  Variable o : Options.
  Definition fresh_streams (cs : Receiver D) : Prop := exists s, ch_block_stream (fst cs) = s :: repeat (BlockStream_init (o_use_fec o)) 3.
  Lemma bits_fresh : forall t now bits c c' out, processBits_loop env o t now 0 bits c = Ok (c', out) ->
    (exists s, ch_block_stream c = s :: repeat (BlockStream_init (o_use_fec o)) 3) -> exists s, ch_block_stream c' = s :: repeat (BlockStream_init (o_use_fec o)) 3.
  Proof.
    intros t now. induction bits as [|b bits IH]; intros c c' out E Fs; cbn [processBits_loop] in E; [assert (c' = c) as -> by congruence; exact Fs|].
    destruct (arr_get (ch_block_stream c) 0) as [s0| |]; cbn [bind] in E; try discriminate. destruct (bst_step s0 b) as [s1 og].
    assert (Fs1 : exists s, ch_block_stream (ch_set_stream c 0 s1) = s :: repeat (BlockStream_init (o_use_fec o)) 3).
    { destruct Fs as [s Fs]. exists s1. unfold ch_set_stream. cbn [ch_block_stream]. rewrite Fs. reflexivity. }
    destruct og as [g|]; cbn [bind] in E.
    - destruct (bit_age_ms _) as [age| |]; cbn [bind] in E; try discriminate. cbv zeta in E.
      destruct (processGroup _ _ _ _ _ _) as [[c2 l2]| |] eqn:Ep; cbn [bind] in E; try discriminate.
      destruct (processBits_loop env o t now 0 bits _) as [[c3 o3]| |] eqn:E3; cbn [bind] in E; try discriminate. injection E as <- _. apply (IH _ _ _ E3).
      unfold ch_set_time. cbn [ch_block_stream]. rewrite (process_streams _ _ _ _ _ _ _ _ Ep). exact Fs1.
    - destruct (processBits_loop env o t now 0 bits _) as [[c3 o3]| |] eqn:E3; cbn [bind] in E; try discriminate. injection E as <- _. apply (IH _ _ _ E3). exact Fs1.
  Qed.
  Lemma channel_fresh : forall now r ch cs cs' out, feed_channel env lq o now [0] r ch cs = Ok (cs', out) -> fresh_streams cs -> fresh_streams cs'.
  Proof.
    intros now r ch cs cs' out E Fs. unfold feed_channel in E. destruct (readChunk r ch) as [[chunk t]| |]; cbn [bind] in E; try discriminate.
    destruct (processChunk lq (snd cs) chunk [0]) as [[s bits]| |]; cbn [bind] in E; try discriminate.
    destruct bits as [|b0 bits]; cbn [combine feed_streams bind] in E; [injection E as <- _; exact Fs|].
    unfold processBits in E. destruct (processBits_loop env o t now 0 b0 (fst cs)) as [[c1 o1]| |] eqn:E1; cbn [bind] in E; try discriminate.
    pose proof (bits_fresh _ _ _ _ _ _ E1 Fs) as F1. destruct (getSecondsSinceCarrierLost c1) as [x| |]; cbn [bind] in E; try discriminate. cbv zeta in E.
    match type of E with context [if ?b then _ else _] => destruct b end; injection E as <- _; exact F1.
  Qed.
  Lemma channels_fresh : forall now r css ch css' out, feed_channels env lq o now [0] r ch css = Ok (css', out) -> Forall fresh_streams css -> Forall fresh_streams css'.
  Proof.
    intros now r. induction css as [|cs css IH]; intros ch css' out E F; cbn [feed_channels] in E; [injection E as <- _; constructor|].
    destruct (feed_channel env lq o now [0] r ch cs) as [[cs1 o1]| |] eqn:E1; cbn [bind] in E; try discriminate.
    destruct (feed_channels env lq o now [0] r (ch + 1) css) as [[r1 o2]| |] eqn:E2; cbn [bind] in E; try discriminate. injection E as <- _.
    apply Forall_cons_iff in F. destruct F as [Fc F]. constructor; [exact (channel_fresh _ _ _ _ _ _ E1 Fc)|exact (IH _ _ _ E2 F)].
  Qed.
  (* An empty last buffer *)
  Lemma nothing_fed : forall now r css ch css' out, mr_is_eof r = true -> mr_buffer r = [] -> feed_channels env lq o now [0] r ch css = Ok (css', out) -> out = [].
  Proof.
    intros now r css ch css' out Eo Bf. revert ch css' out. induction css as [|cs css IH]; intros ch css' out E; cbn [feed_channels] in E; [congruence|].
    destruct (feed_channel env lq o now [0] r ch cs) as [[cs1 o1]| |] eqn:E1; cbn [bind] in E; try discriminate.
    destruct (feed_channels env lq o now [0] r (ch + 1) css) as [[r1 o2]| |] eqn:E2; cbn [bind] in E; try discriminate. injection E as _ <-. rewrite (IH _ _ _ E2), app_nil_r.
    assert (o1 = []) as ->; [|reflexivity]. unfold feed_channel, readChunk in E1. rewrite Eo, Bf in E1. destruct (_ <=? ch); cbn [bind] in E1; try discriminate.
    unfold processChunk, resampleChunk in E1. cbn [resample_loop] in E1. destruct (SFeqb _ _); cbn [process_samples bind map combine feed_streams processBits processBits_loop app] in E1; unfold processBits in E1; cbn [processBits_loop bind] in E1;
      (destruct (getSecondsSinceCarrierLost _) as [x| |]; cbn [bind] in E1; try discriminate; cbv zeta in E1; congruence).
  Qed.
  Lemma flush_fresh : forall t css ch out, Forall fresh_streams css -> flush_channels env o t ch css = Ok out -> out = [].
  Proof.
    intros t. induction css as [|cs css IH]; intros ch out F E; cbn [flush_channels] in E; [congruence|]. apply Forall_cons_iff in F. destruct F as [[s Fc] F].
    rewrite (flush_nothing env o t (fst cs) s _ Fc) in E. cbn [bind] in E. destruct (flush_channels env o t (ch + 1) css) as [o1| |] eqn:E1; cbn [bind] in E; try discriminate.
    injection E as <-. rewrite (IH _ _ F E1). reflexivity.
  Qed.
  Definition cut_reader (r : MPXReader spec_float) (a : list spec_float) : MPXReader spec_float :=
    mkMPXReader (mr_num_channels r) (mr_chunk_size r) (mr_is_eof r) (mr_buffer r) (mr_buffer_time r) (mr_singlechan_time r) a.
  Lemma feed_cut : forall now r x css ch, feed_channels env lq o now [0] (cut_reader r x) ch css = feed_channels env lq o now [0] r ch css.
  Proof.
    intros now r x. induction css as [|cs css IH]; intros ch; [reflexivity|]. cbn [feed_channels].
    change (feed_channel env lq o now [0] (cut_reader r x) ch cs) with (feed_channel env lq o now [0] r ch cs).
    destruct (feed_channel _ _ _ _ _ _ ch cs) as [[? ?]| |]; cbn [bind]; [|reflexivity|reflexivity]. rewrite IH. reflexivity.
  Qed.
  Lemma loop_cut : forall k fuel fuel' clock r a b css css1 o1 css2 o2, 0 < mr_chunk_size r -> mr_is_eof r = false -> Forall fresh_streams css ->
    length a = (k * N.to_nat (mr_chunk_size r))%nat ->
    mpx_loop fuel env lq o clock [0] (cut_reader r a) css = Ok (Some (css1, o1)) ->
    mpx_loop fuel' env lq o clock [0] (cut_reader r (a ++ b)) css = Ok (Some (css2, o2)) ->
    Forall fresh_streams css1 /\ Forall fresh_streams css2 /\ exists more, o2 = o1 ++ more.
  Proof.
    assert (Fr : forall fuel clock r css css' out, mpx_loop fuel env lq o clock [0] r css = Ok (Some (css', out)) -> Forall fresh_streams css -> Forall fresh_streams css').
    { induction fuel as [|f IH]; intros clock r css css' out E Fs; cbn [mpx_loop] in E; destruct (mr_is_eof r); try (injection E as <- _; exact Fs); try discriminate.
      cbv zeta in E. destruct (feed_channels _ _ _ _ _ _ 0 css) as [[cs3 o3]| |] eqn:E3; cbn [bind] in E; try discriminate.
      destruct (mpx_loop f _ _ _ _ _ _ cs3) as [[[cs4 o4]|]| |] eqn:E4; cbn [bind] in E; try discriminate. injection E as <- _.
      exact (IH _ _ _ _ _ E4 (channels_fresh _ _ _ _ _ _ E3 Fs)). }
    intros k fuel fuel' clock r a b css css1 o1 css2 o2 Pc Eo Fs L E E'.
    split; [exact (Fr _ _ _ _ _ _ E Fs)|]. split; [exact (Fr _ _ _ _ _ _ E' Fs)|]. clear Fr. revert fuel fuel' clock r a b css css1 o1 css2 o2 Pc Eo Fs L E E'.
    induction k as [|k IH]; intros fuel fuel' clock r a b css css1 o1 css2 o2 Pc Eo Fs L E E'.
    - destruct a as [|x a]; [|discriminate L]. exists o2. assert (o1 = []) as ->; [|reflexivity].
      assert (Ef : mr_is_eof (fillBuffer (clock O) (cut_reader r [])) = true).
      { unfold fillBuffer, cut_reader. cbn [mr_is_eof mr_input mr_chunk_size]. rewrite firstn_nil. cbn [length]. rewrite orb_true_iff. right. lia. }
      assert (Bf : mr_buffer (fillBuffer (clock O) (cut_reader r [])) = []) by (unfold fillBuffer, cut_reader; cbn [mr_buffer mr_input]; apply firstn_nil).
      assert (Ec : mr_is_eof (cut_reader r []) = false) by exact Eo.
      destruct fuel as [|f]; cbn [mpx_loop] in E; rewrite Ec in E; [discriminate|]. cbv zeta in E. remember (fillBuffer (clock O) (cut_reader r [])) as r1 eqn:Er. 
      destruct (feed_channels env lq o (clock O) [0] r1 0 css) as [[cs3 o3]| |] eqn:E3; cbn [bind] in E; try discriminate.
      pose proof (nothing_fed _ _ _ _ _ _ Ef Bf E3) as ->.
      destruct f; cbn [mpx_loop] in E; rewrite Ef in E; cbn [bind app] in E; congruence.
    - assert (Ec : forall x, mr_is_eof (cut_reader r x) = false) by (intros x; exact Eo).
      destruct fuel as [|f]; cbn [mpx_loop] in E; rewrite Ec in E; [discriminate|]. cbv zeta in E.
      destruct fuel' as [|f']; cbn [mpx_loop] in E'; rewrite Ec in E'; [discriminate|]. cbv zeta in E'.
      assert (Ln : (N.to_nat (mr_chunk_size r) <= length a)%nat) by (rewrite L; cbn [Nat.mul]; lia).
      remember (N.to_nat (mr_chunk_size r)) as n eqn:En.
      assert (Fn : firstn n (a ++ b) = firstn n a) by (rewrite firstn_app; replace (n - length a)%nat with O by lia; cbn [firstn]; apply app_nil_r).
      assert (Sn : skipn n (a ++ b) = skipn n a ++ b) by (rewrite skipn_app; replace (n - length a)%nat with O by lia; reflexivity).
      assert (R1 : fillBuffer (clock O) (cut_reader r a) = cut_reader (fillBuffer (clock O) (cut_reader r a)) (skipn n a)) by (rewrite En; reflexivity).
      assert (R2 : fillBuffer (clock O) (cut_reader r (a ++ b)) = cut_reader (fillBuffer (clock O) (cut_reader r a)) (skipn n a ++ b)).
      { unfold fillBuffer, cut_reader. cbn [mr_num_channels mr_chunk_size mr_is_eof mr_buffer mr_buffer_time mr_singlechan_time mr_input]. rewrite <- En, Fn, Sn. reflexivity. }
      rewrite R1 in E. rewrite R2 in E'.
      assert (C1 : mr_chunk_size (fillBuffer (clock O) (cut_reader r a)) = mr_chunk_size r) by reflexivity.
      assert (Eo1 : mr_is_eof (fillBuffer (clock O) (cut_reader r a)) = false).
      { unfold fillBuffer, cut_reader. cbn [mr_is_eof mr_input mr_chunk_size]. rewrite <- En, firstn_length, Eo, (Nat.min_l _ _ Ln). cbn [orb]. apply N.ltb_ge. rewrite En, N2Nat.id. lia. }
      remember (fillBuffer (clock O) (cut_reader r a)) as r1 eqn:Er1. clear Er1 R1 R2.
      rewrite feed_cut in E, E'. destruct (feed_channels env lq o (clock O) [0] r1 0 css) as [[cs3 o3]| |] eqn:E3; cbn [bind] in E, E'; try discriminate.
      destruct (mpx_loop f env lq o _ [0] (cut_reader r1 (skipn n a)) cs3) as [[[cs4 o4]|]| |] eqn:E4; cbn [bind] in E; try discriminate.
      destruct (mpx_loop f' env lq o _ [0] (cut_reader r1 (skipn n a ++ b)) cs3) as [[[cs5 o5]|]| |] eqn:E5; cbn [bind] in E'; try discriminate.
      injection E as <- <-. injection E' as <- <-.
      assert (Ls : length (skipn n a) = (k * n)%nat) by (rewrite skipn_length, L; clear; cbn [Nat.mul]; rewrite Nat.add_comm, Nat.add_sub; reflexivity).
      destruct (IH f f' _ r1 _ _ cs3 _ _ _ _ ltac:(rewrite C1; exact Pc) Eo1 (channels_fresh _ _ _ _ _ _ E3 Fs) ltac:(rewrite C1, <- En; exact Ls) E4 E5) as [more ->].
      exists more. rewrite app_assoc. reflexivity.
  Qed.
End Audio.

(* src/redsea.cc:108-166 *)
Lemma audio_cut : forall (D : Type) env se (lq : Liquid D) o fuel fuel' clock t t' a b n rate code items code' items',
  mpx_init se o = Opened n rate -> 1 <= n -> n <= 8192 -> o_streams o = false -> (length a mod N.to_nat (8192 / n * n) = 0)%nat ->
  processMPXInput fuel env se lq o clock t a = Ok (Some (code, items)) ->
  processMPXInput fuel' env se lq o clock t' (a ++ b) = Ok (Some (code', items')) ->
  code = EXIT_SUCCESS /\ code' = EXIT_SUCCESS /\ exists more, items' = items ++ more.
Proof.
  intros D env se lq o fuel fuel' clock t t' a b n rate code items code' items' Op N1 N2 St Md E E'. unfold processMPXInput in E, E'. rewrite Op in E, E'. cbv zeta in E, E'.
  remember (with_audio o n (f32_of_Z rate)) as o' eqn:Eo'. assert (So : o_streams o' = false) by (rewrite Eo'; exact St). rewrite So in E, E'.
  destruct (make_receivers lq o' (N.to_nat n) 0) as [css| |] eqn:MR; cbn [bind] in E, E'; try discriminate.
  destruct (mpx_loop fuel env lq o' clock [0] (MPXReader_init n a) css) as [[[css1 o1]|]| |] eqn:L1; cbn [bind] in E; try discriminate.
  destruct (mpx_loop fuel' env lq o' clock [0] (MPXReader_init n (a ++ b)) css) as [[[css2 o2]|]| |] eqn:L2; cbn [bind] in E'; try discriminate.
  assert (Fs : Forall (fresh_streams D o') css).
  { clear -MR. revert css MR. generalize 0. induction (N.to_nat n) as [|x IH]; intros i css MR; cbn [make_receivers] in MR; [injection MR as <-; constructor|].
    destruct (SubcarrierSet_new lq (o_samplerate o')); cbn [bind] in MR; try discriminate. destruct (make_receivers lq o' x (i + 1)) eqn:E; cbn [bind] in MR; try discriminate. injection MR as <-.
    constructor; [|exact (IH _ _ E)]. exists (BlockStream_init (o_use_fec o')). reflexivity. }
  assert (P : 0 < 8192 / n * n) by (apply N.mul_pos_pos; [apply N.div_str_pos; lia|lia]).
  destruct (loop_cut D env lq o' (length a / N.to_nat (8192 / n * n)) fuel fuel' clock (MPXReader_init n []) a b css css1 o1 css2 o2) as (F1 & F2 & more & M);
    [exact P|unfold MPXReader_init; cbn [mr_is_eof]; apply N.leb_gt; unfold kBufferSize; lia|exact Fs| |exact L1|exact L2|].
  { change (mr_chunk_size (MPXReader_init n (@nil spec_float))) with (8192 / n * n). remember (N.to_nat (8192 / n * n)) as m eqn:Em. pose proof (Nat.div_mod (length a) m ltac:(lia)) as Q. lia. }
  destruct (flush_channels env o' t 0 css1) as [f1| |] eqn:G1; cbn [bind] in E; try discriminate. destruct (flush_channels env o' t' 0 css2) as [f2| |] eqn:G2; cbn [bind] in E'; try discriminate.
  rewrite (flush_fresh D env o' t css1 0 f1 F1 G1), app_nil_r in E. rewrite (flush_fresh D env o' t' css2 0 f2 F2 G2), app_nil_r in E'.
  injection E as <- <-. injection E' as <- <-. split; [reflexivity|]. split; [reflexivity|]. exists more. exact M.
Qed.
