(* Loss of the carrier (C87). *)
From Verif.Model Require Import Base Util Float Group BlockSync Options Json Tmc Tables Station Input Channel Dsp Main.
From Verif.Spec Require Import RdsCode RdsStream Inputs Unicode JsonText Session Identity Texts History Host Program Recording Reception OnAir Biphase Demod Hearing Loss.
From Verif.Proofs Require Import Tac BlockSyncP BlockSyncG BlockSyncE AirP SessionP UpdateP ChannelP LinesP HistoryP InputP MainP BlockSyncR RecordP CutP DspP BiphaseP DemodP LossF HearP.
Local Open Scope string_scope.
Local Open Scope N_scope.
Local Open Scope list_scope.

(* ---- the counter, exactly ---- *)
Lemma push_in_sync : forall s b, bst_is_in_sync s = true -> bst_num_bits_since_sync_lost s = 0 -> bst_num_bits_since_sync_lost (pushBit s b) = 0.
Proof.
  intros s b Y0 H. unfold pushBit. match goal with |- context [if bst_num_bits_until_next_block ?x =? 0 then _ else _] => set (s1 := x) end.
  assert (Y1 : bst_is_in_sync s1 = true) by exact Y0. assert (C1 : bst_num_bits_since_sync_lost s1 = 0) by exact H. clearbody s1. clear Y0 H s.
  destruct (_ =? 0); [|exact C1]. change (bst_num_bits_since_sync_lost (findBlockInInputRegister s1) = 0).
  unfold findBlockInInputRegister. set (raw := N.land _ _). set (off := getOffsetForSyndrome _). unfold acquireSync. rewrite Y1. cbv zeta. rewrite Y1.
  match goal with |- context [if Offset_eqb _ OffC && _ then ?x else s1] => set (s3 := if Offset_eqb _ OffC && _ then x else s1) end.
  assert (C3 : bst_num_bits_since_sync_lost s3 = 0) by (unfold s3; destruct (_ && _); exact C1). clearbody s3.
  set (s4 := bst_set_sum s3 _). assert (C4 : bst_num_bits_since_sync_lost s4 = 0) by exact C3. clearbody s4.
  destruct (_ <? _); [exact C4|].
  match goal with |- context [let '(data, offset') := ?x in _] => destruct x as [data off'] end.
  match goal with |- context [if Offset_eqb off' ?e then ?x else s4] => set (s5 := if Offset_eqb off' e then x else s4) end.
  assert (C5 : bst_num_bits_since_sync_lost s5 = 0) by (unfold s5; destruct (Offset_eqb _ _); exact C4). clearbody s5.
  match goal with |- context [if ?b then handleNewlyReceivedGroup ?x else _] => destruct b end; exact C5.
Qed.
Lemma hunt_counts : forall s off, bst_is_in_sync s = false -> bst_is_in_sync (acquireSync s off) = false -> bst_num_bits_since_sync_lost (acquireSync s off) = (bst_num_bits_since_sync_lost s + 1) mod 2 ^ 32.
Proof.
  intros s off Y Z. unfold acquireSync in *. rewrite Y in *. cbv zeta in *. destruct (negb _); [destruct (isSequenceFound _)|]; cbn [bst_is_in_sync bst_num_bits_since_sync_lost] in *; [discriminate|reflexivity|reflexivity].
Qed.
Lemma lost_snoc : forall fec bits b, lost_for fec (bits ++ [b]) = if in_sync_after fec (bits ++ [b]) || in_sync_after fec bits then 0 else (lost_for fec bits + 1) mod 2 ^ 32.
Proof. intros fec bits b. unfold lost_for. rewrite rev_app_distr. cbn [rev app lost_for_rev]. rewrite rev_involutive. reflexivity. Qed.
Lemma lost_exact : forall fec bits, bst_num_bits_since_sync_lost (state_after fec bits) = lost_for fec bits.
Proof.
  intros fec bits. induction bits as [|b bits IH] using rev_ind; [reflexivity|].
  destruct (counter_bits fec (bits ++ [b])) as [Z1 _]. destruct (counter_bits fec bits) as [Z0 _]. rewrite lost_snoc, <- IH. unfold in_sync_after.
  destruct (bst_is_in_sync (state_after fec (bits ++ [b]))) eqn:Y1; [apply Z1; reflexivity|]. cbn [orb]. clear Z1.
  destruct (step_counter (state_after fec bits) b) as [S1 S2]. rewrite after_snoc in *. rewrite S2.
  destruct (bst_is_in_sync (state_after fec bits)) eqn:Y0; [apply push_in_sync; [exact Y0|apply Z0; reflexivity]|].
  destruct (bst_run (BlockStream_init fec) bits) as [s gs] eqn:R. destruct (run_reachable fec bits s gs R) as (I & RH & _).
  assert (Es : state_after fec bits = s) by (unfold state_after; rewrite R; reflexivity). rewrite Es in *.
  destruct (bst_step s b) as [s' og] eqn:Q. pose proof (bst_step_kind s bits b s' og I RH Q) as K. cbn [fst] in Y1.
  rewrite <- S2. cbn [fst]. destruct K as [Hu Hs|s1 Hs E1 Hn|s1 st gs' s' Hs E1 Hn SS IS' U' ST FE RE BC SB HR|st gs' s' Hs U0 SS IS' U' ST FE RE BC SB HR|s' Hs U0 SS IS' U' RA FE RE BC SB HR]; try congruence.
  subst s1. change (bst_num_bits_since_sync_lost (acquireSync (shifted s b) (recognise (window (bits ++ [b])))) = (bst_num_bits_since_sync_lost s + 1) mod 2 ^ 32). rewrite hunt_counts; [reflexivity|exact Hs|exact Hn].
Qed.
Lemma lost_small : forall fec bits, lost_for fec bits < 2 ^ 32.
Proof. intros fec bits. unfold lost_for. destruct (rev bits) as [|b r]; [reflexivity|]. cbn [lost_for_rev]. destruct (_ || _); [reflexivity|]. apply N.mod_lt. discriminate. Qed.
Lemma lost_seconds : forall fec bits, SFltb (f32_of_Z 10) (seconds (lost_for fec bits)) = (11875 <? lost_for fec bits).
Proof.
  intros fec bits. pose proof (lost_small fec bits) as H. unfold seconds. rewrite ten_seconds_of_bits by lia. apply Bool.eq_iff_eq_true. rewrite Z.ltb_lt, N.ltb_lt. lia.
Qed.
Lemma reset_seconds : forall (D : Type) (s : SubcarrierSet D), ss_sample_num s < 2 ^ 32 -> SFltb (f32_of_Z 5) (getSecondsSinceLastReset s) = (855000 <? ss_sample_num s).
Proof. intros D s H. unfold getSecondsSinceLastReset. rewrite five_seconds_of_samples by lia. apply Bool.eq_iff_eq_true. rewrite Z.ltb_lt, N.ltb_lt. lia. Qed.

(* ---- calls ---- *)
Definition as_call (x : Z * Group * N) : call := Group_in (fst (fst x)) (snd (fst x)) (snd x).
Lemma session_groups : forall env o gs c c' out, run_groups env o c gs = Ok (c', out) -> session env o c (map as_call gs) = Ok (c', printed out).
Proof.
  intros env o gs. induction gs as [|[[now g] w] gs IH]; intros c c' out E; cbn [run_groups map session] in *; [injection E as <- <-; reflexivity|].
  cbn [as_call fst snd do_call]. destruct (processGroup env o now c g w) as [[c1 l1]| |]; cbn [bind] in *; try discriminate. destruct (run_groups env o c1 gs) as [[c2 o2]| |] eqn:R; cbn [bind] in E; try discriminate.
  injection E as <- <-. rewrite (IH _ _ _ R). cbn [bind]. unfold printed. cbn [flat_map]. rewrite app_nil_r. reflexivity.
Qed.
Lemma stamped_called : forall l gs, Forall2 stamped_as l gs -> Forall2 called_as (map Some l) (map as_call gs).
Proof.
  intros l gs F. induction F as [|g [[now g'] w] l gs [W [t E]] F IH]; [constructor|]. cbn [map fst snd] in *. subst. constructor; [|exact IH]. constructor.
Qed.
(* the time and the block stream do not matter for groups with their times *)
Lemma session_lift : forall env o evs calls, Forall2 called_as evs calls -> forall c s T c2 lines, session env o (ch_set_time (streams_set c s) T) calls = Ok (c2, lines) ->
  exists c1, session env o c calls = Ok (c1, lines).
Proof.
  intros env o evs calls F. induction F as [|ev cl evs calls A F IH]; intros c s T c2 lines E; cbn [session] in *.
  - exists c. congruence.
  - destruct A as [g now t|]; cbn [do_call] in *.
    + rewrite time_lift, process_lift in E by reflexivity. destruct (processGroup env o now c (g_setTime g t) 0) as [[c1 l1]| |]; cbn [bind] in *; try discriminate.
      destruct (session env o (ch_set_time (streams_set c1 s) T) calls) as [[c3 l3]| |] eqn:E3; cbn [bind] in E; try discriminate. destruct (IH _ _ _ _ _ E3) as [c4 ->]. cbn [bind]. exists c4. congruence.
    + cbn [bind] in *. change (resetPI (ch_set_time (streams_set c s) T)) with (ch_set_time (streams_set (resetPI c) s) T) in E.
      destruct (session env o (ch_set_time (streams_set (resetPI c) s) T) calls) as [[c3 l3]| |] eqn:E3; cbn [bind] in E; try discriminate. destruct (IH _ _ _ _ _ E3) as [c4 ->]. cbn [bind]. exists c4. congruence.
Qed.

(* ---- one buffer after another ---- *)
Section Loop.
  Variable D : Type.
  Variable env : Env.
  Variable lq : Liquid D.
  Variable o : Options.

  Lemma chunk_heard : forall s dec chunk s' bits sofar r, demod D s dec -> processChunk lq s chunk [0] = Ok (s', bits) ->
    exists b dec', bits = [b] /\ demod D s' dec' /\ ss_ratio s' = ss_ratio s /\
      heard_in lq (negb (SFeqb (ss_ratio s) (f32_of_Z 1))) (o_use_fec o) (ss_sample_num s) (ss_liquid s) dec sofar (chunk :: r) =
        map Some (groups_after (o_use_fec o) sofar b) ++
        (if (11875 <? lost_for (o_use_fec o) (sofar ++ b)) && (855000 <? ss_sample_num s')
         then None :: heard_in lq (negb (SFeqb (ss_ratio s) (f32_of_Z 1))) (o_use_fec o) 0 (lq_reset lq (ss_liquid s')) dec' (sofar ++ b) r
         else heard_in lq (negb (SFeqb (ss_ratio s) (f32_of_Z 1))) (o_use_fec o) (ss_sample_num s') (ss_liquid s') dec' (sofar ++ b) r).
  Proof.
    intros s dec chunk s' bits sofar r (L4 & N0 & B) E. unfold processChunk in E. destruct (resampleChunk lq s chunk) as [s1 samples] eqn:Rs.
    assert (K : ss_decoders s1 = ss_decoders s /\ ss_sample_num s1 = ss_sample_num s /\ ss_ratio s1 = ss_ratio s /\
      (if negb (SFeqb (ss_ratio s) (f32_of_Z 1)) then resample_loop lq (ss_liquid s) chunk else (ss_liquid s, chunk)) = (ss_liquid s1, samples)).
    { unfold resampleChunk in Rs. destruct (SFeqb (ss_ratio s) (f32_of_Z 1)); [injection Rs as <- <-; auto|]. cbn [negb]. destruct (resample_loop lq (ss_liquid s) chunk) as [d l]. injection Rs as <- <-. auto. }
    destruct K as (K1 & K2 & K3 & K4).
    destruct (in_samples lq [0] ltac:(repeat constructor; intros []) ltac:(repeat constructor) samples s1 s' bits ltac:(rewrite K1; exact L4) E) as (H1 & H2 & H3 & H4 & H5 & _ & H6).
    destruct (samples_counted D lq [0] samples s1 s' bits ltac:(rewrite K2; exact B) E) as [C1 C2].
    destruct (H6 O 0 eq_refl) as (d0 & d1 & Q1 & Q2 & Q3). change (N.to_nat 0) with O in Q1, Q2. rewrite K1, N0 in Q1. injection Q1 as <-.
    destruct bits as [|b [|b2 bits]]; try discriminate H4. cbn [nth] in Q3. destruct (found_in lq (ss_sample_num s1) samples [0] (ss_liquid s1)) as [d2 found] eqn:Ff. cbn [fst snd] in *.
    destruct found as [|f0 [|f1 found]]; try discriminate H3. cbn [nth] in Q3.
    exists b, d1. split; [reflexivity|]. split; [split; [rewrite H5, K1; exact L4|split; [exact Q2|exact C2]]|]. split; [congruence|].
    cbn [heard_in]. rewrite K4. rewrite <- K2, Ff. cbn [concat]. rewrite app_nil_r, Q3, C1, H1. reflexivity.
  Qed.

  Lemma feed_any : forall now r c s dec sofar rest cs out, mr_num_channels r = 1 -> demod D s dec -> arr_get (ch_block_stream c) 0 = Ok (state_after (o_use_fec o) sofar) ->
    feed_channels env lq o now [0] r 0 [(c, s)] = Ok (cs, out) ->
    exists dec' b evs calls c1 c' s' lines, demod D s' dec' /\ ss_ratio s' = ss_ratio s /\ cs = [(c', s')] /\
      heard_in lq (negb (SFeqb (ss_ratio s) (f32_of_Z 1))) (o_use_fec o) (ss_sample_num s) (ss_liquid s) dec sofar (mr_buffer r :: rest) =
        evs ++ heard_in lq (negb (SFeqb (ss_ratio s) (f32_of_Z 1))) (o_use_fec o) (ss_sample_num s') (ss_liquid s') dec' (sofar ++ b) rest /\
      arr_get (ch_block_stream c') 0 = Ok (state_after (o_use_fec o) (sofar ++ b)) /\
      Forall2 called_as evs calls /\ session env o c calls = Ok (c1, lines) /\ all_lines out = lines /\ exists T, c' = ch_set_time (streams_set c1 (state_after (o_use_fec o) (sofar ++ b))) T.
  Proof.
    intros now r c s dec sofar rest cs out N1 Dm G E. cbn [feed_channels] in E. unfold feed_channel in E.
    assert (Rc : readChunk r 0 = Ok (mr_buffer r, mr_buffer_time r)) by (unfold readChunk; rewrite N1; cbn [N.leb N.compare]; destruct (mr_is_eof r); reflexivity).
    rewrite Rc in E. cbn [bind fst snd] in E. destruct (processChunk lq s (mr_buffer r) [0]) as [[s1 bits]| |] eqn:Pc; cbn [bind] in E; try discriminate.
    destruct (chunk_heard _ _ _ _ _ sofar rest Dm Pc) as (b & dec' & -> & Dm' & Ra & Sy). cbn [combine feed_streams] in E.
    unfold processBits in E. destruct (processBits_loop env o (mr_buffer_time r) now 0 b c) as [[c1 o1]| |] eqn:Pb; cbn [bind] in E; try discriminate.
    destruct (bits_run _ _ _ _ _ _ _ _ _ G Pb) as (gs & c2 & T & F & R & Ec).
    assert (St : fst (bst_run (state_after (o_use_fec o) sofar) b) = state_after (o_use_fec o) (sofar ++ b)).
    { unfold state_after. rewrite BlockSyncR.bst_run_app. destruct (bst_run (BlockStream_init (o_use_fec o)) sofar) as [x y]. cbn [fst]. destruct (bst_run x b); reflexivity. }
    rewrite St in Ec.
    assert (Ls : (1 <= length (ch_block_stream c2))%nat).
    { assert (X : length (ch_block_stream c2) = length (ch_block_stream c)).
      { clear - R. revert c c2 o1 R. induction gs as [|[[n g] w] gs IH]; intros c c2 o1 R; cbn [run_groups] in R; [injection R as <- _; reflexivity|]. destruct (processGroup env o n c g w) as [[c3 l3]| |] eqn:P; cbn [bind] in R; try discriminate.
        destruct (run_groups env o c3 gs) as [[c4 o4]| |] eqn:R4; cbn [bind] in R; try discriminate. injection R as <- _. rewrite (IH _ _ _ R4), (process_streams _ _ _ _ _ _ _ _ P). reflexivity. }
      rewrite X. unfold arr_get in G. destruct (ch_block_stream c); [discriminate|cbn [length]; lia]. }
    assert (G1 : arr_get (ch_block_stream c1) 0 = Ok (state_after (o_use_fec o) (sofar ++ b))) by (rewrite Ec; apply set_get; exact Ls).
    unfold getSecondsSinceCarrierLost in E. rewrite G1 in E. cbn [bind] in E. fold (seconds (bst_num_bits_since_sync_lost (state_after (o_use_fec o) (sofar ++ b)))) in E. rewrite lost_exact, lost_seconds in E.
    rewrite reset_seconds in E by exact (proj2 (proj2 Dm')).
    destruct ((11875 <? lost_for (o_use_fec o) (sofar ++ b)) && (855000 <? ss_sample_num s1)) eqn:Lo; cbv zeta in E; cbn [bind] in E; injection E as <- <-; rewrite !app_nil_r.
    - exists dec', b, (map Some (groups_after (o_use_fec o) sofar b) ++ [None]), (map as_call gs ++ [Reset_pi]), (resetPI c2), (resetPI c1), (ss_reset lq s1), (printed o1).
      split; [exact Dm' + (destruct Dm' as (X1 & X2 & _); split; [exact X1|split; [exact X2|reflexivity]])|]. split; [exact Ra|]. split; [reflexivity|]. split; [rewrite Sy, <- app_assoc; reflexivity|].
      split; [exact G1|]. split; [apply Forall2_app; [exact (stamped_called _ _ F)|constructor; [constructor|constructor]]|]. split.
      { rewrite (session_app _ _ _ _ _ _ _ (session_groups _ _ _ _ _ _ R)). cbn [session do_call bind]. cbn [printed flat_map]. rewrite app_nil_r. reflexivity. }
      split; [apply all_lines_of|]. exists T. rewrite Ec. reflexivity.
    - exists dec', b, (map Some (groups_after (o_use_fec o) sofar b)), (map as_call gs), c2, c1, s1, (printed o1).
      split; [exact Dm'|]. split; [exact Ra|]. split; [reflexivity|]. split; [exact Sy|]. split; [exact G1|]. split; [exact (stamped_called _ _ F)|]. split; [exact (session_groups _ _ _ _ _ _ R)|]. split; [apply all_lines_of|]. exists T. exact Ec.
  Qed.

  Lemma all_lines_app : forall a b, all_lines (a ++ b) = all_lines a ++ all_lines b.
  Proof. intros a b. apply flat_map_app. Qed.
  Lemma loop_any : forall full fuel clock r c s dec sofar rest css' out,
    mr_is_eof r = false -> mr_num_channels r = 1 -> mr_chunk_size r = 8192 -> mr_input r = concat full ++ rest ->
    Forall (fun p => N.of_nat (length p) = 8192) full -> N.of_nat (length rest) < 8192 ->
    demod D s dec -> arr_get (ch_block_stream c) 0 = Ok (state_after (o_use_fec o) sofar) ->
    mpx_loop fuel env lq o clock [0] r [(c, s)] = Ok (Some (css', out)) ->
    exists calls c1, Forall2 called_as (heard_in lq (negb (SFeqb (ss_ratio s) (f32_of_Z 1))) (o_use_fec o) (ss_sample_num s) (ss_liquid s) dec sofar (full ++ [rest])) calls /\
      session env o c calls = Ok (c1, all_lines out).
  Proof.
    induction full as [|p full IH]; intros fuel clock r c s dec sofar rest css' out Eo Nc Ck In Fl Lr Dm G E.
    - destruct fuel as [|f]; cbn [mpx_loop] in E; rewrite Eo in E; [discriminate|]. cbv zeta in E. cbn [concat app] in *.
      assert (Eb : mr_buffer (fillBuffer (clock O) r) = rest) by (unfold fillBuffer; cbn [mr_buffer]; rewrite In; apply firstn_all2; lia).
      assert (Ee : mr_is_eof (fillBuffer (clock O) r) = true) by (unfold fillBuffer; cbn [mr_is_eof]; rewrite In, Eo, firstn_all2 by lia; cbn [orb]; lia).
      assert (En : mr_num_channels (fillBuffer (clock O) r) = 1) by exact Nc. remember (fillBuffer (clock O) r) as r1 eqn:Er. clear Er.
      destruct (feed_channels env lq o (clock O) [0] r1 0 [(c, s)]) as [[cs o0]| |] eqn:Fc; cbn [bind] in E; try discriminate.
      destruct (feed_any (clock O) r1 c s dec sofar [] cs o0 En Dm G Fc) as (d1 & b & evs & calls & c1 & c' & s' & lines & _ & _ & _ & Sy & _ & F & R & <- & _).
      rewrite Eb in Sy. rewrite Sy. cbn [heard_in]. rewrite app_nil_r.
      exists calls, c1. split; [exact F|]. assert (out = o0) as -> by (destruct f; cbn [mpx_loop] in E; rewrite Ee in E; cbn [bind] in E; rewrite app_nil_r in E; congruence). exact R.
    - destruct fuel as [|f]; cbn [mpx_loop] in E; rewrite Eo in E; [discriminate|]. cbv zeta in E. cbn [concat app] in *. rewrite <- app_assoc in In. apply Forall_cons_iff in Fl. destruct Fl as [Lp Fl].
      assert (Eb : mr_buffer (fillBuffer (clock O) r) = p).
      { unfold fillBuffer; cbn [mr_buffer]. rewrite In, Ck, <- Lp, Nat2N.id, firstn_app, Nat.sub_diag. cbn [firstn]. rewrite app_nil_r. apply firstn_all. }
      assert (Ee : mr_is_eof (fillBuffer (clock O) r) = false) by (unfold fillBuffer in *; cbn [mr_is_eof mr_buffer] in *; rewrite Eb, Eo, Lp, Ck; reflexivity).
      assert (Ei : mr_input (fillBuffer (clock O) r) = concat full ++ rest).
      { unfold fillBuffer; cbn [mr_input]. rewrite In, Ck, <- Lp, Nat2N.id, skipn_app, Nat.sub_diag. cbn [skipn]. rewrite skipn_all. reflexivity. }
      assert (En : mr_num_channels (fillBuffer (clock O) r) = 1) by exact Nc. assert (Ek : mr_chunk_size (fillBuffer (clock O) r) = 8192) by exact Ck. remember (fillBuffer (clock O) r) as r1 eqn:Er. clear Er.
      destruct (feed_channels env lq o (clock O) [0] r1 0 [(c, s)]) as [[cs o0]| |] eqn:Fc; cbn [bind] in E; try discriminate.
      destruct (feed_any (clock O) r1 c s dec sofar (full ++ [rest]) cs o0 En Dm G Fc) as (d1 & b & evs & calls & c1 & c' & s' & lines & Dm' & Ra & -> & Sy & G' & F & R & <- & T & Ec).
      rewrite Eb in Sy. rewrite Sy.
      destruct (mpx_loop f env lq o _ [0] r1 [(c', s')]) as [[[cs4 o4]|]| |] eqn:E4; cbn [bind] in E; try discriminate. injection E as <- <-.
      destruct (IH f _ r1 c' s' d1 (sofar ++ b) rest cs4 o4 Ee En Ek Ei Fl Lr Dm' G' E4) as (calls2 & c2 & F2 & R2). rewrite Ra in F2.
      rewrite Ec in R2. destruct (session_lift _ _ _ _ F2 _ _ _ _ _ R2) as [c3 R3].
      exists (calls ++ calls2), c3. split; [apply Forall2_app; assumption|]. rewrite (session_app _ _ _ _ _ _ _ R), R3. cbn [bind]. rewrite all_lines_app. reflexivity.
  Qed.
End Loop.

Theorem audio_any : forall (D : Type) env se (lq : Liquid D) o fuel clock t samples rate full rest code items,
  mpx_init se o = Opened 1 rate -> o_streams o = false -> samples = concat full ++ rest ->
  Forall (fun p => N.of_nat (length p) = 8192) full -> N.of_nat (length rest) < 8192 ->
  processMPXInput fuel env se lq o clock t samples = Ok (Some (code, items)) ->
  let o' := with_audio o 1 (f32_of_Z rate) in
  let resampled := negb (SFeqb (f32_div f32_target_rate (f32_of_Z rate)) (f32_of_Z 1)) in
  code = EXIT_SUCCESS /\ exists calls c, Forall2 called_as (heard_in lq resampled (o_use_fec o) 0 (lq_init lq (f32_of_Z rate)) (BiphaseDecoder_init, 0) [] (full ++ [rest])) calls /\
    session env o' (Channel_new o' 0) calls = Ok (c, all_lines items).
Proof.
  intros D env se lq o fuel clock t samples rate full rest code items Op St Sa Fl Lr E. cbv zeta.
  unfold processMPXInput in E. rewrite Op in E. cbv zeta in E. set (o' := with_audio o 1 (f32_of_Z rate)) in *. change (o_streams o') with (o_streams o) in E. rewrite St in E.
  change (N.to_nat 1) with 1%nat in E. cbn [make_receivers] in E. unfold SubcarrierSet_new in E. change (o_samplerate o') with (f32_of_Z rate) in E.
  destruct (SubcarrierSet_create (f32_of_Z rate)); cbn [bind] in E; try discriminate.
  set (s0 := mkSubcarrierSet 0 (f32_div f32_target_rate (f32_of_Z rate)) (lq_init lq (f32_of_Z rate)) (repeat (BiphaseDecoder_init, 0) 4)) in E.
  match type of E with context [mpx_loop ?a1 ?a2 ?a3 ?a4 ?a5 ?a6 ?a7 ?a8] => destruct (mpx_loop a1 a2 a3 a4 a5 a6 a7 a8) as [[[css out]|]| |] eqn:L end; cbn [bind] in E; try discriminate.
  assert (Fs : Forall (fresh_streams D o') css).
  { apply (loop_fresh D env lq o' _ _ _ _ _ _ L). constructor; [|constructor]. exists (BlockStream_init (o_use_fec o')). reflexivity. }
  destruct (flush_channels env o' t 0 css) as [f1| |] eqn:Fc; cbn [bind] in E; try discriminate. rewrite (flush_fresh D env o' t css 0 f1 Fs Fc), app_nil_r in E. injection E as <- <-.
  split; [reflexivity|].
  exact (loop_any D env lq o' full fuel clock (MPXReader_init 1 samples) (Channel_new o' 0) s0 (BiphaseDecoder_init, 0) [] rest css out eq_refl eq_refl eq_refl Sa Fl Lr (conj eq_refl (conj eq_refl eq_refl)) eq_refl L).
Qed.

(* ---- a new start ---- *)
(* The same PI codes since the reset; the same station unless none has been confirmed since *)
Definition restarted (c1 c2 : Channel) : Prop :=
  ch_which_channel c1 = ch_which_channel c2 /\ ch_cached_pi c1 = ch_cached_pi c2 /\ (pi_confirmed (ch_cached_pi c1) = 0 \/ ch_station c1 = ch_station c2).
Lemma unconfirmed : forall c q, pi_confirmed c = 0 -> pi_confirmed (fst (pi_update c q)) = 0 \/ snd (pi_update c q) = ChangeConfirmed.
Proof.
  intros c q Z. unfold pi_update. cbv zeta. rewrite Z. destruct (pi_has_previous c && (pi_prev1 c =? pi_prev2 c) && (q =? pi_prev1 c)).
  - destruct (N.eqb_spec q 0) as [->|Nq]; [left|right]; destruct (_ && _); reflexivity.
  - left. destruct (_ && _); reflexivity.
Qed.
Lemma process_restarted : forall env o now c1 c2 g w c1' l1, host_ok env -> o_output_type o = OutJSON -> o_bler o = false -> o_timestamp o = false \/ g_has_time g = true ->
  ch_ok c2 -> g_has_bler g = false -> restarted c1 c2 -> processGroup env o now c1 g w = Ok (c1', l1) ->
  exists c2' l2, processGroup env o now c2 g w = Ok (c2', l2) /\ ch_ok c2' /\ restarted c1' c2' /\ (pi_confirmed (ch_cached_pi c1') = 0 \/ l1 = l2).
Proof.
  intros env o now c1 c2 g w c1' l1 Ho OJ OB T Hc Hb (Sw & Sc & Ss) P.
  destruct (process_good env o now c2 g w (proj1 (host_env env Ho)) Hc Hb) as ([c2' l2] & P2 & C2 & _). exists c2', l2. split; [exact P2|]. split; [exact C2|].
  destruct Ss as [Z|Ss].
  - rewrite process_json in P, P2 by exact OJ. cbv zeta in *. rewrite plain_prepared in P, P2 by assumption. unfold restarted.
    assert (En : next_pi c2 (streamed g w) = next_pi c1 (streamed g w)) by (unfold next_pi; rewrite Sc; reflexivity).
    assert (D : pi_confirmed (next_pi c1 (streamed g w)) = 0 \/ tuned c1 (streamed g w) = tuned c2 (streamed g w)).
    { unfold tuned, next_pi. rewrite <- Sc, <- Sw. destruct (g_hasPI (streamed g w)); [|left; exact Z].
      destruct (unconfirmed _ (g_getPI (streamed g w)) Z) as [U|U]; [left; exact U|right]. rewrite U. reflexivity. }
    destruct (updateAndPrint env o (tuned c1 (streamed g w)) (streamed g w)) as [[s1 k1]| |] eqn:U1; cbn [bind] in P; try discriminate. 
    destruct (updateAndPrint env o (tuned c2 (streamed g w)) (streamed g w)) as [[s2 k2]| |] eqn:U2; cbn [bind] in P2; try discriminate.
    injection P as <- <-. injection P2 as <- <-. unfold after. cbn [ch_which_channel ch_cached_pi ch_station]. rewrite !plain_prepared by assumption. rewrite En.
    destruct D as [D|D]; [repeat split; auto|]. rewrite D, U2 in U1. assert (s1 = s2) as -> by congruence. assert (k1 = k2) as -> by congruence. repeat split; auto.
  - destruct (process_same env o now now c1 c2 g w c1' l1 OB T (conj Sw (conj Sc Ss)) P) as (c3 & P3 & (S1 & S2 & S3)). rewrite P2 in P3. assert (c3 = c2') as -> by congruence. assert (l2 = l1) as -> by congruence.
    split; [split; [exact S1|split; [exact S2|right; exact S3]]|right; reflexivity].
Qed.
Definition comparable (o : Options) (x : Z * Group * N) : Prop := o_timestamp o = false \/ g_has_time (snd (fst x)) = true.
Lemma run_restarted : forall env o gs c1 c2 c1' out1, host_ok env -> o_output_type o = OutJSON -> o_bler o = false -> Forall (comparable o) gs -> Forall received_group gs ->
  ch_ok c2 -> restarted c1 c2 -> run_groups env o c1 gs = Ok (c1', out1) ->
  exists c2' out2, run_groups env o c2 gs = Ok (c2', out2) /\ ch_ok c2' /\ restarted c1' c2' /\ length out1 = length gs /\ length out2 = length gs.
Proof.
  intros env o gs. induction gs as [|[[now g] w] gs IH]; intros c1 c2 c1' out1 Ho OJ OB T Rg Hc S E; cbn [run_groups] in *.
  - injection E as <- <-. exists c2, []. split; [reflexivity|]. split; [exact Hc|]. split; [exact S|]. split; reflexivity.
  - apply Forall_cons_iff in T. destruct T as [Tx T]. unfold comparable in Tx. cbn [fst snd] in Tx. apply Forall_cons_iff in Rg. destruct Rg as [[Hb _] Rg].
    destruct (processGroup env o now c1 g w) as [[d1 l1]| |] eqn:P; cbn [bind] in E; try discriminate. destruct (run_groups env o d1 gs) as [[e1 o1]| |] eqn:R; cbn [bind] in E; try discriminate. injection E as <- <-.
    destruct (process_restarted _ _ _ _ _ _ _ _ _ Ho OJ OB Tx Hc Hb S P) as (d2 & l2 & -> & Hd & S2 & _). cbn [bind].
    destruct (IH d1 d2 e1 o1 Ho OJ OB T Rg Hd S2 R) as (e2 & o2 & -> & He & S3 & L1 & L2). cbn [bind]. exists e2, (l2 :: o2). cbn [length]. split; [reflexivity|]. split; [exact He|]. split; [exact S3|]. split; congruence.
Qed.
Lemma confirmed_three : forall env o w0 gs c out p, o_output_type o = OutJSON -> run_groups env o (Channel_new o w0) gs = Ok (c, out) -> p <> 0 -> forall now g w c' line,
  processGroup env o now c g w = Ok (c', line) -> three p (pis (gs ++ [(now, g, w)])) -> carried_pi (now, g, w) <> None -> pi_confirmed (ch_cached_pi c') = p.
Proof.
  intros env o w0 gs c out p OJ R Np now g w c' line P T Ca. pose proof (run_pi _ _ _ _ _ _ OJ R) as (I1 & I2 & I3 & _ & _). pose proof (process_pi _ _ _ _ _ _ _ _ OJ P) as Q.
  rewrite pis_app in T. unfold pis at 2 in T. cbn [flat_map] in T. destruct (carried_pi (now, g, w)) as [q|]; [|contradiction]. cbn [app] in T. destruct Q as [-> _].
  apply three_rev in T. destruct T as (r & E). rewrite rev_app_distr in E. cbn [rev app] in E. injection E as -> E.
  assert (Tt : pi_has_previous (ch_cached_pi c) && (pi_prev1 (ch_cached_pi c) =? pi_prev2 (ch_cached_pi c)) && (p =? pi_prev1 (ch_cached_pi c)) = true).
  { destruct (pi_has_previous (ch_cached_pi c)) eqn:Hp.
    - destruct (I2 eq_refl) as [(r' & E')|(E' & _)]; rewrite E in E'; [|discriminate]. injection E' as E1 E2 _. rewrite <- E1, <- E2, N.eqb_refl. reflexivity.
    - destruct (I3 eq_refl) as [E'|(a & b & r' & E' & N')]; rewrite E in E'; [discriminate|]. injection E' as E1 E2 _. subst. contradiction. }
  unfold pi_update. cbv zeta. rewrite Tt, N.eqb_refl. cbn [negb andb]. rewrite andb_false_r. reflexivity.
Qed.
Theorem new_start : forall env o c gs1 now g w gs2 p c1 out1, host_ok env -> o_output_type o = OutJSON -> o_bler o = false -> let gs := gs1 ++ (now, g, w) :: gs2 in
  Forall (comparable o) gs -> Forall received_group gs -> p <> 0 -> three p (pis (gs1 ++ [(now, g, w)])) -> carried_pi (now, g, w) <> None ->
  run_groups env o (resetPI c) gs = Ok (c1, out1) ->
  exists c2 out2, run_groups env o (Channel_new o (ch_which_channel c)) gs = Ok (c2, out2) /\ skipn (length gs1) out1 = skipn (length gs1) out2.
Proof.
  intros env o c gs1 now g w gs2 p c1 out1 Ho OJ OB. cbv zeta. intros T Rg Np Th Ca R. apply Forall_app in T. destruct T as [T1 T]. apply Forall_app in Rg. destruct Rg as [R1 Rg].
  apply Forall_cons_iff in T. destruct T as [Tx T2]. unfold comparable in Tx. cbn [fst snd] in Tx. apply Forall_cons_iff in Rg. destruct Rg as [[Hb _] R2]. rewrite run_groups_app in R.
  destruct (run_groups env o (resetPI c) gs1) as [[d1 o1]| |] eqn:Q1; cbn [bind] in R; try discriminate. cbn [run_groups] in R.
  destruct (processGroup env o now d1 g w) as [[e1 l1]| |] eqn:P1; cbn [bind] in R; try discriminate. destruct (run_groups env o e1 gs2) as [[f1 o3]| |] eqn:Q3; cbn [bind] in R; try discriminate. injection R as <- <-.
  assert (S0 : restarted (resetPI c) (Channel_new o (ch_which_channel c))) by (split; [reflexivity|split; [reflexivity|left; reflexivity]]).
  destruct (run_restarted _ _ _ _ _ _ _ Ho OJ OB T1 R1 (channel_new_ok _ _) S0 Q1) as (d2 & o2 & Q2 & Hd & S1 & L1 & L2).
  destruct (process_restarted _ _ _ _ _ _ _ _ _ Ho OJ OB Tx Hd Hb S1 P1) as (e2 & l2 & P2 & He & S2 & Dl).
  pose proof (confirmed_three _ _ _ _ _ _ _ OJ Q2 Np _ _ _ _ _ P2 Th Ca) as Cf. destruct S2 as (S2a & S2b & S2c). rewrite S2b, Cf in S2c, Dl.
  destruct Dl as [Dl|Dl]; [congruence|]. destruct S2c as [X|S2c]; [congruence|].
  destruct (run_same env o gs2 e1 e2 f1 o3 OB T2 (conj S2a (conj S2b S2c)) Q3) as (f2 & Q4 & _).
  exists f2, (o2 ++ l2 :: o3). split.
  - rewrite run_groups_app, Q2. cbn [bind run_groups]. rewrite P2. cbn [bind]. rewrite Q4. reflexivity.
  - rewrite <- L1 at 1. rewrite <- L2. rewrite !skipn_app, !skipn_all, !Nat.sub_diag. cbn [skipn app]. congruence.
Qed.

(* Zero bits: sync is never found *)
Lemma zeros_value : forall n, bits_value (repeat false n) = 0.
Proof. intros n. unfold bits_value. induction n as [|n IH]; [reflexivity|]. exact IH. Qed.
Lemma zeros_unsynced : forall fec n, in_sync_after fec (repeat false n) = false.
Proof.
  intros fec n. induction n as [|n IH]; [reflexivity|]. replace (repeat false (S n)) with (repeat false n ++ [false]) by (rewrite <- repeat_cons; reflexivity).
  unfold in_sync_after in *. rewrite after_snoc. destruct (bst_run (BlockStream_init fec) (repeat false n)) as [s gs] eqn:R. destruct (run_reachable fec (repeat false n) s gs R) as (I & RH & _).
  assert (Es : state_after fec (repeat false n) = s) by (unfold state_after; rewrite R; reflexivity). rewrite Es in *.
  destruct (bst_step s false) as [s' og] eqn:Q. pose proof (bst_step_kind s _ false s' og I RH Q) as K. cbn [fst].
  assert (Z : recognise (window (repeat false n ++ [false])) = OffInvalid).
  { rewrite <- window_of_value, <- repeat_cons. change (false :: repeat false n) with (repeat false (S n)). rewrite zeros_value. vm_compute. reflexivity. }
  destruct K as [Hu Hs|s1 Hs E1 Hn|s1 st gs' s' Hs E1 Hn SS IS' U' ST FE RE BC SB HR|st gs' s' Hs U0 SS IS' U' ST FE RE BC SB HR|s' Hs U0 SS IS' U' RA FE RE BC SB HR]; try congruence.
  - exact Hn.
  - exfalso. rewrite Z in E1. assert (X : bst_is_in_sync (acquireSync (shifted s false) OffInvalid) = false) by (unfold acquireSync; change (bst_is_in_sync (shifted s false)) with (bst_is_in_sync s); rewrite IH; reflexivity). rewrite E1, X in Hn. discriminate Hn.
Qed.
Lemma zeros_lost : forall fec n, N.of_nat n < 2 ^ 32 -> lost_for fec (repeat false n) = N.of_nat n.
Proof.
  intros fec n. induction n as [|n IH]; intros B; [reflexivity|]. pose proof (zeros_unsynced fec (S n)) as U1. pose proof (zeros_unsynced fec n) as U0. 
  assert (E : repeat false (S n) = repeat false n ++ [false]) by (rewrite <- repeat_cons; reflexivity). rewrite E in *. rewrite lost_snoc, U1, U0. cbn [orb]. rewrite IH by lia. rewrite N.mod_small; lia.
Qed.
