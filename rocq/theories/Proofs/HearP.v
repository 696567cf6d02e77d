(* Audio with one channel: the lines are those of the groups in the bits (C86). *)
From Verif.Model Require Import Base Util Float Group BlockSync Options Json Tmc Tables Station Input Channel Dsp Main.
From Verif.Spec Require Import RdsCode RdsStream Inputs Unicode JsonText Session Identity Texts History Host Program Recording Reception OnAir Biphase Demod Hearing.
From Verif.Proofs Require Import Tac BlockSyncG BlockSyncE AirP SessionP UpdateP ChannelP LinesP HistoryP InputP MainP RecordP CutP DspP BiphaseP DemodP LossF.
Local Open Scope string_scope.
Local Open Scope N_scope.
Local Open Scope list_scope.

(* ---- bits since sync was lost ---- *)
Lemma push_counter : forall s b, (bst_is_in_sync s = true -> bst_num_bits_since_sync_lost s = 0) ->
  (bst_is_in_sync (pushBit s b) = true -> bst_num_bits_since_sync_lost (pushBit s b) = 0) /\
  (bst_num_bits_since_sync_lost (pushBit s b) <= bst_num_bits_since_sync_lost s + 1).
Proof.
  intros s b H. unfold pushBit. match goal with |- context [if bst_num_bits_until_next_block ?x =? 0 then _ else _] => set (s1 := x) end.
  assert (H1 : bst_is_in_sync s1 = true -> bst_num_bits_since_sync_lost s1 = 0) by exact H.
  assert (C1 : bst_num_bits_since_sync_lost s1 = bst_num_bits_since_sync_lost s) by reflexivity. rewrite <- C1. clearbody s1. clear C1 H s.
  destruct (_ =? 0); [|split; [exact H1|lia]].
  assert (G : (bst_is_in_sync (findBlockInInputRegister s1) = true -> bst_num_bits_since_sync_lost (findBlockInInputRegister s1) = 0) /\
    bst_num_bits_since_sync_lost (findBlockInInputRegister s1) <= bst_num_bits_since_sync_lost s1 + 1); [|exact G].
  unfold findBlockInInputRegister. set (raw := N.land _ _). set (off := getOffsetForSyndrome _).
  assert (A : (bst_is_in_sync (acquireSync s1 off) = true -> bst_num_bits_since_sync_lost (acquireSync s1 off) = 0) /\ bst_num_bits_since_sync_lost (acquireSync s1 off) <= bst_num_bits_since_sync_lost s1 + 1).
  { unfold acquireSync. destruct (bst_is_in_sync s1) eqn:Y; [rewrite Y; split; [intros _; apply H1; reflexivity|lia]|]. cbv zeta.
    destruct (negb _); [destruct (isSequenceFound _)|]; cbn [bst_is_in_sync bst_num_bits_since_sync_lost]; split; try discriminate; try reflexivity; unfold u32; try lia;
    (eapply N.le_trans; [apply N.mod_le; discriminate|lia]). }
  set (s2 := acquireSync s1 off) in *. clearbody s2. cbv zeta. destruct (bst_is_in_sync s2) eqn:Y; [|rewrite Y; exact A]. destruct A as [A1 A2]. specialize (A1 eq_refl).
  match goal with |- context [if Offset_eqb _ OffC && _ then ?x else s2] => set (s3 := if Offset_eqb _ OffC && _ then x else s2) end.
  assert (C3 : bst_num_bits_since_sync_lost s3 = 0) by (unfold s3; destruct (_ && _); exact A1). clearbody s3.
  set (s4 := bst_set_sum s3 _). assert (C4 : bst_num_bits_since_sync_lost s4 = 0) by exact C3. clearbody s4.
  destruct (_ <? _); [cbn [bst_is_in_sync bst_num_bits_since_sync_lost]; split; [discriminate|lia]|].
  match goal with |- context [let '(data, offset') := ?x in _] => destruct x as [data off'] end.
  match goal with |- context [if Offset_eqb off' ?e then ?x else s4] => set (s5 := if Offset_eqb off' e then x else s4) end.
  assert (C5 : bst_num_bits_since_sync_lost s5 = 0) by (unfold s5; destruct (Offset_eqb _ _); exact C4). clearbody s5.
  match goal with |- context [if ?b then handleNewlyReceivedGroup ?x else _] => destruct b end; cbn [handleNewlyReceivedGroup bst_set_expected bst_is_in_sync bst_num_bits_since_sync_lost]; rewrite C5; split; [reflexivity|lia|reflexivity|lia].
Qed.
Lemma step_counter : forall s b, bst_is_in_sync (fst (bst_step s b)) = bst_is_in_sync (pushBit s b) /\ bst_num_bits_since_sync_lost (fst (bst_step s b)) = bst_num_bits_since_sync_lost (pushBit s b).
Proof. intros s b. unfold bst_step. destruct (bst_has_group_ready (pushBit s b)); split; reflexivity. Qed.
Lemma after_snoc : forall fec bits b, state_after fec (bits ++ [b]) = fst (bst_step (state_after fec bits) b).
Proof.
  intros fec bits b. unfold state_after. rewrite bst_run_app. destruct (bst_run (BlockStream_init fec) bits) as [s g]. cbn [fst bst_run]. destruct (bst_step s b) as [s1 og]. reflexivity.
Qed.
Lemma counter_bits : forall fec bits, (bst_is_in_sync (state_after fec bits) = true -> bst_num_bits_since_sync_lost (state_after fec bits) = 0) /\
  exists p q, bits = p ++ q /\ bst_num_bits_since_sync_lost (state_after fec bits) <= N.of_nat (length q) /\ forall a b, q = a ++ b -> a <> [] -> in_sync_after fec (p ++ a) = false.
Proof.
  intros fec bits. induction bits as [|b bits IH] using rev_ind.
  - split; [discriminate|]. exists [], []. split; [reflexivity|]. split; [cbn; lia|]. intros a b E Na. destruct a; [contradiction|discriminate].
  - destruct IH as [I1 (p & q & E & L & F)]. rewrite after_snoc. destruct (push_counter (state_after fec bits) b I1) as [P1 P2]. destruct (step_counter (state_after fec bits) b) as [S1 S2]. rewrite S1, S2. split; [exact P1|].
    destruct (bst_is_in_sync (pushBit (state_after fec bits) b)) eqn:Y.
    + exists (bits ++ [b]), []. rewrite app_nil_r. split; [reflexivity|]. split; [rewrite (P1 eq_refl); cbn; lia|]. intros a c Ea Na. destruct a; [contradiction|discriminate].
    + exists p, (q ++ [b]). split; [rewrite E, app_assoc; reflexivity|]. split; [rewrite app_length; cbn [length]; lia|]. intros a c Ea Na.
      destruct c as [|y c] using rev_ind.
      * rewrite app_nil_r in Ea. subst a. unfold in_sync_after. rewrite app_assoc, <- E, after_snoc, S1. reflexivity.
      * rewrite app_assoc in Ea. apply app_inj_tail in Ea. destruct Ea as [Ea _]. exact (F a c Ea Na).
Qed.
Lemma gap_counter : forall fec bits pre post, no_long_gap fec bits -> bits = pre ++ post -> bst_num_bits_since_sync_lost (state_after fec pre) <= 11875.
Proof.
  intros fec bits pre post G E. destruct (counter_bits fec pre) as [_ (p & q & Eq & L & F)].
  destruct (N.le_gt_cases (bst_num_bits_since_sync_lost (state_after fec pre)) 11875) as [H|H]; [exact H|exfalso].
  set (k := N.to_nat 11876). assert (Lk : (k <= length q)%nat) by lia.
  destruct (G p (firstn k q) (skipn k q ++ post)) as (a & b & Ea & Na & Y).
  - rewrite E, Eq, <- (firstn_skipn k q) at 1. rewrite <- !app_assoc. reflexivity.
  - rewrite firstn_length. lia.
  - rewrite (F a (b ++ skipn k q)) in Y; [discriminate| |exact Na]. rewrite app_assoc, <- Ea, firstn_skipn. reflexivity.
Qed.
(* n bits at 1187.5 bits per second *)
Definition seconds (n : N) : spec_float := f32_div (f32_of_Z (Z.of_N n)) (S754_finite false 9728000 (-13)).
Lemma ten_seconds : forall n, n <= 11875 -> SFltb (f32_of_Z 10) (seconds n) = false.
Proof. intros n H. unfold seconds. rewrite ten_seconds_of_bits by lia. lia. Qed.

(* ---- bits of one buffer ---- *)
Lemma time_lift : forall env o now c t g w, g_has_time g = true ->
  processGroup env o now (ch_set_time c t) g w = ('(c', l) <- processGroup env o now c g w ;; Ok (ch_set_time c' t, l)).
Proof.
  intros env o now c t g w T. unfold processGroup. rewrite T, andb_false_r. cbn [ch_set_time ch_which_channel ch_cached_pi ch_block_stream ch_station ch_bler_average ch_last_group_rx_time].
  destruct (o_bler o); destruct (g_hasPI _); try destruct (pi_update _ _) as [cached status]; destruct (o_output_type o); try reflexivity; destruct (updateAndPrint env o _ _) as [[st l]| |]; reflexivity.
Qed.
Lemma run_time : forall env o t gs c, Forall (fun x => g_has_time (snd (fst x)) = true) gs ->
  run_groups env o (ch_set_time c t) gs = ('(c', out) <- run_groups env o c gs ;; Ok (ch_set_time c' t, out)).
Proof.
  intros env o t gs. induction gs as [|[[now g] w] gs IH]; intros c F; cbn [run_groups]; [reflexivity|]. apply Forall_cons_iff in F. destruct F as [Fg F]. cbn [fst snd] in Fg.
  rewrite time_lift by exact Fg. destruct (processGroup env o now c g w) as [[c1 l1]|m|m]; cbn [bind]; [|reflexivity|reflexivity].
  rewrite IH by exact F. destruct (run_groups env o c1 gs) as [[c2 o2]|m|m]; reflexivity.
Qed.
Lemma stamped_time : forall l gs, Forall2 stamped_as l gs -> Forall (fun x => g_has_time (snd (fst x)) = true) gs.
Proof. intros l gs F. induction F as [|g x l gs [_ [t E]] F IH]; [constructor|]. constructor; [rewrite E; reflexivity|exact IH]. Qed.
Lemma set_time_streams : forall c t s, ch_set_time (streams_set c s) t = streams_set (ch_set_time c t) s.
Proof. reflexivity. Qed.
Lemma set_time_set : forall c t t', ch_set_time (ch_set_time c t) t' = ch_set_time c t'.
Proof. reflexivity. Qed.
Lemma set_own : forall c s, arr_get (ch_block_stream c) 0 = Ok s -> streams_set c s = c.
Proof.
  intros c s G. destruct c as [cw cp cb cs ca cl]. unfold streams_set, ch_set_stream. cbn [ch_which_channel ch_cached_pi ch_block_stream ch_station ch_bler_average ch_last_group_rx_time] in *. f_equal.
  unfold arr_get in G. change (N.to_nat 0) with O in *. destruct cb as [|x l]; cbn [nth_error] in G; [discriminate|]. injection G as ->. reflexivity.
Qed.
Lemma time_own : forall c, ch_set_time c (ch_last_group_rx_time c) = c.
Proof. intros []. reflexivity. Qed.

Lemma bits_run : forall env o t now bits c s c' out, arr_get (ch_block_stream c) 0 = Ok s -> processBits_loop env o t now 0 bits c = Ok (c', out) ->
  exists gs c1 T, Forall2 stamped_as (snd (bst_run s bits)) gs /\ run_groups env o c gs = Ok (c1, out) /\ c' = ch_set_time (streams_set c1 (fst (bst_run s bits))) T.
Proof.
  intros env o t now bits. induction bits as [|b bits IH]; intros c s c' out G E; cbn [processBits_loop bst_run] in *.
  - injection E as <- <-. exists [], c, (ch_last_group_rx_time c). split; [constructor|]. split; [reflexivity|]. cbn [fst]. rewrite set_own by exact G. symmetry. apply time_own.
  - rewrite G in E. cbn [bind] in E. destruct (bst_step s b) as [s1 og]. change (ch_set_stream c 0 s1) with (streams_set c s1) in E.
    assert (G1 : forall c0, length (ch_block_stream c0) = length (ch_block_stream c) -> arr_get (ch_block_stream (streams_set c0 s1)) 0 = Ok s1).
    { intros c0 L. apply set_get. rewrite L. unfold arr_get in G. destruct (ch_block_stream c); [discriminate|cbn [length]; lia]. }
    destruct og as [g|]; cbn [bind] in E.
    + destruct (bit_age_ms _) as [age| |]; cbn [bind] in E; try discriminate. cbv zeta in E.
      set (t1 := if (t - age * 1000000 <? ch_last_group_rx_time (streams_set c s1))%Z then ch_last_group_rx_time (streams_set c s1) else (t - age * 1000000)%Z) in E. clearbody t1.
      rewrite process_lift in E. destruct (processGroup env o now c (g_setTime g t1) 0) as [[c1 l1]| |] eqn:P; cbn [bind] in E; try discriminate.
      pose proof (process_streams env o now c _ 0 c1 l1 P) as PS.
      destruct (processBits_loop env o t now 0 bits _) as [[c2 o2]| |] eqn:E2; cbn [bind] in E; try discriminate. injection E as -> <-.
      assert (G2 : arr_get (ch_block_stream (ch_set_time (streams_set c1 s1) t1)) 0 = Ok s1) by (apply (G1 c1); rewrite PS; reflexivity).
      destruct (IH _ _ _ _ G2 E2) as (gs & c3 & T & F & R & Ec).
      rewrite run_time in R by exact (stamped_time _ _ F). rewrite run_lift in R. destruct (run_groups env o c1 gs) as [[c4 o4]| |] eqn:R4; cbn [bind] in R; try discriminate.
      assert (c3 = ch_set_time (streams_set c4 s1) t1) as -> by congruence. assert (o4 = o2) as -> by congruence.
      destruct (bst_run s1 bits) as [s2 gs2]. cbn [fst snd] in *. exists ((now, g_setTime g t1, 0) :: gs), c4, T. split; [constructor; [split; [reflexivity|exists t1; reflexivity]|exact F]|]. split.
      * cbn [run_groups]. rewrite P. cbn [bind]. rewrite R4. reflexivity.
      * rewrite Ec. rewrite <- (set_set c4 s1 s2). reflexivity.
    + destruct (processBits_loop env o t now 0 bits _) as [[c2 o2]| |] eqn:E2; cbn [bind] in E; try discriminate. injection E as -> <-.
      destruct (IH _ _ _ _ (G1 c eq_refl) E2) as (gs & c3 & T & F & R & Ec). rewrite run_lift in R. destruct (run_groups env o c gs) as [[c4 o4]| |] eqn:R4; cbn [bind] in R; try discriminate.
      assert (c3 = streams_set c4 s1) as -> by congruence. assert (o4 = o2) as -> by congruence.
      destruct (bst_run s1 bits) as [s2 gs2]. cbn [fst snd] in *. exists gs, c4, T. split; [exact F|]. split; [exact R4|]. rewrite Ec, set_set. reflexivity.
Qed.

(* ---- one buffer after another ---- *)
Section Loop.
  Variable D : Type.
  Variable env : Env.
  Variable lq : Liquid D.
  Variable o : Options.
  Lemma sample_kept : forall turn x streams s s' bits, sample_streams lq turn x streams s = Ok (s', bits) -> ss_sample_num s' = ss_sample_num s.
  Proof.
    intros turn x. induction streams as [|st streams IH]; intros s s' bits E; cbn [sample_streams] in E; [congruence|].
    destruct (lq_sample lq (ss_liquid s) st x turn) as [d y]. match type of E with (bind ?m _ = _) => destruct m as [[decs b]| |] end; cbn [bind] in E; try discriminate.
    destruct (sample_streams lq turn x streams _) as [[s2 b2]| |] eqn:E2; cbn [bind] in E; try discriminate. assert (s2 = s') as -> by congruence. exact (IH _ _ _ E2).
  Qed.
  Lemma samples_counted : forall streams samples s s' bits, ss_sample_num s < 2 ^ 32 -> process_samples lq streams samples s = Ok (s', bits) ->
    ss_sample_num s' = (ss_sample_num s + N.of_nat (length samples)) mod 2 ^ 32 /\ ss_sample_num s' < 2 ^ 32.
  Proof.
    intros streams. induction samples as [|x samples IH]; intros s s' bits B E; cbn [process_samples] in E.
    - injection E as <- _. cbn [length]. rewrite N.add_0_r, N.mod_small by exact B. split; [reflexivity|exact B].
    - destruct (sample_streams lq _ x streams s) as [[s1 b1]| |] eqn:E1; cbn [bind] in E; try discriminate. cbv zeta in E. apply sample_kept in E1.
      destruct (process_samples lq streams samples _) as [[s2 b2]| |] eqn:E2; cbn [bind] in E; try discriminate. assert (s2 = s') as -> by congruence.
      assert (Bn : u32 (ss_sample_num s1 + 1) < 2 ^ 32) by (unfold u32; apply N.mod_lt; discriminate).
      destruct (IH (mkSubcarrierSet (u32 (ss_sample_num s1 + 1)) (ss_ratio s1) (ss_liquid s1) (ss_decoders s1)) _ _ Bn E2) as [H1 H2]. split; [|exact H2]. rewrite H1. cbn [ss_sample_num]. rewrite E1. unfold u32. change 4294967296 with (2 ^ 32).
      rewrite N.add_mod_idemp_l by discriminate. f_equal. cbn [length]. lia.
  Qed.
  (* the part of the demodulator that matters from here on *)
  Definition demod (s : SubcarrierSet D) (dec : BiphaseDecoder * N) : Prop := length (ss_decoders s) = 4%nat /\ nth_error (ss_decoders s) 0 = Some dec /\ ss_sample_num s < 2 ^ 32.
  Lemma symbols_cons : forall b r resampled n d, symbols_of lq resampled n d (b :: r) =
    let '(d1, samples) := if resampled then resample_loop lq d b else (d, b) in
    let '(d2, found) := found_in lq n samples [0] d1 in concat found ++ symbols_of lq resampled ((n + N.of_nat (length samples)) mod 2 ^ 32) d2 r.
  Proof. reflexivity. Qed.
  Lemma chunk_demod : forall s dec chunk s' bits, demod s dec -> processChunk lq s chunk [0] = Ok (s', bits) ->
    exists syms b dec', bits = [b] /\ decode_symbols dec syms = Ok (dec', b) /\ demod s' dec' /\ ss_ratio s' = ss_ratio s /\
      forall r, symbols_of lq (negb (SFeqb (ss_ratio s) (f32_of_Z 1))) (ss_sample_num s) (ss_liquid s) (chunk :: r) =
        syms ++ symbols_of lq (negb (SFeqb (ss_ratio s) (f32_of_Z 1))) (ss_sample_num s') (ss_liquid s') r.
  Proof.
    intros s dec chunk s' bits (L4 & N0 & B) E. unfold processChunk in E. destruct (resampleChunk lq s chunk) as [s1 samples] eqn:Rs.
    assert (K : ss_decoders s1 = ss_decoders s /\ ss_sample_num s1 = ss_sample_num s /\ ss_ratio s1 = ss_ratio s /\
      (if negb (SFeqb (ss_ratio s) (f32_of_Z 1)) then resample_loop lq (ss_liquid s) chunk else (ss_liquid s, chunk)) = (ss_liquid s1, samples)).
    { unfold resampleChunk in Rs. destruct (SFeqb (ss_ratio s) (f32_of_Z 1)); [injection Rs as <- <-; auto|]. cbn [negb]. destruct (resample_loop lq (ss_liquid s) chunk) as [d l]. injection Rs as <- <-. auto. }
    destruct K as (K1 & K2 & K3 & K4).
    destruct (in_samples lq [0] ltac:(repeat constructor; intros []) ltac:(repeat constructor) samples s1 s' bits ltac:(rewrite K1; exact L4) E) as (H1 & H2 & H3 & H4 & H5 & _ & H6).
    destruct (samples_counted [0] samples s1 s' bits ltac:(rewrite K2; exact B) E) as [C1 C2].
    destruct (H6 O 0 eq_refl) as (d0 & d1 & Q1 & Q2 & Q3). change (N.to_nat 0) with O in Q1, Q2. rewrite K1, N0 in Q1. injection Q1 as <-.
    destruct bits as [|b [|b2 bits]]; try discriminate H4. cbn [nth] in Q3. destruct (found_in lq (ss_sample_num s1) samples [0] (ss_liquid s1)) as [d2 found] eqn:Ff. cbn [fst snd] in *.
    destruct found as [|f0 [|f1 found]]; try discriminate H3. cbn [nth] in Q3.
    exists f0, b, d1. split; [reflexivity|]. split; [exact Q3|]. split; [split; [rewrite H5, K1; exact L4|split; [exact Q2|exact C2]]|]. split; [congruence|].
    intros r. rewrite symbols_cons. rewrite K4. rewrite <- K2, Ff. cbn [concat]. rewrite app_nil_r, C1, H1. reflexivity.
  Qed.

  Lemma decode_total : forall syms dec, bp_ok (fst dec) -> exists dec' bits, decode_symbols dec syms = Ok (dec', bits) /\ bp_ok (fst dec').
  Proof.
    induction syms as [|s syms IH]; intros dec B; cbn [decode_symbols]; [exists dec, []; auto|]. destruct (decode_ok dec s B) as (d1 & b1 & E1 & B1 & _). rewrite E1. cbn [bind].
    destruct (IH d1 B1) as (d2 & b2 & E2 & B2). rewrite E2. cbn [bind]. eexists _, _. split; [reflexivity|exact B2].
  Qed.

  Lemma run_groups_app' : forall gs1 gs2 c c1 o1 c2 o2, run_groups env o c gs1 = Ok (c1, o1) -> run_groups env o c1 gs2 = Ok (c2, o2) -> run_groups env o c (gs1 ++ gs2) = Ok (c2, o1 ++ o2).
  Proof.
    induction gs1 as [|[[n g] w] gs1 IH]; intros gs2 c c1 o1 c2 o2 E1 E2; cbn [run_groups app] in *; [injection E1 as <- <-; exact E2|].
    destruct (processGroup env o n c g w) as [[c3 l3]| |]; cbn [bind] in *; try discriminate. destruct (run_groups env o c3 gs1) as [[c4 o4]| |] eqn:E4; cbn [bind] in E1; try discriminate. injection E1 as <- <-.
    rewrite (IH _ _ _ _ _ _ E4 E2). reflexivity.
  Qed.

  Lemma feed_one : forall now r c s dec pre b' rest cs out, mr_num_channels r = 1 -> demod s dec -> arr_get (ch_block_stream c) 0 = Ok (state_after (o_use_fec o) pre) ->
    feed_channels env lq o now [0] r 0 [(c, s)] = Ok (cs, out) ->
    (forall syms dec' bits, decode_symbols dec syms = Ok (dec', bits) -> (exists tl, symbols_of lq (negb (SFeqb (ss_ratio s) (f32_of_Z 1))) (ss_sample_num s) (ss_liquid s) (mr_buffer r :: rest) = syms ++ tl) -> exists tl, b' = bits ++ tl) ->
    no_long_gap (o_use_fec o) (pre ++ b') ->
    exists syms dec' bits gs c1 c' s' o1, decode_symbols dec syms = Ok (dec', bits) /\ demod s' dec' /\ ss_ratio s' = ss_ratio s /\ cs = [(c', s')] /\
      (forall r', symbols_of lq (negb (SFeqb (ss_ratio s) (f32_of_Z 1))) (ss_sample_num s) (ss_liquid s) (mr_buffer r :: r') = syms ++ symbols_of lq (negb (SFeqb (ss_ratio s) (f32_of_Z 1))) (ss_sample_num s') (ss_liquid s') r') /\
      arr_get (ch_block_stream c') 0 = Ok (state_after (o_use_fec o) (pre ++ bits)) /\
      Forall2 stamped_as (groups_after (o_use_fec o) pre bits) gs /\ run_groups env o c gs = Ok (c1, o1) /\ out = Main.lines_of 0 o1 /\ exists T, c' = ch_set_time (streams_set c1 (state_after (o_use_fec o) (pre ++ bits))) T.
  Proof.
    intros now r c s dec pre b' rest cs out N1 Dm G E Pf Gap. cbn [feed_channels] in E. unfold feed_channel in E.
    assert (Rc : readChunk r 0 = Ok (mr_buffer r, mr_buffer_time r)) by (unfold readChunk; rewrite N1; cbn [N.leb N.compare]; destruct (mr_is_eof r); reflexivity).
    rewrite Rc in E. cbn [bind fst snd] in E. destruct (processChunk lq s (mr_buffer r) [0]) as [[s1 bits]| |] eqn:Pc; cbn [bind] in E; try discriminate.
    destruct (chunk_demod _ _ _ _ _ Dm Pc) as (syms & b & dec' & -> & Dc & Dm' & Ra & Sy). cbn [combine feed_streams] in E.
    unfold processBits in E. destruct (processBits_loop env o (mr_buffer_time r) now 0 b c) as [[c1 o1]| |] eqn:Pb; cbn [bind] in E; try discriminate.
    destruct (bits_run _ _ _ _ _ _ _ _ _ G Pb) as (gs & c2 & T & F & R & Ec).
    assert (St : fst (bst_run (state_after (o_use_fec o) pre) b) = state_after (o_use_fec o) (pre ++ b)).
    { unfold state_after. rewrite bst_run_app. destruct (bst_run (BlockStream_init (o_use_fec o)) pre) as [x y]. cbn [fst]. destruct (bst_run x b); reflexivity. }
    rewrite St in Ec.
    assert (Ls : (1 <= length (ch_block_stream c2))%nat).
    { assert (X : length (ch_block_stream c2) = length (ch_block_stream c)).
      { clear - R. revert c c2 o1 R. induction gs as [|[[n g] w] gs IH]; intros c c2 o1 R; cbn [run_groups] in R; [injection R as <- _; reflexivity|]. destruct (processGroup env o n c g w) as [[c3 l3]| |] eqn:P; cbn [bind] in R; try discriminate.
        destruct (run_groups env o c3 gs) as [[c4 o4]| |] eqn:R4; cbn [bind] in R; try discriminate. injection R as <- _. rewrite (IH _ _ _ R4), (process_streams _ _ _ _ _ _ _ _ P). reflexivity. }
      rewrite X. unfold arr_get in G. destruct (ch_block_stream c); [discriminate|cbn [length]; lia]. }
    assert (G1 : arr_get (ch_block_stream c1) 0 = Ok (state_after (o_use_fec o) (pre ++ b))) by (rewrite Ec; apply set_get; exact Ls).
    destruct (Pf syms dec' b Dc (ex_intro _ _ (Sy rest))) as [tl Eb].
    assert (Lo : bst_num_bits_since_sync_lost (state_after (o_use_fec o) (pre ++ b)) <= 11875) by (apply (gap_counter _ (pre ++ b') _ tl Gap); rewrite Eb, app_assoc; reflexivity).
    unfold getSecondsSinceCarrierLost in E. rewrite G1 in E. cbn [bind] in E. fold (seconds (bst_num_bits_since_sync_lost (state_after (o_use_fec o) (pre ++ b)))) in E. rewrite (ten_seconds _ Lo) in E. cbn [andb bind] in E.
    injection E as <- <-. rewrite !app_nil_r.
    exists syms, dec', b, gs, c2, c1, s1, o1. split; [exact Dc|]. split; [exact Dm'|]. split; [exact Ra|]. split; [reflexivity|]. split; [exact Sy|]. split; [exact G1|]. split; [exact F|]. split; [exact R|]. split; [reflexivity|]. exists T. exact Ec.
  Qed.

  Lemma decode_prefix : forall dec syms tl d1 b1 d2 b2, decode_symbols dec syms = Ok (d1, b1) -> decode_symbols dec (syms ++ tl) = Ok (d2, b2) ->
    exists b3, decode_symbols d1 tl = Ok (d2, b3) /\ b2 = b1 ++ b3.
  Proof.
    intros dec syms tl d1 b1 d2 b2 E1 E2. rewrite decode_app, E1 in E2. cbn [bind] in E2. destruct (decode_symbols d1 tl) as [[d3 b3]| |]; cbn [bind] in E2; try discriminate.
    injection E2 as <- <-. exists b3. split; reflexivity.
  Qed.
  Lemma run_back : forall gs c s T c2 o2, Forall (fun x => g_has_time (snd (fst x)) = true) gs -> run_groups env o (ch_set_time (streams_set c s) T) gs = Ok (c2, o2) -> exists c1, run_groups env o c gs = Ok (c1, o2).
  Proof.
    intros gs c s T c2 o2 F R. rewrite run_time in R by exact F. rewrite run_lift in R. destruct (run_groups env o c gs) as [[c1 o1]| |]; cbn [bind] in R; try discriminate. exists c1. congruence.
  Qed.
  Lemma loop_fresh : forall fuel clock r css css' out, mpx_loop fuel env lq o clock [0] r css = Ok (Some (css', out)) -> Forall (fresh_streams D o) css -> Forall (fresh_streams D o) css'.
  Proof.
    induction fuel as [|f IH]; intros clock r css css' out E Fs; cbn [mpx_loop] in E; destruct (mr_is_eof r); try (injection E as <- _; exact Fs); try discriminate.
    cbv zeta in E. destruct (feed_channels _ _ _ _ _ _ 0 css) as [[cs3 o3]| |] eqn:E3; cbn [bind] in E; try discriminate.
    destruct (mpx_loop f _ _ _ _ _ _ cs3) as [[[cs4 o4]|]| |] eqn:E4; cbn [bind] in E; try discriminate. injection E as <- _.
    exact (IH _ _ _ _ _ E4 (channels_fresh _ _ _ _ _ _ _ _ _ _ E3 Fs)).
  Qed.
  Lemma loop_hear : forall full fuel clock r c s dec pre rest dec' bits css' out,
    mr_is_eof r = false -> mr_num_channels r = 1 -> mr_chunk_size r = 8192 -> mr_input r = concat full ++ rest ->
    Forall (fun p => N.of_nat (length p) = 8192) full -> N.of_nat (length rest) < 8192 ->
    demod s dec -> arr_get (ch_block_stream c) 0 = Ok (state_after (o_use_fec o) pre) ->
    decode_symbols dec (symbols_of lq (negb (SFeqb (ss_ratio s) (f32_of_Z 1))) (ss_sample_num s) (ss_liquid s) (full ++ [rest])) = Ok (dec', bits) ->
    no_long_gap (o_use_fec o) (pre ++ bits) ->
    mpx_loop fuel env lq o clock [0] r [(c, s)] = Ok (Some (css', out)) ->
    exists gs c1 o1, Forall2 stamped_as (groups_after (o_use_fec o) pre bits) gs /\ run_groups env o c gs = Ok (c1, o1) /\ out = Main.lines_of 0 o1.
  Proof.
    induction full as [|p full IH]; intros fuel clock r c s dec pre rest dec' bits css' out Eo Nc Ck In Fl Lr Dm G Dc Gap E.
    - destruct fuel as [|f]; cbn [mpx_loop] in E; rewrite Eo in E; [discriminate|]. cbv zeta in E. cbn [concat app] in *.
      assert (Eb : mr_buffer (fillBuffer (clock O) r) = rest) by (unfold fillBuffer; cbn [mr_buffer]; rewrite In; apply firstn_all2; lia).
      assert (Ee : mr_is_eof (fillBuffer (clock O) r) = true) by (unfold fillBuffer; cbn [mr_is_eof]; rewrite In, Eo, firstn_all2 by lia; cbn [orb]; lia).
      assert (En : mr_num_channels (fillBuffer (clock O) r) = 1) by exact Nc. remember (fillBuffer (clock O) r) as r1 eqn:Er. clear Er.
      destruct (feed_channels env lq o (clock O) [0] r1 0 [(c, s)]) as [[cs o0]| |] eqn:Fc; cbn [bind] in E; try discriminate.
      destruct (feed_one (clock O) r1 c s dec pre bits [] cs o0 En Dm G Fc) as (syms & d1 & b & gs & c1 & c' & s' & o1 & D1 & _ & _ & _ & Sy & _ & F & R & -> & _).
      { rewrite Eb. intros sy dd bb Ds [tl Etl]. rewrite Etl in Dc. destruct (decode_prefix _ _ _ _ _ _ _ Ds Dc) as (b3 & _ & ->). exists b3. reflexivity. }
      { exact Gap. }
      rewrite Eb in Sy. rewrite (Sy []) in Dc. cbn [symbols_of] in Dc. rewrite app_nil_r in Dc. rewrite D1 in Dc. injection Dc as <- <-.
      exists gs, c1, o1. split; [exact F|]. split; [exact R|]. destruct f; cbn [mpx_loop] in E; rewrite Ee in E; cbn [bind] in E; rewrite app_nil_r in E; congruence.
    - destruct fuel as [|f]; cbn [mpx_loop] in E; rewrite Eo in E; [discriminate|]. cbv zeta in E. cbn [concat app] in *. rewrite <- app_assoc in In. apply Forall_cons_iff in Fl. destruct Fl as [Lp Fl].
      assert (Eb : mr_buffer (fillBuffer (clock O) r) = p).
      { unfold fillBuffer; cbn [mr_buffer]. rewrite In, Ck, <- Lp, Nat2N.id, firstn_app, Nat.sub_diag. cbn [firstn]. rewrite app_nil_r. apply firstn_all. }
      assert (Ee : mr_is_eof (fillBuffer (clock O) r) = false) by (unfold fillBuffer in *; cbn [mr_is_eof mr_buffer] in *; rewrite Eb, Eo, Lp, Ck; reflexivity).
      assert (Ei : mr_input (fillBuffer (clock O) r) = concat full ++ rest).
      { unfold fillBuffer; cbn [mr_input]. rewrite In, Ck, <- Lp, Nat2N.id, skipn_app, Nat.sub_diag. cbn [skipn]. rewrite skipn_all. reflexivity. }
      assert (En : mr_num_channels (fillBuffer (clock O) r) = 1) by exact Nc. assert (Ek : mr_chunk_size (fillBuffer (clock O) r) = 8192) by exact Ck. remember (fillBuffer (clock O) r) as r1 eqn:Er. clear Er.
      destruct (feed_channels env lq o (clock O) [0] r1 0 [(c, s)]) as [[cs o0]| |] eqn:Fc; cbn [bind] in E; try discriminate.
      destruct (feed_one (clock O) r1 c s dec pre bits (full ++ [rest]) cs o0 En Dm G Fc) as (syms & d1 & b & gs & c1 & c' & s' & o1 & D1 & Dm' & Ra & -> & Sy & G' & F & R & -> & T & Ec).
      { rewrite Eb. intros sy dd bb Ds [tl Etl]. rewrite Etl in Dc. destruct (decode_prefix _ _ _ _ _ _ _ Ds Dc) as (b3 & _ & ->). exists b3. reflexivity. }
      { exact Gap. }
      rewrite Eb in Sy. rewrite (Sy (full ++ [rest])) in Dc. destruct (decode_prefix _ _ _ _ _ _ _ D1 Dc) as (b3 & D3 & ->). rewrite <- Ra in D3.
      destruct (mpx_loop f env lq o _ [0] r1 [(c', s')]) as [[[cs4 o4]|]| |] eqn:E4; cbn [bind] in E; try discriminate. injection E as <- <-.
      rewrite app_assoc in Gap. destruct (IH f _ r1 c' s' d1 (pre ++ b) rest dec' b3 cs4 o4 Ee En Ek Ei Fl Lr Dm' G' D3 Gap E4) as (gs2 & c2 & o2 & F2 & R2 & ->).
      rewrite Ec in R2. destruct (run_back _ _ _ _ _ _ (stamped_time _ _ F2) R2) as [c3 R3].
      exists (gs ++ gs2), c3, (o1 ++ o2). split; [rewrite groups_after_more; apply Forall2_app; assumption|]. split; [exact (run_groups_app' _ _ _ _ _ _ _ R R3)|]. rewrite lines_app. reflexivity.
  Qed.
End Loop.

Lemma stamped_received : forall l gs, Forall2 stamped_as l gs -> Forall bit_shape l -> Forall received_group gs.
Proof.
  intros l gs F. induction F as [|g [[now g'] w] l gs [_ [t E]] F IH]; intros S; [constructor|]. apply Forall_cons_iff in S. destruct S as [((B & _) & N & _) S]. constructor; [|exact (IH S)].
  cbn [fst snd] in E. subst g'. unfold received_group. split; [exact B|]. exact (conj (N BLOCK1) (conj (N BLOCK2) (conj (N BLOCK3) (N BLOCK4)))).
Qed.
Lemma bits_shape : forall fec bits, Forall bit_shape (groups_after fec [] bits).
Proof.
  intros fec bits. unfold groups_after, state_after. cbn [bst_run fst]. destruct (bst_run (BlockStream_init fec) bits) as [s' gs0] eqn:E. cbn [snd]. apply (stream_shapes _ _ _ _ E).
  split; [exact default_shape|]. split; [discriminate|]. intros; reflexivity.
Qed.

Theorem audio_hear : forall (D : Type) env se (lq : Liquid D) o fuel clock t samples rate full rest code items,
  mpx_init se o = Opened 1 rate -> o_streams o = false -> samples = concat full ++ rest ->
  Forall (fun p => N.of_nat (length p) = 8192) full -> N.of_nat (length rest) < 8192 ->
  processMPXInput fuel env se lq o clock t samples = Ok (Some (code, items)) ->
  let o' := with_audio o 1 (f32_of_Z rate) in
  let syms := symbols_of lq (negb (SFeqb (f32_div f32_target_rate (f32_of_Z rate)) (f32_of_Z 1))) 0 (lq_init lq (f32_of_Z rate)) (full ++ [rest]) in
  code = EXIT_SUCCESS /\ exists dec bits, decode_symbols (BiphaseDecoder_init, 0) syms = Ok (dec, bits) /\
    (no_long_gap (o_use_fec o) bits -> exists gs c out, Forall2 stamped_as (groups_after (o_use_fec o) [] bits) gs /\ Forall received_group gs /\
      run_groups env o' (Channel_new o' 0) gs = Ok (c, out) /\ items = Main.lines_of 0 out).
Proof.
  intros D env se lq o fuel clock t samples rate full rest code items Op St Sa Fl Lr E. cbv zeta.
  destruct (decode_total (symbols_of lq (negb (SFeqb (f32_div f32_target_rate (f32_of_Z rate)) (f32_of_Z 1))) 0 (lq_init lq (f32_of_Z rate)) (full ++ [rest])) (BiphaseDecoder_init, 0) bp_init) as (dec & bits & Dc & _).
  unfold processMPXInput in E. rewrite Op in E. cbv zeta in E. set (o' := with_audio o 1 (f32_of_Z rate)) in *. change (o_streams o') with (o_streams o) in E. rewrite St in E.
  change (N.to_nat 1) with 1%nat in E. cbn [make_receivers] in E. unfold SubcarrierSet_new in E. change (o_samplerate o') with (f32_of_Z rate) in E.
  destruct (SubcarrierSet_create (f32_of_Z rate)); cbn [bind] in E; try discriminate.
  set (s0 := mkSubcarrierSet 0 (f32_div f32_target_rate (f32_of_Z rate)) (lq_init lq (f32_of_Z rate)) (repeat (BiphaseDecoder_init, 0) 4)) in E.
  match type of E with context [mpx_loop ?a1 ?a2 ?a3 ?a4 ?a5 ?a6 ?a7 ?a8] => destruct (mpx_loop a1 a2 a3 a4 a5 a6 a7 a8) as [[[css out]|]| |] eqn:L end; cbn [bind] in E; try discriminate.
  assert (Fs : Forall (fresh_streams D o') css).
  { apply (loop_fresh D env lq o' _ _ _ _ _ _ L). constructor; [|constructor]. exists (BlockStream_init (o_use_fec o')). reflexivity. }
  destruct (flush_channels env o' t 0 css) as [f1| |] eqn:Fc; cbn [bind] in E; try discriminate. rewrite (flush_fresh D env o' t css 0 f1 Fs Fc), app_nil_r in E. injection E as <- <-.
  split; [reflexivity|]. exists dec, bits. split; [exact Dc|]. intros Gap.
  destruct (loop_hear D env lq o' full fuel clock (MPXReader_init 1 samples) (Channel_new o' 0) s0 (BiphaseDecoder_init, 0) [] rest dec bits css out) as (gs & c & o1 & F & R & ->);
    try reflexivity; try assumption; [split; [reflexivity|split; reflexivity]|].
  exists gs, c, o1. split; [exact F|]. split; [exact (stamped_received _ _ F (bits_shape _ _))|]. split; [exact R|reflexivity].
Qed.

(* A time does not change what is received *)
Lemma delivered_time : forall t e g now, delivered t e g -> delivered t e (g_setTime g now).
Proof. intros t [[[f1 f2] f3] f4] g now D. exact D. Qed.

Lemma name_heard : forall env o pre b ws0 tes0 tes1 te rest p earlier n0 n1 n2 n3 n4 n5 n6 n7 gs c out, host_ok env -> host_text env -> o_output_type o = OutJSON ->
  let tes := tes0 ++ tes1 ++ [te] in
  let bits := pre ++ [b] ++ flat_map block_bits ws0 ++ flat_map rx_bits tes ++ rest in (length rest < 26)%nat ->
  acquires (o_use_fec o) pre b -> Forall (fun w => w < 2 ^ 26) ws0 -> Forall (rx_ok (o_use_fec o)) tes ->
  let first := recognise (window (pre ++ [b])) in
  Reception.kept [false] (err_flags (following first) (ws0 ++ all_words tes)) -> expect_after (following first) ws0 = OffA ->
  p <> 0 -> Forall (fun x => tx1 (fst x) = p) tes -> (3 <= length tes0)%nat ->
  name_part (fst te) <> [] ->
  flat_map (fun x => name_part (fst x)) (tes1 ++ [te]) = earlier ++ [(0, n0, n1); (1, n2, n3); (2, n4, n5); (3, n6, n7)] ->
  ~ In end_of_text [n0; n1; n2; n3; n4; n5; n6; n7] ->
  Forall2 stamped_as (groups_after (o_use_fec o) [] bits) gs -> Forall received_group gs -> run_groups env o (Channel_new o 0) gs = Ok (c, out) ->
  exists out' line, out = out' ++ [Some line] /\ says line ["ps"%string] (VStr (rds_text [n0; n1; n2; n3; n4; n5; n6; n7])).
Proof.
  intros env o pre b ws0 tes0 tes1 te rest p earlier n0 n1 n2 n3 n4 n5 n6 n7 gs c out H Ht OJ tes bits L A F R first K E P0 P T0 Nl N4 Ne M Rg Er.
  assert (Q : groups_after (o_use_fec o) [] bits =
    groups_after (o_use_fec o) [] (pre ++ [b] ++ flat_map block_bits ws0) ++ groups_after (o_use_fec o) (pre ++ [b] ++ flat_map block_bits ws0) (flat_map rx_bits tes)).
  { rewrite <- (nothing_more (o_use_fec o) pre b ws0 tes rest A F R); [|lia|exact K|exact E]. rewrite <- groups_after_app. f_equal. unfold bits. rewrite <- !app_assoc. reflexivity. }
  rewrite Q in M. apply Forall2_app_inv_l in M. destruct M as (gs0 & gs1 & _ & M1 & ->).
  pose proof (delivery (o_use_fec o) pre b ws0 tes A F R K E) as D.
  refine (name_of_groups env o gs0 gs1 tes0 tes1 te c out p earlier n0 n1 n2 n3 n4 n5 n6 n7 H Ht OJ Rg _ Er P0 P T0 Nl N4 Ne).
  fold tes. clear - D M1. revert gs1 M1. induction D as [|x g tes' gg Dg D IH]; intros gs1 M1; inversion M1 as [|? [[now g'] w] ? l' [W [tm Eg]] M2]; subst; constructor; [|apply IH; exact M2].
  cbn [fst snd] in *. subst. split; [apply delivered_time; exact Dg|reflexivity].
Qed.
