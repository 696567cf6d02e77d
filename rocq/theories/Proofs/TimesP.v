(* The times of reception shown. *)
From Verif.Model Require Import Base Float Group BlockSync Options Json Tmc Station Channel Input Dsp Main.
From Verif.Spec Require Import JsonText Session Identity Quality Demod Reception Hearing Times.
From Verif.Proofs Require Import Tac UpdateP SessionP LineP ChannelP HistoryP RecordP AirP CutP BiphaseP DemodP HearP AgeP.

Local Open Scope N_scope.
Local Open Scope list_scope.

Definition after (t : Z) (xs : list Z) : Z := fold_left Z.max xs t.
Lemma latest_app : forall xs ys t, latest t (xs ++ ys) = latest t xs ++ latest (after t xs) ys.
Proof. induction xs as [|x xs IH]; intros ys t; [reflexivity|]. cbn [app latest after fold_left]. rewrite IH. reflexivity. Qed.
Lemma after_app : forall xs ys t, after t (xs ++ ys) = after (after t xs) ys.
Proof. intros xs ys t. unfold after. apply fold_left_app. Qed.

Lemma process_shows : forall env o now c g w c' line t, host_ok env -> o_output_type o = OutJSON -> o_timestamp o = true -> ch_ok c -> g_has_bler g = false ->
  processGroup env o now c (g_setTime g t) w = Ok (c', line) -> shows_time env o t line.
Proof.
  intros env o now c g w c' line t H OJ OT Hc Hb P. destruct line as [line|]; [|exact I]. pose proof (process_time env o now c (g_setTime g t) w c' line H OJ OT Hc Hb P) as T.
  unfold stamped in T. cbn [g_has_time g_setTime negb] in T. rewrite andb_false_r in T. exact T.
Qed.

Lemma bits_shown : forall env o t now, host_ok env -> o_output_type o = OutJSON -> o_timestamp o = true ->
  forall bits pre c c' out, N.of_nat (length bits) < 2 ^ 40 -> ch_ok c -> arr_get (ch_block_stream c) 0 = Ok (state_after (o_use_fec o) pre) ->
  processBits env o c t now bits 0 = Ok (c', out) ->
  ch_ok c' /\ arr_get (ch_block_stream c') 0 = Ok (state_after (o_use_fec o) (pre ++ bits)) /\
  exists xs, Forall2 Times.near (ends_in (o_use_fec o) pre t bits) xs /\ Forall2 (shows_time env o) (latest (ch_last_group_rx_time c) xs) out /\ ch_last_group_rx_time c' = after (ch_last_group_rx_time c) xs.
Proof.
  intros env o t now H OJ OT. destruct (host_env env H) as [Eo _]. unfold processBits.
  induction bits as [|b bits IH]; intros pre c c' out Lb Hc G E; cbn [processBits_loop] in E.
  - injection E as <- <-. split; [exact Hc|]. rewrite app_nil_r. split; [exact G|]. exists []. split; [constructor|]. split; [constructor|reflexivity].
  - destruct (stream_get c 0 Hc ltac:(lia)) as (s & Es & [S1 S2]). rewrite Es in G. assert (s = state_after (o_use_fec o) pre) as -> by congruence. rewrite Es in E. cbn [bind] in E.
    destruct (step_bler _ b S1 S2) as (A & B & D). cbn [ends_in].
    assert (Ga : groups_after (o_use_fec o) pre [b] = match snd (bst_step (state_after (o_use_fec o) pre) b) with Some g => [g] | None => [] end /\
      state_after (o_use_fec o) (pre ++ [b]) = fst (bst_step (state_after (o_use_fec o) pre) b)).
    { unfold groups_after. split.
      - cbn [bst_run]. destruct (bst_step (state_after (o_use_fec o) pre) b) as [x og]. destruct og; reflexivity.
      - unfold state_after at 1. rewrite bst_run_app. unfold state_after. destruct (bst_run (BlockStream_init (o_use_fec o)) pre) as [x y]. cbn [fst bst_run]. destruct (bst_step x b) as [x1 og]. destruct og; reflexivity. }
    destruct Ga as [Ga Sa]. rewrite Ga. destruct (bst_step (state_after (o_use_fec o) pre) b) as [s' og]. cbn [fst snd] in *. cbn [length] in Lb.
    assert (C1 : ch_ok (ch_set_stream c 0 s')) by (apply set_stream_ok; [exact Hc|split; assumption]).
    assert (G1 : arr_get (ch_block_stream (ch_set_stream c 0 s')) 0 = Ok (state_after (o_use_fec o) (pre ++ [b]))).
    { rewrite Sa. apply set_get. unfold arr_get in Es. destruct (ch_block_stream c); [discriminate|cbn [length]; lia]. }
    remember (ch_set_stream c 0 s') as c1 eqn:Ec1. assert (El : ch_last_group_rx_time c = ch_last_group_rx_time c1) by (rewrite Ec1; reflexivity). clear Ec1 Sa Ga A B.
    rewrite El. replace (pre ++ b :: bits) with ((pre ++ [b]) ++ bits) by (rewrite <- app_assoc; reflexivity).
    destruct og as [g|].
    + destruct (age_near (N.of_nat (length bits)) ltac:(lia)) as (age & Ea & Na & _). rewrite Ea in E. cbn [bind] in E.
      set (tt := if (t - age * 1000000 <? ch_last_group_rx_time c1)%Z then _ else _) in E.
      assert (Ht : tt = Z.max (ch_last_group_rx_time c1) (t - age * 1000000)) by (subst tt; destruct (Z.ltb_spec (t - age * 1000000) (ch_last_group_rx_time c1)); lia). clearbody tt.
      destruct (processGroup env o now c1 (g_setTime g tt) 0) as [[c2 l2]| |] eqn:P; cbn [bind] in E; try discriminate.
      destruct (processBits_loop env o t now 0 bits (ch_set_time c2 tt)) as [[c3 o3]| |] eqn:E3; cbn [bind] in E; try discriminate.
      injection E as <- <-.
      assert (Hg : g_has_bler g = false) by (apply (D g eq_refl)).
      pose proof (process_kept _ _ _ _ _ _ _ _ Eo C1 (Hg : g_has_bler (g_setTime g tt) = false) P) as C2. pose proof (process_streams _ _ _ _ _ _ _ _ P) as PS.
      destruct (IH (pre ++ [b]) (ch_set_time c2 tt) c3 o3 ltac:(lia) C2 ltac:(cbn [ch_set_time ch_block_stream]; rewrite PS; exact G1) E3) as (C3 & G3 & xs & N3 & S3 & L3).
      split; [exact C3|]. split; [exact G3|]. exists ((t - age * 1000000)%Z :: xs). cbn [map app]. split; [constructor; [unfold Times.near; cbn [fst snd]; lia|exact N3]|].
      change (ch_last_group_rx_time (ch_set_time c2 tt)) with tt in S3, L3. rewrite Ht in *.
      split; [cbn [latest app]; constructor; [exact (process_shows _ _ _ _ _ _ _ _ _ H OJ OT C1 Hg P)|exact S3]|exact L3].
    + cbn [bind] in E. destruct (processBits_loop env o t now 0 bits c1) as [[c3 o3]| |] eqn:E3; cbn [bind] in E; try discriminate.
      injection E as <- <-. exact (IH (pre ++ [b]) c1 c3 o3 ltac:(lia) C1 G1 E3).
Qed.

(* Buffer after buffer *)
Lemma buffers_shown : forall env o, host_ok env -> o_output_type o = OutJSON -> o_timestamp o = true ->
  forall buffers pre c c' lines, Forall (fun x : Z * Z * list bool => N.of_nat (length (snd x)) < 2 ^ 40) buffers -> ch_ok c -> arr_get (ch_block_stream c) 0 = Ok (state_after (o_use_fec o) pre) ->
  session env o c (map (fun x => Bits_in (fst (fst x)) (snd (fst x)) (snd x) 0) buffers) = Ok (c', lines) ->
  exists xs out, lines = printed out /\ Forall2 Times.near (ends (o_use_fec o) pre (map (fun x => (fst (fst x), snd x)) buffers)) xs /\ Forall2 (shows_time env o) (latest (ch_last_group_rx_time c) xs) out.
Proof.
  intros env o H OJ OT. induction buffers as [|[[t now] bits] buffers IH]; intros pre c c' lines F Hc G E; cbn [map session] in E.
  - injection E as _ <-. exists [], []. split; [reflexivity|]. split; constructor.
  - rewrite Forall_cons_iff in F. destruct F as [Lb F]. cbn [fst snd do_call] in *. destruct (processBits env o c t now bits 0) as [[c1 o1]| |] eqn:E1; cbn [bind] in E; try discriminate.
    destruct (session env o c1 _) as [[c2 l2]| |] eqn:E2; cbn [bind] in E; try discriminate. injection E as <- <-.
    destruct (bits_shown env o t now H OJ OT bits pre c c1 o1 Lb Hc G E1) as (C1 & G1 & xs1 & N1 & S1 & L1).
    destruct (IH (pre ++ bits) c1 c2 l2 F C1 G1 E2) as (xs2 & o2 & -> & N2 & S2). exists (xs1 ++ xs2), (o1 ++ o2).
    split; [unfold printed; rewrite flat_map_app; reflexivity|]. cbn [map ends fst snd]. split; [apply Forall2_app; assumption|]. rewrite latest_app, <- L1. apply Forall2_app; assumption.
Qed.

(* Groups that are decoded elsewhere: the clock *)
Lemma groups_shown : forall env o gs c c' out, host_ok env -> o_output_type o = OutJSON -> o_timestamp o = true -> ch_ok c ->
  Forall received_group gs -> Forall (fun x : Z * Group * N => g_has_time (snd (fst x)) = false) gs ->
  Forall (fun x => (ch_last_group_rx_time c <= fst (fst x))%Z) gs -> Sorted.StronglySorted Z.le (map (fun x => fst (fst x)) gs) -> run_groups env o c gs = Ok (c', out) ->
  Forall2 (fun x l => shows_time env o (fst (fst x)) l) gs out.
Proof.
  intros env o. induction gs as [|[[now g] w] gs IH]; intros c c' out H OJ OT Hc R U L S E; cbn [run_groups] in E.
  - injection E as _ <-. constructor.
  - rewrite Forall_cons_iff in R, U, L. destruct R as [Rx R]. destruct U as [Ux U]. destruct L as [Lx L]. cbn [map fst snd] in *. inversion S as [|? ? S1 F1]; subst.
    destruct (processGroup env o now c g w) as [[c1 l1]| |] eqn:P; cbn [bind] in E; try discriminate.
    destruct (run_groups env o c1 gs) as [[c2 o2]| |] eqn:E2; cbn [bind] in E; try discriminate. injection E as <- <-.
    destruct (host_env env H) as [Eo _].
    pose proof (process_kept _ _ _ _ _ _ _ _ Eo Hc (proj1 Rx) P) as C1. pose proof (process_last _ _ _ _ _ _ _ _ P) as Ll.
    unfold stamp_time in Ll. rewrite OT, Ux in Ll. cbn [andb negb] in Ll.
    constructor.
    + cbn [fst]. destruct l1 as [line|]; [|exact I].
      pose proof (process_time _ _ _ _ _ _ _ _ H OJ OT Hc (proj1 Rx) P) as T. unfold stamped in T. rewrite OT, Ux in T.
      cbn [andb negb g_time_received g_setTime] in T. replace (now <? ch_last_group_rx_time c)%Z with false in T by (symmetry; apply Z.ltb_ge; exact Lx). exact T.
    + apply (IH c1 c2 o2 H OJ OT C1 R U); [|exact S1|exact E2]. rewrite Ll. clear - F1. rewrite Forall_forall in *. intros x X. apply F1. apply in_map_iff. exists x. split; [reflexivity|exact X].
Qed.

(* Audio with one channel *)
Section Audio.
  Variable D : Type.
  Variable env : Env.
  Variable lq : Liquid D.
  Variable o : Options.
  Hypothesis H : host_ok env.
  Hypothesis OJ : o_output_type o = OutJSON.
  Hypothesis OT : o_timestamp o = true.

  Lemma by_buffer_bits : forall buffers resampled n d dec bs, bits_by_buffer lq resampled n d dec buffers = Ok bs ->
    exists dec', decode_symbols dec (symbols_of lq resampled n d buffers) = Ok (dec', concat bs).
  Proof.
    induction buffers as [|b r IH]; intros resampled n d dec bs E; cbn [bits_by_buffer symbols_of] in *.
    - injection E as <-. exists dec. reflexivity.
    - destruct (if resampled then resample_loop lq d b else (d, b)) as [d1 samples]. destruct (found_in lq n samples [0] d1) as [d2 found].
      destruct (decode_symbols dec (concat found)) as [[dec1 bits]| |] eqn:E1; cbn [bind] in E; try discriminate.
      match type of E with bind ?m _ = _ => destruct m as [rest| |] eqn:E2 end; cbn [bind] in E; try discriminate. injection E as <-.
      destruct (IH _ _ _ _ _ E2) as [dec' E3]. exists dec'. rewrite decode_app, E1. cbn [bind]. rewrite E3. reflexivity.
  Qed.

  Lemma feed_shown : forall now r c s dec pre bs rest cs out, mr_num_channels r = 1 -> demod D s dec -> ch_ok c -> arr_get (ch_block_stream c) 0 = Ok (state_after (o_use_fec o) pre) ->
    feed_channels env lq o now [0] r 0 [(c, s)] = Ok (cs, out) ->
    bits_by_buffer lq (negb (SFeqb (ss_ratio s) (f32_of_Z 1))) (ss_sample_num s) (ss_liquid s) dec (mr_buffer r :: rest) = Ok bs ->
    no_long_gap (o_use_fec o) (pre ++ concat bs) -> Forall (fun b => N.of_nat (length b) < 2 ^ 40) bs ->
    exists dec' b bs' c' s' o1 xs, bs = b :: bs' /\ demod D s' dec' /\ ss_ratio s' = ss_ratio s /\ cs = [(c', s')] /\
      bits_by_buffer lq (negb (SFeqb (ss_ratio s) (f32_of_Z 1))) (ss_sample_num s') (ss_liquid s') dec' rest = Ok bs' /\
      ch_ok c' /\ arr_get (ch_block_stream c') 0 = Ok (state_after (o_use_fec o) (pre ++ b)) /\ out = Main.lines_of 0 o1 /\
      Forall2 Times.near (ends_in (o_use_fec o) pre (mr_buffer_time r) b) xs /\ Forall2 (shows_time env o) (latest (ch_last_group_rx_time c) xs) o1 /\ ch_last_group_rx_time c' = after (ch_last_group_rx_time c) xs.
  Proof.
    intros now r c s dec pre bs rest cs out N1 Dm Hc G E By Gap Sh. cbn [feed_channels] in E. unfold feed_channel in E.
    assert (Rc : readChunk r 0 = Ok (mr_buffer r, mr_buffer_time r)) by (unfold readChunk; rewrite N1; cbn [N.leb N.compare]; destruct (mr_is_eof r); reflexivity).
    rewrite Rc in E. cbn [bind fst snd] in E. destruct (processChunk lq s (mr_buffer r) [0]) as [[s1 bits]| |] eqn:Pc; cbn [bind] in E; try discriminate.
    destruct Dm as (L4 & N0 & B). unfold processChunk in Pc. destruct (resampleChunk lq s (mr_buffer r)) as [s0 samples] eqn:Rs.
    assert (K : ss_decoders s0 = ss_decoders s /\ ss_sample_num s0 = ss_sample_num s /\ ss_ratio s0 = ss_ratio s /\
      (if negb (SFeqb (ss_ratio s) (f32_of_Z 1)) then resample_loop lq (ss_liquid s) (mr_buffer r) else (ss_liquid s, mr_buffer r)) = (ss_liquid s0, samples)).
    { unfold resampleChunk in Rs. destruct (SFeqb (ss_ratio s) (f32_of_Z 1)); [injection Rs as <- <-; auto|]. cbn [negb]. destruct (resample_loop lq (ss_liquid s) (mr_buffer r)) as [d l]. injection Rs as <- <-. auto. }
    destruct K as (K1 & K2 & K3 & K4).
    destruct (in_samples lq [0] ltac:(repeat constructor; intros []) ltac:(repeat constructor) samples s0 s1 bits ltac:(rewrite K1; exact L4) Pc) as (H1 & H2 & H3 & H4 & H5 & _ & H6).
    destruct (samples_counted D lq [0] samples s0 s1 bits ltac:(rewrite K2; exact B) Pc) as [C1 C2].
    destruct (H6 O 0 eq_refl) as (d0 & d1 & Q1 & Q2 & Q3). change (N.to_nat 0) with O in Q1, Q2. rewrite K1, N0 in Q1. assert (d0 = dec) as -> by congruence. clear Q1.
    destruct bits as [|b [|b2 bits]]; try discriminate H4. cbn [nth] in Q3. cbn [bits_by_buffer] in By. rewrite K4, <- K2 in By. destruct (found_in lq (ss_sample_num s0) samples [0] (ss_liquid s0)) as [d2 found] eqn:Ff. cbn [fst snd] in *.
    destruct found as [|f0 [|f1 found]]; try discriminate H3. cbn [nth] in Q3. cbn [concat] in By. rewrite app_nil_r, Q3 in By. cbn [bind] in By.
    rewrite <- C1, <- H1 in By. match type of By with bind ?m _ = _ => destruct m as [bs'| |] eqn:E2 end; cbn [bind] in By; try discriminate. injection By as <-.
    cbn [combine feed_streams] in E. destruct (processBits env o c (mr_buffer_time r) now b 0) as [[c1 o1]| |] eqn:Pb; cbn [bind] in E; try discriminate.
    rewrite Forall_cons_iff in Sh. destruct Sh as [Sb _].
    destruct (bits_shown env o (mr_buffer_time r) now H OJ OT b pre c c1 o1 Sb Hc G Pb) as (Hc1 & G1 & xs & Nx & Sx & Lx).
    assert (Lo : bst_num_bits_since_sync_lost (state_after (o_use_fec o) (pre ++ b)) <= 11875) by (apply (gap_counter _ _ _ (concat bs') Gap); cbn [concat]; rewrite app_assoc; reflexivity).
    unfold getSecondsSinceCarrierLost in E. rewrite G1 in E. cbn [bind] in E. fold (seconds (bst_num_bits_since_sync_lost (state_after (o_use_fec o) (pre ++ b)))) in E. rewrite (ten_seconds _ Lo) in E. cbn [andb bind] in E.
    injection E as <- <-. rewrite !app_nil_r.
    exists d1, b, bs', c1, s1, o1, xs. split; [reflexivity|]. split; [split; [rewrite H5, K1; exact L4|split; [exact Q2|exact C2]]|]. split; [congruence|]. split; [reflexivity|]. split; [exact E2|].
    split; [exact Hc1|]. split; [exact G1|]. split; [reflexivity|]. split; [exact Nx|]. split; [exact Sx|exact Lx].
  Qed.

  Lemma loop_shown : forall full fuel clock r c s dec pre rest bs css' out,
    mr_is_eof r = false -> mr_num_channels r = 1 -> mr_chunk_size r = 8192 -> mr_input r = concat full ++ rest ->
    Forall (fun p => N.of_nat (length p) = 8192) full -> N.of_nat (length rest) < 8192 ->
    demod D s dec -> ch_ok c -> arr_get (ch_block_stream c) 0 = Ok (state_after (o_use_fec o) pre) ->
    bits_by_buffer lq (negb (SFeqb (ss_ratio s) (f32_of_Z 1))) (ss_sample_num s) (ss_liquid s) dec (full ++ [rest]) = Ok bs ->
    no_long_gap (o_use_fec o) (pre ++ concat bs) -> Forall (fun b => N.of_nat (length b) < 2 ^ 40) bs ->
    mpx_loop fuel env lq o clock [0] r [(c, s)] = Ok (Some (css', out)) ->
    exists xs o1, out = Main.lines_of 0 o1 /\ Forall2 Times.near (ends (o_use_fec o) pre (clocked clock bs)) xs /\ Forall2 (shows_time env o) (latest (ch_last_group_rx_time c) xs) o1.
  Proof.
    induction full as [|p full IH]; intros fuel clock r c s dec pre rest bs css' out Eo Nc Ck In Fl Lr Dm Hc G By Gap Sh E.
    - destruct fuel as [|f]; cbn [mpx_loop] in E; rewrite Eo in E; [discriminate|]. cbv zeta in E. cbn [concat app] in *.
      assert (Eb : mr_buffer (fillBuffer (clock O) r) = rest) by (unfold fillBuffer; cbn [mr_buffer]; rewrite In; apply firstn_all2; lia).
      assert (Et : mr_buffer_time (fillBuffer (clock O) r) = clock O) by reflexivity.
      assert (Ee : mr_is_eof (fillBuffer (clock O) r) = true) by (unfold fillBuffer; cbn [mr_is_eof]; rewrite In, Eo, firstn_all2 by lia; cbn [orb]; lia).
      assert (En : mr_num_channels (fillBuffer (clock O) r) = 1) by exact Nc. remember (fillBuffer (clock O) r) as r1 eqn:Er. clear Er.
      destruct (feed_channels env lq o (clock O) [0] r1 0 [(c, s)]) as [[cs o0]| |] eqn:Fc; cbn [bind] in E; try discriminate. rewrite <- Eb in By.
      destruct (feed_shown (clock O) r1 c s dec pre bs [] cs o0 En Dm Hc G Fc By Gap Sh) as (d1 & b & bs' & c' & s' & o1 & xs & -> & _ & _ & _ & By' & _ & _ & -> & Nx & Sx & _).
      cbn [bits_by_buffer] in By'. injection By' as <-. exists xs, o1. split.
      { destruct f; cbn [mpx_loop] in E; rewrite Ee in E; cbn [bind] in E; rewrite app_nil_r in E; congruence. }
      unfold clocked. cbn [length seq map combine ends]. rewrite app_nil_r, <- Et. split; [exact Nx|exact Sx].
    - destruct fuel as [|f]; cbn [mpx_loop] in E; rewrite Eo in E; [discriminate|]. cbv zeta in E. cbn [concat app] in *. rewrite <- app_assoc in In. apply Forall_cons_iff in Fl. destruct Fl as [Lp Fl].
      assert (Eb : mr_buffer (fillBuffer (clock O) r) = p).
      { unfold fillBuffer; cbn [mr_buffer]. rewrite In, Ck, <- Lp, Nat2N.id, firstn_app, Nat.sub_diag. cbn [firstn]. rewrite app_nil_r. apply firstn_all. }
      assert (Et : mr_buffer_time (fillBuffer (clock O) r) = clock O) by reflexivity.
      assert (Ee : mr_is_eof (fillBuffer (clock O) r) = false) by (unfold fillBuffer in *; cbn [mr_is_eof mr_buffer] in *; rewrite Eb, Eo, Lp, Ck; reflexivity).
      assert (Ei : mr_input (fillBuffer (clock O) r) = concat full ++ rest).
      { unfold fillBuffer; cbn [mr_input]. rewrite In, Ck, <- Lp, Nat2N.id, skipn_app, Nat.sub_diag. cbn [skipn]. rewrite skipn_all. reflexivity. }
      assert (En : mr_num_channels (fillBuffer (clock O) r) = 1) by exact Nc. assert (Ek : mr_chunk_size (fillBuffer (clock O) r) = 8192) by exact Ck. remember (fillBuffer (clock O) r) as r1 eqn:Er. clear Er.
      destruct (feed_channels env lq o (clock O) [0] r1 0 [(c, s)]) as [[cs o0]| |] eqn:Fc; cbn [bind] in E; try discriminate. rewrite <- Eb in By.
      destruct (feed_shown (clock O) r1 c s dec pre bs (full ++ [rest]) cs o0 En Dm Hc G Fc By Gap Sh) as (d1 & b & bs' & c' & s' & o1 & xs & -> & Dm' & Ra & -> & By' & Hc' & G' & -> & Nx & Sx & Lx).
      destruct (mpx_loop f env lq o _ [0] r1 [(c', s')]) as [[[cs4 o4]|]| |] eqn:E4; cbn [bind] in E; try discriminate. injection E as <- <-.
      cbn [concat] in Gap. rewrite app_assoc in Gap. rewrite Forall_cons_iff in Sh. destruct Sh as [_ Sh]. rewrite <- Ra in By'.
      destruct (IH f _ r1 c' s' d1 (pre ++ b) rest bs' cs4 o4 Ee En Ek Ei Fl Lr Dm' Hc' G' By' Gap Sh E4) as (xs2 & o2 & -> & N2 & S2).
      exists (xs ++ xs2), (o1 ++ o2). split; [rewrite lines_app; reflexivity|].
      assert (Cl : clocked clock (b :: bs') = (clock O, b) :: clocked (fun n => clock (S n)) bs').
      { unfold clocked. cbn [length seq map combine]. f_equal. f_equal. rewrite <- seq_shift, map_map. reflexivity. }
      rewrite Cl. cbn [ends]. rewrite <- Et. split; [apply Forall2_app; assumption|]. rewrite latest_app, <- Lx. apply Forall2_app; assumption.
  Qed.
End Audio.

Lemma audio_times : forall (D : Type) env se (lq : Liquid D) o fuel clock t samples rate full rest code items bs,
  host_ok env -> o_output_type o = OutJSON -> o_timestamp o = true ->
  mpx_init se o = Opened 1 rate -> o_streams o = false -> samples = concat full ++ rest ->
  Forall (fun p => N.of_nat (length p) = 8192) full -> N.of_nat (length rest) < 8192 ->
  processMPXInput fuel env se lq o clock t samples = Ok (Some (code, items)) ->
  let o' := with_audio o 1 (f32_of_Z rate) in
  bits_by_buffer lq (negb (SFeqb (f32_div f32_target_rate (f32_of_Z rate)) (f32_of_Z 1))) 0 (lq_init lq (f32_of_Z rate)) (BiphaseDecoder_init, 0) (full ++ [rest]) = Ok bs ->
  no_long_gap (o_use_fec o) (concat bs) -> Forall (fun b => N.of_nat (length b) < 2 ^ 40) bs ->
  exists xs out, items = Main.lines_of 0 out /\ Forall2 Times.near (ends (o_use_fec o) [] (clocked clock bs)) xs /\ Forall2 (shows_time env o') (latest 0 xs) out.
Proof.
  intros D env se lq o fuel clock t samples rate full rest code items bs H OJ OT Op St Sa Fl Lr E. cbv zeta. intros By Gap Sh.
  unfold processMPXInput in E. rewrite Op in E. cbv zeta in E. set (o' := with_audio o 1 (f32_of_Z rate)) in *. change (o_streams o') with (o_streams o) in E. rewrite St in E.
  change (N.to_nat 1) with 1%nat in E. cbn [make_receivers] in E. unfold SubcarrierSet_new in E. change (o_samplerate o') with (f32_of_Z rate) in E.
  destruct (SubcarrierSet_create (f32_of_Z rate)); cbn [bind] in E; try discriminate.
  set (s0 := mkSubcarrierSet 0 (f32_div f32_target_rate (f32_of_Z rate)) (lq_init lq (f32_of_Z rate)) (repeat (BiphaseDecoder_init, 0) 4)) in E.
  match type of E with context [mpx_loop ?a1 ?a2 ?a3 ?a4 ?a5 ?a6 ?a7 ?a8] => destruct (mpx_loop a1 a2 a3 a4 a5 a6 a7 a8) as [[[css out]|]| |] eqn:L end; cbn [bind] in E; try discriminate.
  assert (Fs : Forall (fresh_streams D o') css).
  { apply (loop_fresh D env lq o' _ _ _ _ _ _ L). constructor; [|constructor]. exists (BlockStream_init (o_use_fec o')). reflexivity. }
  destruct (flush_channels env o' t 0 css) as [f1| |] eqn:Fc; cbn [bind] in E; try discriminate. rewrite (flush_fresh D env o' t css 0 f1 Fs Fc), app_nil_r in E. injection E as <- <-.
  apply (loop_shown D env lq o' H OJ OT full fuel clock (MPXReader_init 1 samples) (Channel_new o' 0) s0 (BiphaseDecoder_init, 0) [] rest bs css out);
    try reflexivity; try assumption; [split; [reflexivity|split; reflexivity]|apply channel_new_ok].
Qed.

(* Computing [ends] in one pass *)
Fixpoint ends_run (s : BlockStream) (t : Z) (bits : list bool) : list (Z * N) :=
  match bits with
  | [] => []
  | b :: r => let '(s', og) := bst_step s b in match og with Some _ => [(t, N.of_nat (length r))] | None => [] end ++ ends_run s' t r
  end.
Fixpoint ends_all (s : BlockStream) (buffers : list (Z * list bool)) : list (Z * N) :=
  match buffers with
  | [] => []
  | (t, bits) :: r => ends_run s t bits ++ ends_all (fst (bst_run s bits)) r
  end.
Lemma ends_in_run : forall fec t bits before, ends_in fec before t bits = ends_run (state_after fec before) t bits.
Proof.
  intros fec t. induction bits as [|b r IH]; intros before; [reflexivity|]. cbn [ends_in ends_run]. rewrite IH.
  assert (Sa : state_after fec (before ++ [b]) = fst (bst_step (state_after fec before) b)).
  { unfold state_after. rewrite bst_run_app. destruct (bst_run (BlockStream_init fec) before) as [x y]. cbn [fst bst_run]. destruct (bst_step x b) as [x1 og]. destruct og; reflexivity. }
  rewrite Sa. unfold groups_after. cbn [bst_run]. destruct (bst_step (state_after fec before) b) as [x og]. destruct og; reflexivity.
Qed.
Lemma ends_run_all : forall fec buffers before, ends fec before buffers = ends_all (state_after fec before) buffers.
Proof.
  intros fec. induction buffers as [|[t bits] r IH]; intros before; [reflexivity|]. cbn [ends ends_all]. rewrite ends_in_run, IH. f_equal. f_equal.
  unfold state_after. rewrite bst_run_app. destruct (bst_run (BlockStream_init fec) before) as [x y]. cbn [fst]. destruct (bst_run x bits); reflexivity.
Qed.
