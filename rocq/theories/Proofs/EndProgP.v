(* The end of the input: the program. *)
From Verif.Model Require Import Base Float Group BlockSync Options Json Tmc Station Channel Input Dsp Main.
From Verif.Spec Require Import RdsCode RdsStream Reception JsonText Session Program Ending.
From Verif.Proofs Require Import Tac DspP SessionP UpdateP ChannelP HistoryP InputP MainP.

Local Open Scope N_scope.
Local Open Scope list_scope.

Definition fedby (env : Env) (o : Options) (ch : N) (c : Channel) (lines : list bytes) : Prop :=
  exists calls, Forall possible calls /\ Forall while_reading calls /\ session env o (Channel_new o ch) calls = Ok (c, lines).
Lemma fedby_new : forall env o ch, fedby env o ch (Channel_new o ch) [].
Proof. intros env o ch. exists []. split; [constructor|]. split; [constructor|reflexivity]. Qed.
Lemma fedby_call : forall env o ch c lines x, host_ok env -> fedby env o ch c lines -> possible x -> while_reading x ->
  exists c' out, do_call env o c x = Ok (c', out) /\ fedby env o ch c' (lines ++ printed out).
Proof.
  intros env o ch c lines x H (calls & F & F' & E) P P'.
  assert (F2 : Forall possible (calls ++ [x])) by (apply Forall_app; split; [exact F|constructor; [exact P|constructor]]).
  destruct (session_lines env o (Channel_new o ch) (calls ++ [x]) H (or_introl (ex_intro _ ch eq_refl)) F2) as (c' & l' & E2 & _).
  pose proof E2 as E3. rewrite (session_app _ _ _ _ _ _ _ E) in E3. cbn [session] in E3. destruct (do_call env o c x) as [[c1 o1]| |]; cbn [bind] in E3; try discriminate.
  injection E3 as <- E3. exists c1, o1. split; [reflexivity|]. exists (calls ++ [x]). split; [exact F2|]. split; [apply Forall_app; split; [exact F'|constructor; [exact P'|constructor]]|].
  rewrite E2. f_equal. f_equal. rewrite <- E3, app_nil_r. reflexivity.
Qed.
Lemma fedby_end : forall env o ch now c lines, host_ok env -> fedby env o ch c lines ->
  exists c' out, do_call env o c (Flush now) = Ok (c', out) /\ ended env o now ch (lines ++ printed out).
Proof.
  intros env o ch now c lines H (calls & F & F' & E).
  assert (F2 : Forall possible (calls ++ [Flush now])) by (apply Forall_app; split; [exact F|constructor; [exact I|constructor]]).
  destruct (session_lines env o (Channel_new o ch) (calls ++ [Flush now]) H (or_introl (ex_intro _ ch eq_refl)) F2) as (c' & l' & E2 & _).
  pose proof E2 as E3. rewrite (session_app _ _ _ _ _ _ _ E) in E3. cbn [session] in E3. destruct (do_call env o c (Flush now)) as [[c1 o1]| |]; cbn [bind] in E3; try discriminate.
  injection E3 as <- E3. exists c1, o1. split; [reflexivity|]. exists calls, c1. split; [exact F|]. split; [exact F'|].
  rewrite E2. f_equal. f_equal. rewrite <- E3, app_nil_r. reflexivity.
Qed.

Section Demodulator.
Context {D : Type} (lq : Liquid D).
(* ---- one channel ---- *)
Variable env : Env.
Variable o : Options.
Hypothesis HOST : host_ok env.
Hypothesis RESAMPLE : forall d x, (length (snd (lq_resample lq d x)) <= 2)%nat.

Lemma fedby_streams : forall ch c lines, fedby env o ch c lines -> length (ch_block_stream c) = 4%nat.
Proof.
  intros ch c lines (calls & F & _ & E). destruct (session_lines env o (Channel_new o ch) calls HOST (or_introl (ex_intro _ ch eq_refl)) F) as (c' & l' & E2 & K & _).
  rewrite E in E2. injection E2 as <- _. apply K.
Qed.
Lemma streams_fed : forall ch time now streams c s lines, fedby env o ch c lines -> ss_ok s ->
  Forall (fun nb => fst nb < 4 /\ N.of_nat (length (snd nb)) < 9007199254740992) streams ->
  exists c' s' out, feed_streams env lq o time now streams c s = Ok (c', s', out) /\ fedby env o ch c' (lines ++ printed out) /\ ss_ok s'.
Proof.
  intros ch time now. induction streams as [|[n bits] streams IH]; intros c s lines R S F; cbn [feed_streams].
  - exists c, s, []. split; [reflexivity|]. split; [rewrite app_nil_r; exact R|exact S].
  - destruct (Forall_inv F) as [F1 F2]. cbn [fst snd] in F1, F2.
    destruct (fedby_call env o ch c lines (Bits_in time now bits n) HOST R (conj F2 F1) I) as (c1 & o1 & E1 & R1). cbn [do_call] in E1. rewrite E1. cbn [bind].
    destruct (lost_ok c1 (fedby_streams _ _ _ R1)) as [x Ex]. rewrite Ex. cbn [bind]. cbv zeta.
    set (again := SFltb (f32_of_Z 10) x && SFltb (f32_of_Z 5) (getSecondsSinceLastReset s)).
    assert (R2 : fedby env o ch (if again then resetPI c1 else c1) (lines ++ printed o1)).
    { destruct again; [|exact R1]. destruct (fedby_call env o ch c1 _ Reset_pi HOST R1 I I) as (c2 & o2 & E2 & R2). cbn [do_call] in E2. injection E2 as <- <-. cbn [printed flat_map] in R2. rewrite app_nil_r in R2. exact R2. }
    assert (S2 : ss_ok (if again then ss_reset lq s else s)) by (destruct again; exact S).
    destruct (IH _ _ _ R2 S2 (Forall_inv_tail F)) as (c3 & s3 & o3 & E3 & R3 & S3). rewrite E3. cbn [bind].
    exists c3, s3, (o1 ++ o3). split; [reflexivity|]. split; [|exact S3]. rewrite printed_app, app_assoc. exact R3.
Qed.
Lemma channel_fed : forall now streams r ch cs lines, Forall (fun n => n < 4) streams -> filled r -> ch < mr_num_channels r -> fedby env o ch (fst cs) lines -> ss_ok (snd cs) ->
  exists cs' out, feed_channel env lq o now streams r ch cs = Ok (cs', out) /\ fedby env o ch (fst cs') (lines ++ printed out) /\ ss_ok (snd cs').
Proof.
  intros now streams r ch cs lines F K C R S. unfold feed_channel. destruct (read_ok r ch K C) as (chunk & t & E & L). rewrite E. cbn [bind].
  destruct (chunk_ok lq RESAMPLE streams chunk (snd cs) F S) as (s' & bits & E2 & S2 & L2 & B). rewrite E2. cbn [bind].
  destruct (streams_fed ch t now (combine streams bits) (fst cs) s' lines R S2) as (c3 & s3 & o3 & E3 & R3 & S3).
  - apply Forall_forall. intros [n b] I. cbn [fst snd]. rewrite Forall_forall in F, B. split; [apply F; exact (in_combine_l _ _ _ _ I)|].
    pose proof (B _ (in_combine_r _ _ _ _ I)) as Hb. cbv beta in Hb. assert (X : (N.of_nat (length b) <= 2 * kInputChunkSize)) by lia. unfold kInputChunkSize in X. lia.
  - rewrite E3. cbn [bind]. exists (c3, s3), o3. split; [reflexivity|]. split; assumption.
Qed.

(* ---- all channels ---- *)
Definition inv (i : N) (css : list (Receiver D)) (prev : list output_item) : Prop :=
  forall k cs, nth_error css k = Some cs -> fedby env o (i + N.of_nat k) (fst cs) (of_channel (i + N.of_nat k) prev) /\ ss_ok (snd cs).

Lemma channels_fed : forall now streams r, Forall (fun n => n < 4) streams -> filled r -> forall css i prev,
  i + N.of_nat (length css) <= mr_num_channels r -> inv i css prev ->
  exists css' out, feed_channels env lq o now streams r i css = Ok (css', out) /\ length css' = length css /\ inv i css' (prev ++ out) /\
    Forall (from_to i (i + N.of_nat (length css))) out.
Proof.
  intros now streams r F K. induction css as [|cs css IH]; intros i prev L Iv; cbn [feed_channels].
  - exists [], []. split; [reflexivity|]. split; [reflexivity|]. split; [|constructor]. intros [|k] cs E; discriminate E.
  - cbn [length] in L. destruct (Iv O cs eq_refl) as [R S0]. rewrite N.add_0_r in R.
    destruct (channel_fed now streams r i cs _ F K ltac:(lia) R S0) as (cs' & o1 & E1 & R1 & S1). rewrite E1. cbn [bind].
    assert (Iv2 : inv (i + 1) css (prev ++ Main.lines_of i o1)).
    { intros k c E. destruct (Iv (S k) c E) as [Rk Sk]. split; [|exact Sk]. rewrite of_app, of_lines_other, app_nil_r by lia. replace (i + 1 + N.of_nat k) with (i + N.of_nat (S k)) by lia. exact Rk. }
    destruct (IH (i + 1) _ ltac:(lia) Iv2) as (css' & out & E2 & L2 & Iv3 & F3). rewrite E2. cbn [bind].
    exists (cs' :: css'), (Main.lines_of i o1 ++ out). split; [reflexivity|]. split; [cbn [length]; rewrite L2; reflexivity|]. split.
    + intros [|k] c E; cbn [nth_error] in E.
      * injection E as <-. rewrite N.add_0_r. split; [|exact S1]. rewrite !of_app, of_lines, (of_none i out _ _ F3), app_nil_r by lia. exact R1.
      * destruct (Iv3 k c E) as [Rk Sk]. split; [|exact Sk]. replace (i + N.of_nat (S k)) with (i + 1 + N.of_nat k) by lia. rewrite app_assoc. exact Rk.
    + cbn [length]. apply Forall_app. split; [eapply from_weaken; [| |apply lines_from]; lia|]. eapply from_weaken; [| |exact F3]; lia.
Qed.
Lemma loop_ok : forall streams, Forall (fun n => n < 4) streams -> forall fuel clock r css prev, reader_ok r -> (length (mr_input r) < fuel)%nat ->
  N.of_nat (length css) <= mr_num_channels r -> inv 0 css prev ->
  exists css' out, mpx_loop fuel env lq o clock streams r css = Ok (Some (css', out)) /\ length css' = length css /\ inv 0 css' (prev ++ out) /\
    Forall (from_to 0 (N.of_nat (length css))) out.
Proof.
  intros streams F. induction fuel as [|fuel IH]; intros clock r css prev K L C Iv; [lia|]. cbn [mpx_loop].
  assert (Done : exists css' out, Ok (Some (css, [])) = Ok (Some (css', out)) /\ length css' = length css /\ inv 0 css' (prev ++ out) /\ Forall (from_to 0 (N.of_nat (length css))) out)
    by (exists css, []; rewrite app_nil_r; split; [reflexivity|]; split; [reflexivity|]; split; [exact Iv|apply Forall_nil]).
  destruct (mr_is_eof r) eqn:E; [exact Done|]. cbv zeta. pose proof (fill_ok (clock O) r K) as K2. set (r2 := fillBuffer (clock O) r) in *.
  destruct (channels_fed (clock O) streams r2 F K2 css 0 prev C Iv) as (css1 & o1 & E1 & L1 & Iv1 & F1). rewrite E1. cbn [bind].
  assert (Rec : exists css' out, mpx_loop fuel env lq o (fun n => clock (S n)) streams r2 css1 = Ok (Some (css', out)) /\ length css' = length css1 /\ inv 0 css' ((prev ++ o1) ++ out) /\ Forall (from_to 0 (N.of_nat (length css1))) out).
  { destruct (mr_is_eof r2) eqn:E2.
    - exists css1, []. destruct fuel; cbn [mpx_loop]; rewrite E2, app_nil_r; (split; [reflexivity|]; split; [reflexivity|]; split; [exact Iv1|apply Forall_nil]).
    - apply IH; [exact (proj1 K2)| |rewrite L1; exact C|exact Iv1].
      assert (N.of_nat (length (mr_buffer r2)) = mr_chunk_size r2) by (apply K2; exact E2). pose proof (chunk_le r2 (proj1 K2)) as Cl. unfold r2 in *. cbn [fillBuffer mr_input mr_buffer mr_chunk_size] in *.
      rewrite firstn_length in *. rewrite skipn_length. lia. }
  destruct Rec as (css2 & o2 & E2 & L2 & Iv2 & F2). rewrite E2. cbn [bind]. exists css2, (o1 ++ o2). split; [reflexivity|]. split; [congruence|]. rewrite app_assoc. split; [exact Iv2|].
  apply Forall_app. split; [exact F1|]. rewrite L1 in F2. exact F2.
Qed.
Lemma flushed_ok : forall now css i prev, inv i css prev -> exists out, flush_channels env o now i css = Ok out /\
  (forall k, (k < length css)%nat -> ended env o now (i + N.of_nat k) (of_channel (i + N.of_nat k) (prev ++ out))) /\
  Forall (from_to i (i + N.of_nat (length css))) out.
Proof.
  intros now. induction css as [|cs css IH]; intros i prev Iv; cbn [flush_channels].
  - exists []. split; [reflexivity|]. split; [intros k H; cbn in H; lia|constructor].
  - destruct (Iv O cs eq_refl) as [R S0]. rewrite N.add_0_r in R. destruct (fedby_end env o i now (fst cs) _ HOST R) as (c1 & o1 & E1 & R1). cbn [do_call] in E1. rewrite E1. cbn [bind].
    assert (Iv2 : inv (i + 1) css (prev ++ Main.lines_of i o1)).
    { intros k c E. destruct (Iv (S k) c E) as [Rk Sk]. split; [|exact Sk]. rewrite of_app, of_lines_other, app_nil_r by lia. replace (i + 1 + N.of_nat k) with (i + N.of_nat (S k)) by lia. exact Rk. }
    destruct (IH (i + 1) _ Iv2) as (out & E2 & R2 & F2). rewrite E2. cbn [bind]. exists (Main.lines_of i o1 ++ out). split; [reflexivity|]. cbn [length]. split.
    + intros [|k] Hk.
      * rewrite N.add_0_r. rewrite !of_app, of_lines, (of_none i out _ _ F2), app_nil_r by lia. exact R1.
      * specialize (R2 k ltac:(lia)). replace (i + N.of_nat (S k)) with (i + 1 + N.of_nat k) by lia. rewrite app_assoc. exact R2.
    + apply Forall_app. split; [eapply from_weaken; [| |apply lines_from]; lia|]. eapply from_weaken; [| |exact F2]; lia.
Qed.
Lemma made : forall n i, (exists css, make_receivers lq o n i = Ok css /\ length css = n /\ inv i css []) \/
  (exists m, SubcarrierSet_create (o_samplerate o) = Throw m /\ make_receivers lq o n i = Throw m).
Proof.
  induction n as [|n IH]; intros i; cbn [make_receivers].
  - left. exists []. split; [reflexivity|]. split; [reflexivity|]. intros [|k] cs E; discriminate E.
  - destruct (SubcarrierSet_new lq (o_samplerate o)) as [s|m|m] eqn:E.
    + cbn [bind]. destruct (IH (i + 1)) as [(css & E2 & L & Iv)|(m & X & E2)]; rewrite E2; cbn [bind].
      * left. exists ((Channel_new o i, s) :: css). split; [reflexivity|]. split; [cbn [length]; rewrite L; reflexivity|]. intros [|k] cs Ek; cbn [nth_error] in Ek.
        -- injection Ek as <-. rewrite N.add_0_r. split; [apply fedby_new|exact (ss_new lq _ _ E)].
        -- destruct (Iv k cs Ek) as [R S0]. replace (i + N.of_nat (S k)) with (i + 1 + N.of_nat k) by lia. split; assumption.
      * right. exists m. split; [exact X|reflexivity].
    + right. exists m. unfold SubcarrierSet_new in E. destruct (SubcarrierSet_create (o_samplerate o)) eqn:X; cbn [bind] in E; try discriminate. injection E as <-. split; reflexivity.
    + exfalso. unfold SubcarrierSet_new, SubcarrierSet_create, setRatio in E. destruct (SFltb _ _ || SFltb _ _); cbn [bind] in E; discriminate.
Qed.
End Demodulator.

Lemma mpx_ends : forall (D : Type) (lq : Liquid D) env se o clock now samples fuel n rate code out, host_ok env -> audio_ok se lq -> 1 <= o_num_channels o <= 1024 -> (length samples < fuel)%nat ->
  mpx_init se o = Opened n rate -> processMPXInput fuel env se lq o clock now samples = Ok (Some (code, out)) ->
  forall ch, ch < n -> ended env (with_audio o n (f32_of_Z rate)) now ch (of_channel ch out).
Proof.
  intros D lq env se o clock now samples fuel n rate code out H [A1 A2] NC L E P. unfold processMPXInput in P. rewrite E in P.
  assert (Hn : 1 <= n <= 1024).
  { unfold mpx_init in E. destruct (o_input_type o); try (destruct (snd_file se (o_sndfilename o)) as [|n0 r0] eqn:S; [discriminate|]; pose proof (A1 _ _ _ S));
      try (destruct (snd_stdin_opens se); [|discriminate]);
      repeat match type of E with (if ?b then _ else _) = _ => destruct b; [discriminate|] end; injection E as <- _; assumption. }
  cbv zeta in P. set (o' := with_audio o n (f32_of_Z rate)) in *.
  destruct (made lq env o' (N.to_nat n) 0) as [(css & E1 & L1 & Iv)|(m & X & E1)]; rewrite E1 in P; cbn [bind] in P; [|discriminate].
  set (streams := if o_streams o' then [0; 1; 2; 3] else [0]) in *. assert (FS : Forall (fun n => n < 4) streams) by (unfold streams; destruct (o_streams o'); repeat constructor).
  destruct (loop_ok lq env o' H A2 streams FS fuel clock (MPXReader_init n samples) css []) as (css2 & o2 & E2 & L2 & Iv2 & F2).
  - split; [exact Hn|reflexivity].
  - exact L.
  - cbn [mr_num_channels MPXReader_init]. lia.
  - exact Iv.
  - rewrite E2 in P. cbn [bind] in P. destruct (flushed_ok env o' H now css2 0 _ Iv2) as (o3 & E3 & R3 & F3). rewrite E3 in P. cbn [bind] in P. injection P as _ <-.
    intros ch Hc. specialize (R3 (N.to_nat ch) ltac:(lia)). rewrite N.add_0_l, N2Nat.id in R3. exact R3.
Qed.
