(* The program as a whole: every run ends, and what it prints for a channel is what a session on that
   channel prints. *)
From Verif.Model Require Import Base Util Float Group BlockSync Options Json Tmc Station Channel Input Dsp Main.
From Verif.Spec Require Import Inputs Session Program.
From Verif.Proofs Require Import Tac Schema UpdateP SessionP InputP DspP HexP.

Local Open Scope string_scope.
Local Open Scope N_scope.
Local Open Scope list_scope.

(* ---- sessions ---- *)
Definition ran (env : Env) (o : Options) (ch : N) (c : Channel) (lines : list bytes) : Prop :=
  exists calls, Forall possible calls /\ session env o (Channel_new o ch) calls = Ok (c, lines).
Lemma session_app : forall env o a b c c' l, session env o c a = Ok (c', l) ->
  session env o c (a ++ b) = ('(c2, l2) <- session env o c' b ;; Ok (c2, l ++ l2)).
Proof.
  intros env o. induction a as [|x a IH]; intros b c c' l E; cbn [session app] in *.
  - injection E as -> <-. destruct (session env o c' b) as [[c2 l2]| |]; reflexivity.
  - destruct (do_call env o c x) as [[c1 o1]| |]; cbn [bind] in *; try discriminate.
    destruct (session env o c1 a) as [[c3 l3]| |] eqn:E3; cbn [bind] in *; try discriminate. injection E as -> <-.
    rewrite (IH b _ _ _ E3). destruct (session env o c' b) as [[c2 l2]| |]; cbn [bind]; try reflexivity. rewrite app_assoc. reflexivity.
Qed.
Lemma ran_new : forall env o ch, ran env o ch (Channel_new o ch) [].
Proof. intros env o ch. exists []. split; [constructor|reflexivity]. Qed.
Lemma ran_call : forall env o ch c lines x, host_ok env -> ran env o ch c lines -> possible x ->
  exists c' out, do_call env o c x = Ok (c', out) /\ ran env o ch c' (lines ++ printed out).
Proof.
  intros env o ch c lines x H (calls & F & E) P.
  assert (F2 : Forall possible (calls ++ [x])) by (apply Forall_app; split; [exact F|constructor; [exact P|constructor]]).
  destruct (session_lines env o (Channel_new o ch) (calls ++ [x]) H (or_introl (ex_intro _ ch eq_refl)) F2) as (c' & l' & E2 & _).
  pose proof E2 as E3. rewrite (session_app _ _ _ _ _ _ _ E) in E3. cbn [session] in E3. destruct (do_call env o c x) as [[c1 o1]| |]; cbn [bind] in E3; try discriminate.
  injection E3 as <- E3. exists c1, o1. split; [reflexivity|]. exists (calls ++ [x]). split; [exact F2|]. rewrite E2. f_equal. f_equal. rewrite <- E3, app_nil_r. reflexivity.
Qed.

(* ---- the demodulator ---- *)
Section Demodulator.
Context {D : Type} (lq : Liquid D).
Definition ss_ok (s : SubcarrierSet D) : Prop := length (ss_decoders s) = 4%nat /\ Forall (fun d => bp_ok (fst d)) (ss_decoders s).
Lemma Forall_set : forall (A : Type) (P : A -> Prop) l i x, Forall P l -> P x -> Forall P (list_set l i x).
Proof. intros A P l. induction l as [|y l IH]; intros i x F Px; [constructor|]. inversion F; subst. destruct i; cbn [list_set]; constructor; auto. Qed.
Lemma ss_new : forall rate s, SubcarrierSet_new lq rate = Ok s -> ss_ok s.
Proof. intros rate s E. unfold SubcarrierSet_new in E. destruct (SubcarrierSet_create rate); cbn [bind] in E; try discriminate. injection E as <-. split; [reflexivity|]. cbn [ss_decoders]. repeat constructor; apply bp_init. Qed.
Lemma ss_reset_ok : forall s, ss_ok s -> ss_ok (ss_reset lq s).
Proof. intros s H. exact H. Qed.
Lemma decode_ok : forall dec symbol, bp_ok (fst dec) -> exists dec' bits, decode_symbol dec symbol = Ok (dec', bits) /\ bp_ok (fst dec') /\ (length bits <= 1)%nat.
Proof.
  intros [b prev] symbol H. unfold decode_symbol. cbn [fst snd] in *. destruct (biphase_step b symbol H) as (b' & data & E & B & _). rewrite E. cbn [bind]. destruct (bp_clock b mod 2 =? bp_clock_polarity b).
  - destruct (delta_decode prev (if data then 1 else 0)) as [prev' bit]. eexists. eexists. split; [reflexivity|]. split; [exact B|]. cbn. lia.
  - eexists. eexists. split; [reflexivity|]. split; [exact B|]. cbn. lia.
Qed.
Lemma sample_ok : forall turn x streams s, ss_ok s -> Forall (fun n => n < 4) streams ->
  exists s' bits, sample_streams lq turn x streams s = Ok (s', bits) /\ ss_ok s' /\ length bits = length streams /\ Forall (fun b => (length b <= 1)%nat) bits.
Proof.
  intros turn x. induction streams as [|n streams IH]; intros s H F; cbn [sample_streams].
  - exists s, []. repeat split; try constructor; apply H.
  - destruct (lq_sample lq (ss_liquid s) n x turn) as [d symbol]. pose proof (Forall_inv F) as Hn. cbv beta in Hn. pose proof (Forall_inv_tail F) as F'.
    assert (G : exists decs bits, (match (if turn then symbol else None) with
         | Some symbol => dec <- arr_get (ss_decoders s) n ;; '(dec, bits) <- decode_symbol dec symbol ;; Ok (list_set (ss_decoders s) (N.to_nat n) dec, bits)
         | None => Ok (ss_decoders s, []) end) = Ok (decs, bits) /\ length decs = 4%nat /\ Forall (fun d => bp_ok (fst d)) decs /\ (length bits <= 1)%nat).
    { destruct H as [H1 H2]. destruct (if turn then symbol else None) as [sy|]; [|exists (ss_decoders s), []; repeat split; auto].
      unfold arr_get. destruct (nth_error (ss_decoders s) (N.to_nat n)) as [dec|] eqn:E; [|apply nth_error_None in E; lia]. cbn [bind].
      destruct (decode_ok dec sy) as (dec' & bits & E2 & B & L); [rewrite Forall_forall in H2; apply H2; exact (nth_error_In _ _ E)|]. rewrite E2. cbn [bind].
      exists (list_set (ss_decoders s) (N.to_nat n) dec'), bits. split; [reflexivity|]. split; [rewrite list_set_len; exact H1|]. split; [apply Forall_set; assumption|exact L]. }
    destruct G as (decs & bits & E & L1 & L2 & L3). rewrite E. cbn [bind].
    destruct (IH (mkSubcarrierSet (ss_sample_num s) (ss_ratio s) d decs) (conj L1 L2) F') as (s' & out & E2 & S' & L4 & L5). rewrite E2. cbn [bind].
    exists s', (bits :: out). split; [reflexivity|]. split; [exact S'|]. split; [cbn [length]; rewrite L4; reflexivity|]. constructor; assumption.
Qed.
Lemma samples_ok : forall streams, Forall (fun n => n < 4) streams -> forall samples s, ss_ok s ->
  exists s' bits, process_samples lq streams samples s = Ok (s', bits) /\ ss_ok s' /\ length bits = length streams /\ Forall (fun b => (length b <= length samples)%nat) bits.
Proof.
  intros streams F. induction samples as [|x samples IH]; intros s H; cbn [process_samples].
  - exists s, (map (fun _ => []) streams). split; [reflexivity|]. split; [exact H|]. split; [apply map_length|]. apply Forall_forall. intros b I. apply in_map_iff in I. destruct I as (? & <- & _). cbn. lia.
  - destruct (sample_ok (ss_sample_num s mod kDecimateRatio =? 0) x streams s H F) as (s1 & b1 & E1 & S1 & L1 & F1). rewrite E1. cbn [bind]. cbv zeta.
    set (s2 := mkSubcarrierSet _ _ _ _). assert (S2 : ss_ok s2) by exact S1. destruct (IH s2 S2) as (s3 & b3 & E3 & S3 & L3 & F3). rewrite E3. cbn [bind].
    eexists. eexists. split; [reflexivity|]. split; [exact S3|]. split; [rewrite map_length, combine_length; lia|].
    apply Forall_forall. intros b I. apply in_map_iff in I. destruct I as ([p q] & <- & I). cbn [fst snd length]. rewrite app_length.
    rewrite Forall_forall in F1, F3. pose proof (F1 _ (in_combine_l _ _ _ _ I)). pose proof (F3 _ (in_combine_r _ _ _ _ I)). cbv beta in *. lia.
Qed.
Lemma resample_length : (forall d x, (length (snd (lq_resample lq d x)) <= 2)%nat) -> forall chunk d, (length (snd (resample_loop lq d chunk)) <= 2 * length chunk)%nat.
Proof.
  intros R. induction chunk as [|x chunk IH]; intros d; cbn [resample_loop]; [cbn; lia|]. specialize (R d x). destruct (lq_resample lq d x) as [d1 l1]. specialize (IH d1). destruct (resample_loop lq d1 chunk) as [d2 l2]. cbn [snd length] in *. rewrite app_length. lia.
Qed.
Lemma chunk_ok : (forall d x, (length (snd (lq_resample lq d x)) <= 2)%nat) -> forall streams chunk s, Forall (fun n => n < 4) streams -> ss_ok s ->
  exists s' bits, processChunk lq s chunk streams = Ok (s', bits) /\ ss_ok s' /\ length bits = length streams /\ Forall (fun b => (length b <= 2 * length chunk)%nat) bits.
Proof.
  intros R streams chunk s F H. unfold processChunk, resampleChunk. destruct (SFeqb (ss_ratio s) (f32_of_Z 1)).
  - destruct (samples_ok streams F chunk s H) as (s' & bits & E & S & L & B). exists s', bits. split; [exact E|]. split; [exact S|]. split; [exact L|]. eapply Forall_impl; [|exact B]. cbv beta. intros b Hb. lia.
  - pose proof (resample_length R chunk (ss_liquid s)) as Q. destruct (resample_loop lq (ss_liquid s) chunk) as [d l]. cbn [snd] in Q. set (s1 := mkSubcarrierSet _ _ _ _). assert (S1 : ss_ok s1) by exact H.
    destruct (samples_ok streams F l s1 S1) as (s' & bits & E & S & L & B). exists s', bits. split; [exact E|]. split; [exact S|]. split; [exact L|]. eapply Forall_impl; [|exact B]. cbv beta. intros b Hb. lia.
Qed.

(* ---- one channel ---- *)
Variable env : Env.
Variable o : Options.
Hypothesis HOST : host_ok env.
Hypothesis RESAMPLE : forall d x, (length (snd (lq_resample lq d x)) <= 2)%nat.

Lemma lost_ok : forall c, length (ch_block_stream c) = 4%nat -> exists x, getSecondsSinceCarrierLost c = Ok x.
Proof. intros c L. unfold getSecondsSinceCarrierLost, arr_get. destruct (ch_block_stream c); [discriminate|]. eexists. reflexivity. Qed.
Lemma ran_streams : forall ch c lines, ran env o ch c lines -> length (ch_block_stream c) = 4%nat.
Proof.
  intros ch c lines (calls & F & E). destruct (session_lines env o (Channel_new o ch) calls HOST (or_introl (ex_intro _ ch eq_refl)) F) as (c' & l' & E2 & K & _).
  rewrite E in E2. injection E2 as <- _. apply K.
Qed.
Lemma streams_fed : forall ch time now streams c s lines, ran env o ch c lines -> ss_ok s ->
  Forall (fun nb => fst nb < 4 /\ N.of_nat (length (snd nb)) < 9007199254740992) streams ->
  exists c' s' out, feed_streams env lq o time now streams c s = Ok (c', s', out) /\ ran env o ch c' (lines ++ printed out) /\ ss_ok s'.
Proof.
  intros ch time now. induction streams as [|[n bits] streams IH]; intros c s lines R S F; cbn [feed_streams].
  - exists c, s, []. split; [reflexivity|]. split; [rewrite app_nil_r; exact R|exact S].
  - destruct (Forall_inv F) as [F1 F2]. cbn [fst snd] in F1, F2.
    destruct (ran_call env o ch c lines (Bits_in time now bits n) HOST R (conj F2 F1)) as (c1 & o1 & E1 & R1). cbn [do_call] in E1. rewrite E1. cbn [bind].
    destruct (lost_ok c1 (ran_streams _ _ _ R1)) as [x Ex]. rewrite Ex. cbn [bind]. cbv zeta.
    set (again := SFltb (f32_of_Z 10) x && SFltb (f32_of_Z 5) (getSecondsSinceLastReset s)).
    assert (R2 : ran env o ch (if again then resetPI c1 else c1) (lines ++ printed o1)).
    { destruct again; [|exact R1]. destruct (ran_call env o ch c1 _ Reset_pi HOST R1 I) as (c2 & o2 & E2 & R2). cbn [do_call] in E2. injection E2 as <- <-. cbn [printed flat_map] in R2. rewrite app_nil_r in R2. exact R2. }
    assert (S2 : ss_ok (if again then ss_reset lq s else s)) by (destruct again; exact S).
    destruct (IH _ _ _ R2 S2 (Forall_inv_tail F)) as (c3 & s3 & o3 & E3 & R3 & S3). rewrite E3. cbn [bind].
    exists c3, s3, (o1 ++ o3). split; [reflexivity|]. split; [|exact S3]. rewrite printed_app, app_assoc. exact R3.
Qed.
Definition reader_ok (r : MPXReader spec_float) : Prop :=
  1 <= mr_num_channels r <= 1024 /\ mr_chunk_size r = (kInputChunkSize / mr_num_channels r) * mr_num_channels r.
(* after fillBuffer *)
Definition filled (r : MPXReader spec_float) : Prop :=
  reader_ok r /\ (length (mr_buffer r) <= N.to_nat kInputChunkSize)%nat /\ (mr_is_eof r = false -> N.of_nat (length (mr_buffer r)) = mr_chunk_size r).
Lemma chunk_le : forall r, reader_ok r -> 1 <= mr_chunk_size r <= kInputChunkSize.
Proof.
  intros r [[N1 N2] E]. rewrite E. set (n := mr_num_channels r) in *. clearbody n. unfold kInputChunkSize. split.
  - assert (1 <= 8192 / n) by (apply N.div_le_lower_bound; lia). nia.
  - rewrite N.mul_comm. apply N.mul_div_le. lia.
Qed.
Lemma fill_ok : forall now r, reader_ok r -> filled (fillBuffer now r).
Proof.
  intros now r K. pose proof (chunk_le r K) as C. unfold filled, fillBuffer. cbn [mr_buffer mr_is_eof mr_chunk_size mr_num_channels reader_ok]. split; [exact K|].
  split; [rewrite firstn_length; lia|].
  intros E. apply orb_false_iff in E. destruct E as [_ E]. rewrite firstn_length in *. lia.
Qed.
Lemma every_le : forall (A : Type) n (l : list A) k, (length (every n k l) <= length l)%nat.
Proof. intros A n l. induction l as [|x l IH]; intros [|k]; cbn [every length]; try lia; [specialize (IH (n - 1)%nat)|specialize (IH k)]; lia. Qed.
Lemma full_rows : forall r, filled r -> mr_is_eof r = false -> exists m, length (mr_buffer r) = (m * N.to_nat (mr_num_channels r))%nat.
Proof.
  intros r ([_ K] & _ & F) E. exists (N.to_nat (kInputChunkSize / mr_num_channels r)). specialize (F E). rewrite K in F. apply Nat2N.inj. rewrite F, Nat2N.inj_mul, !N2Nat.id. reflexivity.
Qed.
Lemma read_ok : forall r ch, filled r -> ch < mr_num_channels r -> exists chunk t, readChunk r ch = Ok (chunk, t) /\ (length chunk <= N.to_nat kInputChunkSize)%nat.
Proof.
  intros r ch K C. destruct (mr_is_eof r) eqn:E.
  - unfold readChunk. replace (mr_num_channels r <=? ch) with false by lia. rewrite E. exists (mr_buffer r), (mr_buffer_time r). split; [reflexivity|]. apply K.
  - destruct (chunk_channel _ r ch) as [t T]; [apply K|exact C|exact E|apply full_rows; assumption|]. eexists. exists t. split; [exact T|]. eapply Nat.le_trans; [apply every_le|apply K].
Qed.
Lemma channel_fed : forall now streams r ch cs lines, Forall (fun n => n < 4) streams -> filled r -> ch < mr_num_channels r -> ran env o ch (fst cs) lines -> ss_ok (snd cs) ->
  exists cs' out, feed_channel env lq o now streams r ch cs = Ok (cs', out) /\ ran env o ch (fst cs') (lines ++ printed out) /\ ss_ok (snd cs').
Proof.
  intros now streams r ch cs lines F K C R S. unfold feed_channel. destruct (read_ok r ch K C) as (chunk & t & E & L). rewrite E. cbn [bind].
  destruct (chunk_ok RESAMPLE streams chunk (snd cs) F S) as (s' & bits & E2 & S2 & L2 & B). rewrite E2. cbn [bind].
  destruct (streams_fed ch t now (combine streams bits) (fst cs) s' lines R S2) as (c3 & s3 & o3 & E3 & R3 & S3).
  - apply Forall_forall. intros [n b] I. cbn [fst snd]. rewrite Forall_forall in F, B. split; [apply F; exact (in_combine_l _ _ _ _ I)|].
    pose proof (B _ (in_combine_r _ _ _ _ I)) as Hb. cbv beta in Hb. assert (X : (N.of_nat (length b) <= 2 * kInputChunkSize)) by lia. unfold kInputChunkSize in X. lia.
  - rewrite E3. cbn [bind]. exists (c3, s3), o3. split; [reflexivity|]. split; assumption.
Qed.

(* ---- all channels ---- *)
Definition inv (i : N) (css : list (Receiver D)) (prev : list output_item) : Prop :=
  forall k cs, nth_error css k = Some cs -> ran env o (i + N.of_nat k) (fst cs) (of_channel (i + N.of_nat k) prev) /\ ss_ok (snd cs).
Lemma of_app : forall ch a b, of_channel ch (a ++ b) = of_channel ch a ++ of_channel ch b.
Proof. intros. apply flat_map_app. Qed.
Lemma of_lines : forall ch out, of_channel ch (lines_of ch out) = printed out.
Proof.
  intros ch. induction out as [|[l|] out IH]; cbn [lines_of flat_map printed of_channel app]; [reflexivity| |exact IH]. rewrite N.eqb_refl. cbn [app]. f_equal. exact IH.
Qed.
Lemma of_lines_other : forall ch ch' out, ch <> ch' -> of_channel ch (lines_of ch' out) = [].
Proof.
  intros ch ch' out Ne. induction out as [|[l|] out IH]; cbn [lines_of flat_map printed of_channel app]; [reflexivity| |exact IH]. replace (ch' =? ch) with false by lia. exact IH.
Qed.
Definition from_to (i j : N) (s : output_item) : Prop := match s with Line c _ => i <= c < j | _ => False end.
Lemma lines_from : forall ch out, Forall (from_to ch (ch + 1)) (lines_of ch out).
Proof. intros ch out. apply Forall_forall. intros x I. unfold lines_of in I. apply in_flat_map in I. destruct I as ([l|] & _ & I); [|contradiction]. destruct I as [<-|[]]. cbn. lia. Qed.
Lemma of_none : forall ch out i j, Forall (from_to i j) out -> ch < i \/ j <= ch -> of_channel ch out = [].
Proof.
  intros ch out i j F H. induction F as [|x out Hx F IH]; [reflexivity|]. cbn [of_channel flat_map]. destruct x; try contradiction. cbn in Hx. replace (channel =? ch) with false by lia. exact IH.
Qed.
Lemma from_weaken : forall i j i' j' out, i' <= i -> j <= j' -> Forall (from_to i j) out -> Forall (from_to i' j') out.
Proof. intros i j i' j' out H1 H2 F. eapply Forall_impl; [|exact F]. intros x Hx. destruct x; try contradiction. cbn in *. lia. Qed.

Lemma channels_fed : forall now streams r, Forall (fun n => n < 4) streams -> filled r -> forall css i prev,
  i + N.of_nat (length css) <= mr_num_channels r -> inv i css prev ->
  exists css' out, feed_channels env lq o now streams r i css = Ok (css', out) /\ length css' = length css /\ inv i css' (prev ++ out) /\
    Forall (from_to i (i + N.of_nat (length css))) out.
Proof.
  intros now streams r F K. induction css as [|cs css IH]; intros i prev L Iv; cbn [feed_channels].
  - exists [], []. split; [reflexivity|]. split; [reflexivity|]. split; [|constructor]. intros [|k] cs E; discriminate E.
  - cbn [length] in L. destruct (Iv O cs eq_refl) as [R S0]. rewrite N.add_0_r in R.
    destruct (channel_fed now streams r i cs _ F K ltac:(lia) R S0) as (cs' & o1 & E1 & R1 & S1). rewrite E1. cbn [bind].
    assert (Iv2 : inv (i + 1) css (prev ++ lines_of i o1)).
    { intros k c E. destruct (Iv (S k) c E) as [Rk Sk]. split; [|exact Sk]. rewrite of_app, of_lines_other, app_nil_r by lia. replace (i + 1 + N.of_nat k) with (i + N.of_nat (S k)) by lia. exact Rk. }
    destruct (IH (i + 1) _ ltac:(lia) Iv2) as (css' & out & E2 & L2 & Iv3 & F3). rewrite E2. cbn [bind].
    exists (cs' :: css'), (lines_of i o1 ++ out). split; [reflexivity|]. split; [cbn [length]; rewrite L2; reflexivity|]. split.
    + intros [|k] c E; cbn [nth_error] in E.
      * injection E as <-. rewrite N.add_0_r. split; [|exact S1]. rewrite !of_app, of_lines, (of_none i out _ _ F3), app_nil_r by lia. exact R1.
      * destruct (Iv3 k c E) as [Rk Sk]. split; [|exact Sk]. replace (i + N.of_nat (S k)) with (i + 1 + N.of_nat k) by lia. rewrite app_assoc. exact Rk.
    + cbn [length]. apply Forall_app. split; [eapply from_weaken; [| |apply lines_from]; lia|]. eapply from_weaken; [| |exact F3]; lia.
Qed.
Lemma loop_ok : forall streams, Forall (fun n => n < 4) streams -> forall fuel clock r css prev, reader_ok r -> (length (mr_input r) < fuel)%nat ->
  N.of_nat (length css) <= mr_num_channels r -> inv 0 css prev ->
  exists css' out, mpx_loop fuel env lq o clock streams r css = Ok (Some (css', out)) /\ length css' = length css /\ inv 0 css' (prev ++ out) /\
    Forall (from_to 0 (N.of_nat (length css))) out.
Proof.
  intros streams F. induction fuel as [|fuel IH]; intros clock r css prev K L C Iv; [lia|]. cbn [mpx_loop].
  assert (Done : exists css' out, Ok (Some (css, [])) = Ok (Some (css', out)) /\ length css' = length css /\ inv 0 css' (prev ++ out) /\ Forall (from_to 0 (N.of_nat (length css))) out)
    by (exists css, []; rewrite app_nil_r; split; [reflexivity|]; split; [reflexivity|]; split; [exact Iv|apply Forall_nil]).
  destruct (mr_is_eof r) eqn:E; [exact Done|]. cbv zeta. pose proof (fill_ok (clock O) r K) as K2. set (r2 := fillBuffer (clock O) r) in *.
  destruct (channels_fed (clock O) streams r2 F K2 css 0 prev C Iv) as (css1 & o1 & E1 & L1 & Iv1 & F1). rewrite E1. cbn [bind].
  assert (Rec : exists css' out, mpx_loop fuel env lq o (fun n => clock (S n)) streams r2 css1 = Ok (Some (css', out)) /\ length css' = length css1 /\ inv 0 css' ((prev ++ o1) ++ out) /\ Forall (from_to 0 (N.of_nat (length css1))) out).
  { destruct (mr_is_eof r2) eqn:E2.
    - exists css1, []. destruct fuel; cbn [mpx_loop]; rewrite E2, app_nil_r; (split; [reflexivity|]; split; [reflexivity|]; split; [exact Iv1|apply Forall_nil]).
    - apply IH; [exact (proj1 K2)| |rewrite L1; exact C|exact Iv1].
      assert (N.of_nat (length (mr_buffer r2)) = mr_chunk_size r2) by (apply K2; exact E2). pose proof (chunk_le r2 (proj1 K2)) as Cl. unfold r2 in *. cbn [fillBuffer mr_input mr_buffer mr_chunk_size] in *.
      rewrite firstn_length in *. rewrite skipn_length. lia. }
  destruct Rec as (css2 & o2 & E2 & L2 & Iv2 & F2). rewrite E2. cbn [bind]. exists css2, (o1 ++ o2). split; [reflexivity|]. split; [congruence|]. rewrite app_assoc. split; [exact Iv2|].
  apply Forall_app. split; [exact F1|]. rewrite L1 in F2. exact F2.
Qed.
Lemma flushed_ok : forall now css i prev, inv i css prev -> exists out, flush_channels env o now i css = Ok out /\
  (forall k, (k < length css)%nat -> exists c, ran env o (i + N.of_nat k) c (of_channel (i + N.of_nat k) (prev ++ out))) /\
  Forall (from_to i (i + N.of_nat (length css))) out.
Proof.
  intros now. induction css as [|cs css IH]; intros i prev Iv; cbn [flush_channels].
  - exists []. split; [reflexivity|]. split; [intros k H; cbn in H; lia|constructor].
  - destruct (Iv O cs eq_refl) as [R S0]. rewrite N.add_0_r in R. destruct (ran_call env o i (fst cs) _ (Flush now) HOST R I) as (c1 & o1 & E1 & R1). cbn [do_call] in E1. rewrite E1. cbn [bind].
    assert (Iv2 : inv (i + 1) css (prev ++ lines_of i o1)).
    { intros k c E. destruct (Iv (S k) c E) as [Rk Sk]. split; [|exact Sk]. rewrite of_app, of_lines_other, app_nil_r by lia. replace (i + 1 + N.of_nat k) with (i + N.of_nat (S k)) by lia. exact Rk. }
    destruct (IH (i + 1) _ Iv2) as (out & E2 & R2 & F2). rewrite E2. cbn [bind]. exists (lines_of i o1 ++ out). split; [reflexivity|]. cbn [length]. split.
    + intros [|k] Hk.
      * rewrite N.add_0_r. exists c1. rewrite !of_app, of_lines, (of_none i out _ _ F2), app_nil_r by lia. exact R1.
      * destruct (R2 k ltac:(lia)) as [c Rc]. exists c. replace (i + N.of_nat (S k)) with (i + 1 + N.of_nat k) by lia. rewrite app_assoc. exact Rc.
    + apply Forall_app. split; [eapply from_weaken; [| |apply lines_from]; lia|]. eapply from_weaken; [| |exact F2]; lia.
Qed.
Lemma made : forall n i, (exists css, make_receivers lq o n i = Ok css /\ length css = n /\ inv i css []) \/
  (exists m, SubcarrierSet_create (o_samplerate o) = Throw m /\ make_receivers lq o n i = Throw m).
Proof.
  induction n as [|n IH]; intros i; cbn [make_receivers].
  - left. exists []. split; [reflexivity|]. split; [reflexivity|]. intros [|k] cs E; discriminate E.
  - destruct (SubcarrierSet_new lq (o_samplerate o)) as [s|m|m] eqn:E.
    + cbn [bind]. destruct (IH (i + 1)) as [(css & E2 & L & Iv)|(m & X & E2)]; rewrite E2; cbn [bind].
      * left. exists ((Channel_new o i, s) :: css). split; [reflexivity|]. split; [cbn [length]; rewrite L; reflexivity|]. intros [|k] cs Ek; cbn [nth_error] in Ek.
        -- injection Ek as <-. rewrite N.add_0_r. split; [apply ran_new|exact (ss_new _ _ E)].
        -- destruct (Iv k cs Ek) as [R S0]. replace (i + N.of_nat (S k)) with (i + 1 + N.of_nat k) by lia. split; assumption.
      * right. exists m. split; [exact X|reflexivity].
    + right. exists m. unfold SubcarrierSet_new in E. destruct (SubcarrierSet_create (o_samplerate o)) eqn:X; cbn [bind] in E; try discriminate. injection E as <-. split; reflexivity.
    + exfalso. unfold SubcarrierSet_new, SubcarrierSet_create, setRatio in E. destruct (SFltb _ _ || SFltb _ _); cbn [bind] in E; discriminate.
Qed.
End Demodulator.

(* ---- the inputs ---- *)
Lemma mpx_ok : forall (D : Type) (lq : Liquid D) env se o clock now samples fuel, host_ok env -> audio_ok se lq -> 1 <= o_num_channels o <= 1024 -> (length samples < fuel)%nat ->
  (exists out, processMPXInput fuel env se lq o clock now samples = Ok (Some (EXIT_FAILURE, out)) /\ existsb complaint out = true /\ all_lines out = []) \/
  (exists n rate out, mpx_init se o = Opened n rate /\ processMPXInput fuel env se lq o clock now samples = Ok (Some (EXIT_SUCCESS, out)) /\
     (forall ch, ch < n -> exists c, ran env (with_audio o n (f32_of_Z rate)) ch c (of_channel ch out)) /\ Forall (from_to 0 n) out) \/
  (exists n rate m, mpx_init se o = Opened n rate /\ SubcarrierSet_create (f32_of_Z rate) = Throw m /\ processMPXInput fuel env se lq o clock now samples = Throw m).
Proof.
  intros D lq env se o clock now samples fuel H [A1 A2] NC L. unfold processMPXInput. destruct (mpx_init se o) as [[]|n rate] eqn:E.
  - left. eexists. split; [reflexivity|]. split; reflexivity.
  - left. eexists. split; [reflexivity|]. split; reflexivity.
  - right. assert (Hn : 1 <= n <= 1024).
    { unfold mpx_init in E. destruct (o_input_type o); try (destruct (snd_file se (o_sndfilename o)) as [|n0 r0] eqn:S; [discriminate|]; pose proof (A1 _ _ _ S));
        try (destruct (snd_stdin_opens se); [|discriminate]);
        repeat match type of E with (if ?b then _ else _) = _ => destruct b; [discriminate|] end; injection E as <- _; assumption. }
    cbv zeta. set (o' := with_audio o n (f32_of_Z rate)).
    destruct (made lq env o' (N.to_nat n) 0) as [(css & E1 & L1 & Iv)|(m & X & E1)]; rewrite E1; cbn [bind].
    + left. set (streams := if o_streams o' then [0; 1; 2; 3] else [0]). assert (FS : Forall (fun n => n < 4) streams) by (unfold streams; destruct (o_streams o'); repeat constructor).
      destruct (loop_ok lq env o' H A2 streams FS fuel clock (MPXReader_init n samples) css []) as (css2 & o2 & E2 & L2 & Iv2 & F2).
      * split; [exact Hn|reflexivity].
      * exact L.
      * cbn [mr_num_channels MPXReader_init]. lia.
      * exact Iv.
      * rewrite E2. cbn [bind]. destruct (flushed_ok env o' H now css2 0 _ Iv2) as (o3 & E3 & R3 & F3). rewrite E3. cbn [bind].
        exists n, rate, (o2 ++ o3). split; [reflexivity|]. split; [reflexivity|]. split.
        -- intros ch Hc. destruct (R3 (N.to_nat ch) ltac:(lia)) as [c R]. rewrite N.add_0_l, N2Nat.id in R. exists c. exact R.
        -- rewrite L2, L1, N2Nat.id in *. apply Forall_app. split; [exact F2|]. rewrite N.add_0_l in F3. exact F3.
    + right. exists n, rate, m. split; [reflexivity|]. split; [exact X|reflexivity].
Qed.
Lemma run_bits_ran : forall env o ch w, host_ok env -> w < 4 -> forall bits c lines, ran env o ch c lines ->
  exists c' out, run_bits env o c w bits = Ok (c', out) /\ ran env o ch c' (lines ++ printed out).
Proof.
  intros env o ch w H Hw. induction bits as [|[now b] bits IH]; intros c lines R; cbn [run_bits].
  - exists c, []. split; [reflexivity|]. cbn [printed flat_map]. rewrite app_nil_r. exact R.
  - destruct (ran_call env o ch c lines (Bit_in now b w) H R Hw) as (c1 & o1 & E1 & R1). cbn [do_call] in E1.
    destruct (processBit env o now c b w) as [[c2 l2]| |]; cbn [bind] in *; try discriminate. injection E1 as <- <-.
    destruct (IH _ _ R1) as (c3 & o3 & E3 & R3). rewrite E3. cbn [bind]. eexists. eexists. split; [reflexivity|]. rewrite printed_app, app_assoc.
    destruct l2; exact R3.
Qed.
Lemma run_groups_ran : forall env o ch, host_ok env -> forall gs c lines, Forall (fun x => g_has_bler (snd (fst x)) = false /\ snd x < 4) gs -> ran env o ch c lines ->
  exists c' out, run_groups env o c gs = Ok (c', out) /\ ran env o ch c' (lines ++ printed out).
Proof.
  intros env o ch H. induction gs as [|[[now g] w] gs IH]; intros c lines F R; cbn [run_groups].
  - exists c, []. split; [reflexivity|]. cbn [printed flat_map]. rewrite app_nil_r. exact R.
  - destruct (ran_call env o ch c lines (Group_in now g w) H R (Forall_inv F)) as (c1 & o1 & E1 & R1). cbn [do_call] in E1.
    destruct (processGroup env o now c g w) as [[c2 l2]| |]; cbn [bind] in *; try discriminate. injection E1 as <- <-.
    destruct (IH _ _ (Forall_inv_tail F) R1) as (c3 & o3 & E3 & R3). rewrite E3. cbn [bind]. eexists. eexists. split; [reflexivity|].
    change (l2 :: o3) with ([l2] ++ o3). rewrite printed_app, app_assoc. exact R3.
Qed.
Lemma bits_ok : forall env o clock now input, host_ok env -> exists out c, processASCIIBitsInput env o clock now input = Ok (EXIT_SUCCESS, out) /\
  ran env o 0 c (of_channel 0 out) /\ Forall (from_to 0 1) out.
Proof.
  intros env o clock now input H. unfold processASCIIBitsInput. destruct (run_bits_ran env o 0 0 H ltac:(lia) (timed clock (ascii_bits input)) _ _ (ran_new env o 0)) as (c1 & o1 & E1 & R1). rewrite E1. cbn [bind].
  destruct (ran_call env o 0 c1 _ (Flush now) H R1 I) as (c2 & o2 & E2 & R2). cbn [do_call] in E2. rewrite E2. cbn [bind]. eexists. exists c2. split; [reflexivity|]. split.
  - rewrite of_lines, printed_app. exact R2.
  - apply (lines_from 0).
Qed.
Lemma setBlock_bler : forall g n b, g_has_bler (g_setBlock g n b) = g_has_bler g.
Proof.
  intros g n b. unfold g_setBlock. set (g0 := g_put_block g n b). assert (P : g_has_bler g0 = g_has_bler g) by (unfold g0; destruct n; reflexivity).
  destruct (g_has_type g0); [exact P|]. cbv zeta.
  assert (M : forall x, g_has_bler x = g_has_bler g -> g_has_bler (if Offset_eqb (blk_offset b) OffCprime && g_has x BLOCK2
    then g_put_type x (g_type x) (Version_eqb (gt_version (g_type x)) VB) else x) = g_has_bler g)
    by (intros x Hx; destruct (_ && _); exact Hx).
  apply M. destruct n; try exact P.
  - destruct (gt_version _); exact P.
  - destruct (_ && _); [|exact P]. destruct (_ && _); exact P.
Qed.
Definition plain_group (g : Group) : Prop := g_has_bler g = false /\ g_data_stream g < 4.
Lemma plain_set : forall g n b, plain_group g -> plain_group (g_setBlock g n b).
Proof. intros g n b [A B]. split; [rewrite setBlock_bler; exact A|rewrite setBlock_stream; exact B]. Qed.
Lemma plain_hex_block : forall n g line, plain_group g -> plain_group (fst (read_hex_block n (g, line))).
Proof.
  intros n g line P. unfold read_hex_block. destruct (read_nibbles line 4 0 true) as [[data valid] rest]. cbn [fst]. destruct valid; [apply plain_set|]; exact P.
Qed.
Lemma hex_stream_lt : forall line, fst (hex_stream line) < 4.
Proof.
  intros line. assert (Z : 0 < 4) by lia. unfold hex_stream. generalize (20 <=? N.of_nat (length line)). intros b0.
  destruct line as [|a l]; [exact Z|]. destruct a as [|p]; [exact Z|]. do 6 (destruct p as [p|p|]; try exact Z).
  destruct l as [|a l]; [exact Z|]. destruct a as [|p]; [exact Z|]. do 7 (destruct p as [p|p|]; try exact Z).
  destruct l as [|d l]; [exact Z|]. destruct l as [|a l]; [exact Z|]. destruct a as [|p]; [exact Z|]. do 6 (destruct p as [p|p|]; try exact Z).
  destruct (b0 && _) eqn:E; [|exact Z]. apply andb_true_iff in E. destruct E as [_ E]. rewrite !orb_true_iff, !N.eqb_eq in E. cbn [fst]. lia.
Qed.
Lemma plain_parse : forall line g, plain_group g -> plain_group (parse_hex_line line g).
Proof.
  intros line g [A _]. unfold parse_hex_line. pose proof (hex_stream_lt line) as L. destruct (hex_stream line) as [s l]. cbn [fst] in L.
  assert (P : plain_group (g_setDataStream g s)) by (split; [exact A|exact L]).
  assert (St : forall n gl, plain_group (fst gl) -> plain_group (fst (read_hex_block n gl))) by (intros n [x y]; apply plain_hex_block).
  do 4 apply St. exact P.
Qed.
Lemma plain_hex_group : forall o now lines, plain_group (fst (readHexGroup o now lines)).
Proof.
  intros o now lines. unfold readHexGroup. assert (H : forall g, plain_group g -> plain_group (fst (readHexGroup_loop lines g))).
  { induction lines as [|l r IH]; intros g P; cbn [readHexGroup_loop]; [exact P|]. destruct (_ <? _); [apply IH; exact P|apply plain_parse; exact P]. }
  specialize (H (g_disableOffsets Group_default) (conj eq_refl (eq_refl _ : (0 < 4)))). destruct (readHexGroup_loop lines _) as [g rest]. cbn [fst] in *. destruct (o_timestamp o); exact H.
Qed.
Lemma plain_hex : forall o fuel clock lines, Forall plain_group (hex_groups fuel o clock lines).
Proof.
  intros o. induction fuel as [|f IH]; intros clock lines; [constructor|]. cbn [hex_groups]. destruct lines as [|l r]; [constructor|].
  pose proof (plain_hex_group o (clock O) (l :: r)) as P. destruct (readHexGroup o (clock O) (l :: r)) as [g rest]. constructor; [exact P|apply IH].
Qed.
Lemma plain_tef_group : forall lines g, plain_group g -> plain_group (fst (readTEF_loop lines g)).
Proof.
  induction lines as [|l r IH]; intros g P; [exact P|]. cbn [readTEF_loop].
  assert (R : forall g', parse_R l g = Some g' -> plain_group g').
  { unfold parse_R. cbv zeta. intros g' E. repeat match type of E with match ?x with _ => _ end = _ => destruct x; [|discriminate] end.
    assert (E' : g' = g_setBlock (g_setBlock (g_setBlock g BLOCK2 (plain_block (z_u16 z) (N.land (N.shiftr (z_u32 z2) 4) 0xFF =? 0))) BLOCK3 (plain_block (z_u16 z0) (N.land (N.shiftr (z_u32 z2) 2) 0xFF =? 0))) BLOCK4 (plain_block (z_u16 z1) (N.land (N.shiftr (z_u32 z2) 0) 0xFF =? 0))) by congruence.
    rewrite E'. do 3 apply plain_set. exact P. }
  assert (A : plain_group (fst (match stol16 (tl l) with Some v => readTEF_loop r (g_setBlock g BLOCK1 (plain_block (z_u16 v) true)) | None => readTEF_loop r g end))).
  { destruct (stol16 (tl l)); apply IH; [apply plain_set|]; exact P. }
  assert (B : plain_group (fst (if 15 <=? N.of_nat (length l) then match parse_R l g with Some g' => (g', r) | None => (g, r) end else readTEF_loop r g))).
  { destruct (15 <=? _); [|apply IH; exact P]. destruct (parse_R l g) eqn:E; [exact (R _ eq_refl)|exact P]. }
  assert (C : plain_group (fst (readTEF_loop r g))) by (apply IH; exact P).
  clear R. destruct l as [|a l]; [exact C|]. cbn [tl] in A. destruct a as [|a]; [exact C|].
  do 7 (destruct a as [a|a|]; try exact A; try exact B; try exact C).
Qed.
Lemma plain_tef : forall fuel lines, Forall plain_group (tef_groups fuel lines).
Proof.
  induction fuel as [|f IH]; intros lines; [constructor|]. cbn [tef_groups]. destruct lines as [|l r]; [constructor|].
  pose proof (plain_tef_group (l :: r) (g_disableOffsets Group_default) (conj eq_refl (eq_refl _ : (0 < 4)))) as P. unfold readTEFGroup. destruct (readTEF_loop (l :: r) _) as [g rest]. constructor; [exact P|apply IH].
Qed.
Lemma timed_snd : forall (A : Type) (P : A -> Prop) l clock, Forall P l -> Forall (fun x => P (snd x)) (timed clock l).
Proof. induction l as [|x l IH]; intros clock F; [constructor|]. cbn [timed]. constructor; [exact (Forall_inv F)|apply IH; exact (Forall_inv_tail F)]. Qed.
Lemma hex_ok : forall env o clock input, host_ok env -> exists out c, processHexInput env o clock input = Ok (EXIT_SUCCESS, out) /\
  ran env o 0 c (of_channel 0 out) /\ Forall (from_to 0 1) out.
Proof.
  intros env o clock input H. unfold processHexInput. cbv zeta.
  destruct (run_groups_ran env o 0 H (map (fun x => (x, g_data_stream (snd x))) (timed clock (read_hex_input o clock input))) (Channel_new o 0) []) as (c1 & o1 & E1 & R1); [|exact (ran_new env o 0)|].
  - apply Forall_map. pose proof (timed_snd _ _ _ clock (plain_hex o (length (split_lines input)) clock (split_lines input))) as F. eapply Forall_impl; [|exact F]. intros [t g] P. exact P.
  - rewrite E1. cbn [bind]. eexists. exists c1. split; [reflexivity|]. split; [rewrite of_lines; exact R1|apply (lines_from 0)].
Qed.
Lemma tef_ok : forall env o clock input, host_ok env -> exists out c, processTEFInput env o clock input = Ok (EXIT_SUCCESS, out) /\
  ran env o 0 c (of_channel 0 out) /\ Forall (from_to 0 1) out.
Proof.
  intros env o clock input H. unfold processTEFInput.
  destruct (run_groups_ran env o 0 H (map (fun x => (x, 0)) (timed clock (read_tef_input input))) (Channel_new o 0) []) as (c1 & o1 & E1 & R1); [|exact (ran_new env o 0)|].
  - apply Forall_map. pose proof (timed_snd _ _ _ clock (plain_tef (length (split_lines input)) (split_lines input))) as F. eapply Forall_impl; [|exact F]. intros [t g] [P _]. split; [exact P|]. cbn. lia.
  - rewrite E1. cbn [bind]. eexists. exists c1. split; [reflexivity|]. split; [rewrite of_lines; exact R1|apply (lines_from 0)].
Qed.

(* ---- the program ---- *)
Definition usage_inv (o : Options) : Prop := o_init_error o = true -> o_print_usage o = true.
Lemma apply_usage : forall ne o fec er op o' fec' er', apply_opt ne (o, fec, er) op = Ok (o', fec', er') -> usage_inv o -> usage_inv o'.
Proof.
  intros ne o fec er op o' fec' er' A E.
  destruct op as [|c arg]; [injection A as <- _ _; exact E|].
  assert (Sm : forall x y, Ok (x, fec, y) = Ok (o', fec', er') -> usage_inv x -> usage_inv o') by (intros x y X; injection X as <- _ _; auto).
  assert (U : forall x, o_print_usage x = true -> usage_inv x) by (intros x X _; exact X).
  unfold apply_opt in A. destruct (ne_strtoul ne arg) as [v1 e1]. destruct (ne_strtof ne arg) as [v2 e2]. destruct c as [b0 b1 b2 b3 b4 b5 b6 b7].
  destruct b0, b1, b2, b3, b4, b5, b6, b7; cbv iota zeta in A;
    repeat match type of A with (if ?b then _ else _) = _ => destruct b end; try discriminate A;
    (eapply Sm; [exact A|first [exact E|apply U; reflexivity]]).
Qed.
Lemma applied_usage : forall ne ops o fec er o' fec' er', apply_opts ne (o, fec, er) ops = Ok (o', fec', er') -> usage_inv o -> usage_inv o'.
Proof.
  intros ne. induction ops as [|op ops IH]; intros o fec er o' fec' er' A U; cbn [apply_opts] in A; [injection A as <- _ _; exact U|].
  destruct (apply_opt ne (o, fec, er) op) as [[[o1 f1] e1]| |] eqn:E; cbn [bind] in A; try discriminate. pose proof (apply_usage _ _ _ _ _ _ _ _ E U) as U1.
  cbn [fst] in A. destruct (o_init_error o1) eqn:I; [injection A as <- _ _; exact U1|]. eapply IH; eassumption.
Qed.
Lemma options_usage : forall ne ops extra o, getOptions ne ops extra = Ok o -> o_init_error o = true -> o_print_usage o = true.
Proof.
  intros ne ops extra o G. unfold getOptions in G. destruct (apply_opts ne (Options_default, true, false) ops) as [[[o1 f1] e1]| |] eqn:E; cbn [bind] in G; try discriminate.
  pose proof (applied_usage _ _ _ _ _ _ _ _ E ltac:(intros X; discriminate X)) as U. unfold usage_inv in U. cbv zeta in G.
  match type of G with (if ?b then _ else _) = _ => destruct b; [discriminate|] end. match type of G with (if ?b then _ else _) = _ => destruct b; [discriminate|] end. match type of G with (if ?b then _ else _) = _ => destruct b; [discriminate|] end.
  injection G as <-. cbn. destruct (o_init_error o1); [rewrite U by reflexivity; reflexivity|]. cbn. intros ->. apply orb_true_r.
Qed.
Lemma apply_no_ub : forall ne st op m, apply_opt ne st op <> UB m.
Proof.
  intros ne [[o fec] er] op m A. destruct op as [|c arg]; [discriminate|].
  unfold apply_opt in A. destruct (ne_strtoul ne arg) as [v1 e1]. destruct (ne_strtof ne arg) as [v2 e2]. destruct c as [b0 b1 b2 b3 b4 b5 b6 b7].
  destruct b0, b1, b2, b3, b4, b5, b6, b7; cbv iota zeta in A;
    repeat match type of A with (if ?b then _ else _) = _ => destruct b end; discriminate A.
Qed.
Lemma options_no_ub : forall ne ops extra m, getOptions ne ops extra <> UB m.
Proof.
  intros ne ops extra m G. unfold getOptions in G. assert (A : forall ops st m, apply_opts ne st ops <> UB m).
  { clear. induction ops as [|op ops IH]; intros st m A; [discriminate|]. cbn [apply_opts] in A. destruct (apply_opt ne st op) as [s1| |] eqn:E; cbn [bind] in A; try discriminate.
    - destruct (o_init_error _); [discriminate|]. exact (IH _ _ A).
    - exact (apply_no_ub _ _ _ _ E). }
  destruct (apply_opts ne (Options_default, true, false) ops) as [[[o1 f1] e1]| |] eqn:E; cbn [bind] in G; try discriminate; [|exact (A _ _ _ E)]. cbv zeta in G.
  repeat match type of G with (if ?b then _ else _) = _ => destruct b; [discriminate|] end. discriminate G.
Qed.
Definition first_items (o : Options) : list output_item := (if o_print_usage o then [Usage] else []) ++ (if o_print_version o then [Version] else []).
Lemma first_lines : forall o ch out, of_channel ch (first_items o ++ out) = of_channel ch out /\ all_lines (first_items o ++ out) = all_lines out.
Proof. intros o ch out. unfold first_items. destruct (o_print_usage o), (o_print_version o); split; reflexivity. Qed.
Lemma ran_printed : forall env o ch c lines, ran env o ch c lines -> printed_by_channel env o ch lines.
Proof. intros env o ch c lines (calls & P & S). exists calls, c. split; assumption. Qed.
Lemma nothing_printed : forall env o ch, printed_by_channel env o ch [].
Proof. intros env o ch. exact (ran_printed _ _ _ _ _ (ran_new env o ch)). Qed.
Lemma one_channel : forall env o c out, ran env o 0 c (of_channel 0 out) -> Forall (from_to 0 1) out -> forall ch, printed_by_channel env o ch (of_channel ch out).
Proof.
  intros env o c out R F ch. destruct (N.eq_dec ch 0) as [->|N]; [exact (ran_printed _ _ _ _ _ R)|]. rewrite (of_none _ _ _ _ F) by lia. apply nothing_printed.
Qed.
Lemma main_runs : forall (D : Type) (w : World D) ops extra fuel, host_ok (w_env w) -> audio_ok (w_snd w) (w_liquid w) -> (length (w_audio w) < fuel)%nat ->
  (exists code out, main fuel w ops extra = Ok (Some (code, out)) /\ (code = EXIT_FAILURE -> existsb complaint out = true /\ all_lines out = []) /\
     (all_lines out = [] \/ exists o o', getOptions (w_numbers w) ops extra = Ok o /\ (o' = o \/ exists n rate, o' = with_audio o n rate) /\
        forall ch, printed_by_channel (w_env w) o' ch (of_channel ch out))) \/
  (exists m, main fuel w ops extra = Throw m /\ rate_refused w ops extra m).
Proof.
  intros D w ops extra fuel H A L. unfold main. destruct (getOptions (w_numbers w) ops extra) as [o|m|m] eqn:G.
  2:{ left. exists EXIT_FAILURE, [Message]. split; [reflexivity|]. split; [split; reflexivity|]. left. reflexivity. }
  2:{ exfalso. exact (options_no_ub _ _ _ _ G). }
  fold (first_items o). cbv zeta. destruct (o_early_exit o).
  - left. exists (if o_init_error o then EXIT_FAILURE else EXIT_SUCCESS), (first_items o). split; [reflexivity|].
    assert (N : all_lines (first_items o) = []) by (unfold first_items; destruct (o_print_usage o), (o_print_version o); reflexivity).
    split; [|left; exact N]. destruct (o_init_error o) eqn:I; [|discriminate]. intros _. split; [|exact N]. unfold first_items. rewrite (options_usage _ _ _ _ G I). reflexivity.
  - assert (OK : forall out o', (o' = o \/ exists n rate, o' = with_audio o n rate) -> (forall ch, printed_by_channel (w_env w) o' ch (of_channel ch out)) ->
      exists code out', Ok (Some (EXIT_SUCCESS, first_items o ++ out)) = Ok (Some (code, out')) /\ (code = EXIT_FAILURE -> existsb complaint out' = true /\ all_lines out' = []) /\
      (all_lines out' = [] \/ exists o0 o'0, Ok o = Ok o0 /\ (o'0 = o0 \/ exists n rate, o'0 = with_audio o0 n rate) /\ forall ch, printed_by_channel (w_env w) o'0 ch (of_channel ch out'))).
    { intros out o' O P. exists EXIT_SUCCESS, (first_items o ++ out). split; [reflexivity|]. split; [discriminate|]. right. exists o, o'. split; [reflexivity|]. split; [exact O|].
      intros ch. rewrite (proj1 (first_lines o ch out)). apply P. }
    assert (MPX : (exists code out, (done <- processMPXInput fuel (w_env w) (w_snd w) (w_liquid w) o (w_clock w) (w_clock_at_end w) (w_audio w) ;;
          Ok (match done with Some (code, out) => Some (code, first_items o ++ out) | None => None end)) = Ok (Some (code, out)) /\ (code = EXIT_FAILURE -> existsb complaint out = true /\ all_lines out = []) /\
          (all_lines out = [] \/ exists o0 o'0, Ok o = Ok o0 /\ (o'0 = o0 \/ exists n rate, o'0 = with_audio o0 n rate) /\ forall ch, printed_by_channel (w_env w) o'0 ch (of_channel ch out))) \/
        (exists m, (done <- processMPXInput fuel (w_env w) (w_snd w) (w_liquid w) o (w_clock w) (w_clock_at_end w) (w_audio w) ;;
          Ok (match done with Some (code, out) => Some (code, first_items o ++ out) | None => None end)) = Throw m /\ rate_refused w ops extra m)).
    { pose proof (proj1 (proj1 (options_sane _ _ _ _ G))) as NC.
      destruct (mpx_ok D (w_liquid w) (w_env w) (w_snd w) o (w_clock w) (w_clock_at_end w) (w_audio w) fuel H A ltac:(lia) L) as [(out & E & C & N)|[(n & rate & out & M & E & R & F)|(n & rate & m & M & X & E)]]; rewrite E; cbn [bind].
      - left. exists EXIT_FAILURE, (first_items o ++ out). split; [reflexivity|]. assert (N' : all_lines (first_items o ++ out) = []) by (rewrite (proj2 (first_lines o 0 out)); exact N).
        split; [|left; exact N']. intros _. split; [|exact N']. rewrite existsb_app, C. apply orb_true_r.
      - left. apply (OK out (with_audio o n (f32_of_Z rate))); [right; exists n, (f32_of_Z rate); reflexivity|]. intros ch. destruct (N.lt_ge_cases ch n) as [Hc|Hc].
        + destruct (R ch Hc) as [c Rc]. exact (ran_printed _ _ _ _ _ Rc).
        + rewrite (of_none _ _ _ _ F) by lia. apply nothing_printed.
      - right. exists m. split; [reflexivity|]. exists o, n, rate. split; [exact G|]. split; [exact M|exact X]. }
    destruct (o_input_type o).
    + exact MPX.
    + exact MPX.
    + left. destruct (bits_ok (w_env w) o (w_clock w) (w_clock_at_end w) (w_stdin w) H) as (out & c & E & R & F). rewrite E. cbn [bind]. apply (OK out o); [left; reflexivity|]. exact (one_channel _ _ _ _ R F).
    + left. destruct (hex_ok (w_env w) o (w_clock w) (w_stdin w) H) as (out & c & E & R & F). rewrite E. cbn [bind]. apply (OK out o); [left; reflexivity|]. exact (one_channel _ _ _ _ R F).
    + left. destruct (tef_ok (w_env w) o (w_clock w) (w_stdin w) H) as (out & c & E & R & F). rewrite E. cbn [bind]. apply (OK out o); [left; reflexivity|]. exact (one_channel _ _ _ _ R F).
Qed.
