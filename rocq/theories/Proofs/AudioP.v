(* C50, C56, C61: samples of several channels. *)
From Verif.Model Require Import Base Util Float Group BlockSync Options Json Tmc Station Channel Input Dsp Main.
From Verif.Spec Require Import Session Inputs Program.
From Verif.Proofs Require Import Tac HexP MainP.

Lemma chunk_pos : forall n, 1 <= n <= 1024 -> exists m, (1 <= m)%nat /\ N.to_nat ((kInputChunkSize / n) * n) = (m * N.to_nat n)%nat.
Proof.
  intros n H. exists (N.to_nat (kInputChunkSize / n)). split; [|rewrite N2Nat.inj_mul; reflexivity].
  assert (1 <= kInputChunkSize / n); [|lia]. unfold kInputChunkSize. apply N.div_le_lower_bound; lia.
Qed.
Lemma init_reader : forall (A : Type) n (s : list A), 1 <= n <= 1024 -> mr_is_eof (MPXReader_init n s) = false.
Proof. intros A n s H. cbn. unfold kBufferSize. lia. Qed.

(* what a reader of whole chunks gives *)
Lemma read_whole : forall (A : Type) n m ch, (1 <= m)%nat -> 1 <= n -> ch < n -> forall k (samples : list A) fuel r, (k < fuel)%nat ->
  length samples = (k * (m * N.to_nat n))%nat -> mr_num_channels r = n -> N.to_nat (mr_chunk_size r) = (m * N.to_nat n)%nat -> mr_is_eof r = false -> mr_input r = samples ->
  read_audio fuel r ch = Ok (every (N.to_nat n) (N.to_nat ch) samples).
Proof.
  intros A n m ch M1 N1 C. induction k as [|k IH]; intros samples fuel r F L Rn Rc Re Ri; (destruct fuel as [|f]; [lia|]); cbn [read_audio]; rewrite Re.
  - assert (samples = []) by (apply length_zero_iff_nil; lia). subst samples.
    assert (B : fillBuffer 0 r = mkMPXReader n (mr_chunk_size r) true [] 0 (mr_singlechan_time r) []).
    { unfold fillBuffer. rewrite H, firstn_nil, skipn_nil, Re, Rn. cbn [length orb]. replace (N.of_nat 0 <? mr_chunk_size r) with true by nia. reflexivity. }
    rewrite B. cbv zeta. unfold readChunk. cbn [mr_num_channels mr_is_eof mr_buffer]. replace (n <=? ch) with false by lia. cbn [bind].
    destruct f; cbn; rewrite H; reflexivity.
  - assert (SP : samples = firstn (m * N.to_nat n) samples ++ skipn (m * N.to_nat n) samples) by (symmetry; apply firstn_skipn).
    assert (LF : length (firstn (m * N.to_nat n) samples) = (m * N.to_nat n)%nat) by (rewrite firstn_length, L; nia).
    cbv zeta. set (r1 := fillBuffer 0 r).
    assert (B1 : mr_num_channels r1 = n) by exact Rn.
    assert (B2 : mr_buffer r1 = firstn (m * N.to_nat n) samples) by (unfold r1; cbn; rewrite Rc, Ri; reflexivity).
    assert (B3 : mr_is_eof r1 = false).
    { unfold r1. cbn [fillBuffer mr_is_eof]. rewrite Re, Rc, Ri, LF. cbn [orb]. lia. }
    assert (B4 : mr_input r1 = skipn (m * N.to_nat n) samples) by (unfold r1; cbn; rewrite Rc, Ri; reflexivity).
    destruct (chunk_channel A r1 ch) as [t E]; [lia|lia|exact B3|exists m; rewrite B2, B1; exact LF|]. rewrite E. cbn [bind].
    rewrite (IH (skipn (m * N.to_nat n) samples) f r1); [|lia|rewrite skipn_length, L; nia|exact B1|exact Rc|exact B3|exact B4].
    cbn [bind]. f_equal. rewrite B2, B1. rewrite <- every_app by (try lia; rewrite LF; apply Nat.mod_mul; lia). rewrite <- SP. reflexivity.
Qed.

Lemma every_one : forall (A : Type) (l : list A), every 1 0 l = l.
Proof. induction l as [|x l IH]; [reflexivity|]. cbn [every Nat.sub]. rewrite IH. reflexivity. Qed.
Lemma read_single : forall (A : Type) fuel (r : MPXReader A), (length (mr_input r) < fuel)%nat -> mr_num_channels r = 1 -> 1 <= mr_chunk_size r -> mr_is_eof r = false ->
  read_audio fuel r 0 = Ok (mr_input r).
Proof.
  intros A. induction fuel as [|f IH]; intros r L Rn Rc Re; [lia|]. cbn [read_audio]. rewrite Re. cbv zeta. set (r1 := fillBuffer 0 r).
  assert (B1 : mr_num_channels r1 = 1) by exact Rn.
  assert (RC : readChunk r1 0 = Ok (firstn (N.to_nat (mr_chunk_size r)) (mr_input r), 0%Z)).
  { unfold readChunk. rewrite B1. cbn [N.leb N.compare N.eqb Pos.eqb]. destruct (mr_is_eof r1); reflexivity. }
  rewrite RC. cbn [bind].
  destruct (mr_is_eof r1) eqn:E1.
  - destruct f; cbn [read_audio]; rewrite E1; cbn [bind]; rewrite app_nil_r; f_equal; apply firstn_all2;
    unfold r1 in E1; cbn [fillBuffer mr_is_eof] in E1; rewrite Re, firstn_length in E1; cbn [orb] in E1; lia.
  - assert (LL : (N.to_nat (mr_chunk_size r) <= length (mr_input r))%nat) by (unfold r1 in E1; cbn [fillBuffer mr_is_eof] in E1; rewrite Re, firstn_length in E1; cbn [orb] in E1; lia).
    rewrite (IH r1); [|unfold r1; cbn [fillBuffer mr_input]; rewrite skipn_length; lia|exact B1|exact Rc|exact E1]. cbn [bind]. unfold r1. cbn [fillBuffer mr_input]. rewrite firstn_skipn. reflexivity.
Qed.
Lemma audio_read : forall (A : Type) n ch (samples : list A) fuel, 1 <= n <= 1024 -> ch < n -> (length samples < fuel)%nat ->
  n = 1 \/ N.of_nat (length samples) mod ((kInputChunkSize / n) * n) = 0 ->
  read_audio fuel (MPXReader_init n samples) ch = Ok (every (N.to_nat n) (N.to_nat ch) samples).
Proof.
  intros A n ch samples fuel H C F [->|W].
  - replace ch with 0 by lia. change (N.to_nat 1) with 1%nat. change (N.to_nat 0) with 0%nat. rewrite every_one. apply read_single; [exact F|reflexivity|cbn; unfold kInputChunkSize; cbn; lia|apply init_reader; exact H].
  - destruct (chunk_pos n H) as (m & M1 & Mc). set (q := (kInputChunkSize / n) * n) in *. assert (Q : q <> 0) by nia.
    apply (read_whole A n m ch M1) with (k := N.to_nat (N.of_nat (length samples) / q)); try lia; try reflexivity.
    + assert (N.of_nat (length samples) / q <= N.of_nat (length samples)) by (apply N.div_le_upper_bound; nia). lia.
    + rewrite <- Mc. pose proof (N.div_mod (N.of_nat (length samples)) q Q). apply Nat2N.inj. rewrite Nat2N.inj_mul, !N2Nat.id. lia.
    + exact Mc.
    + apply init_reader; exact H.
Qed.

(* --- the time of a chunk --- *)
Lemma singlechan_kept : forall (A : Type) now (r : MPXReader A), mr_singlechan_time (fillBuffer now r) = mr_singlechan_time r.
Proof. reflexivity. Qed.

(* --- one channel does not depend on the samples of the others --- *)
Lemma channels_nth : forall (D : Type) env (lq : Liquid D) o now streams r css i css' out, feed_channels env lq o now streams r i css = Ok (css', out) ->
  forall k cs, nth_error css k = Some cs -> exists cs' w, feed_channel env lq o now streams r (i + N.of_nat k) cs = Ok (cs', w) /\ nth_error css' k = Some cs' /\ of_channel (i + N.of_nat k) out = printed w.
Proof.
  intros D env lq o now streams r. induction css as [|c css IH]; intros i css' out E k cs K; [destruct k; discriminate|]. cbn [feed_channels] in E.
  destruct (feed_channel env lq o now streams r i c) as [[c1 o1]| |] eqn:E1; cbn [bind] in E; try discriminate.
  destruct (feed_channels env lq o now streams r (i + 1) css) as [[css2 o2]| |] eqn:E2; cbn [bind] in E; try discriminate. injection E as <- <-.
  destruct k as [|k].
  - cbn in K. injection K as <-. rewrite N.add_0_r. exists c1, o1. split; [exact E1|]. split; [reflexivity|]. rewrite of_app, of_lines.
    assert (X : of_channel i o2 = []); [|rewrite X; apply app_nil_r].
    clear -E2. assert (G : forall css j c o2, i < j -> feed_channels env lq o now streams r j css = Ok (c, o2) -> of_channel i o2 = []).
    { clear. induction css as [|c css IH]; intros j c0 o2 J E; cbn [feed_channels] in E; [injection E as _ <-; reflexivity|].
      destruct (feed_channel env lq o now streams r j c) as [[c1 o1]| |]; cbn [bind] in E; try discriminate.
      destruct (feed_channels env lq o now streams r (j + 1) css) as [[css3 o3]| |] eqn:E3; cbn [bind] in E; try discriminate. injection E as <- <-.
      rewrite of_app, of_lines_other by lia. eapply IH; [|exact E3]; lia. }
    apply (G _ (i + 1) _ _ ltac:(lia) E2).
  - cbn in K. destruct (IH _ _ _ E2 k cs K) as (c3 & w & F & K2 & O). replace (i + 1 + N.of_nat k) with (i + N.of_nat (S k)) in * by lia.
    exists c3, w. split; [exact F|]. split; [exact K2|]. rewrite of_app, of_lines_other by lia. exact O.
Qed.
Lemma flush_nth : forall (D : Type) env o now (css : list (Receiver D)) i out, flush_channels env o now i css = Ok out ->
  forall k cs, nth_error css k = Some cs -> exists c w, flush env o now (fst cs) = Ok (c, w) /\ of_channel (i + N.of_nat k) out = printed w.
Proof.
  intros D env o now. induction css as [|c css IH]; intros i out E k cs K; [destruct k; discriminate|]. cbn [flush_channels] in E.
  destruct (flush env o now (fst c)) as [[c1 o1]| |] eqn:E1; cbn [bind] in E; try discriminate.
  destruct (flush_channels env o now (i + 1) css) as [o2| |] eqn:E2; cbn [bind] in E; try discriminate. injection E as <-.
  destruct k as [|k].
  - cbn in K. injection K as <-. rewrite N.add_0_r. exists c1, o1. split; [exact E1|]. rewrite of_app, of_lines.
    assert (X : of_channel i o2 = []); [|rewrite X; apply app_nil_r].
    clear -E2. assert (G : forall (css : list (Receiver D)) j o2, i < j -> flush_channels env o now j css = Ok o2 -> of_channel i o2 = []).
    { clear. induction css as [|c css IH]; intros j o2 J E; cbn [flush_channels] in E; [injection E as <-; reflexivity|].
      destruct (flush env o now (fst c)) as [[c1 o1]| |]; cbn [bind] in E; try discriminate.
      destruct (flush_channels env o now (j + 1) css) as [o3| |] eqn:E3; cbn [bind] in E; try discriminate. injection E as <-.
      rewrite of_app, of_lines_other by lia. eapply IH; [|exact E3]; lia. }
    apply (G _ (i + 1) _ ltac:(lia) E2).
  - cbn in K. destruct (IH _ _ E2 k cs K) as (c3 & w & F & O). replace (i + 1 + N.of_nat k) with (i + N.of_nat (S k)) in * by lia.
    exists c3, w. split; [exact F|]. rewrite of_app, of_lines_other by lia. exact O.
Qed.
Lemma app_same : forall (A : Type) (a a' b b' : list A), length a = length a' -> a ++ b = a' ++ b' -> a = a' /\ b = b'.
Proof. induction a as [|x a IH]; intros [|y a'] b b' L E; try discriminate; [split; [reflexivity|exact E]|]. cbn in *. injection E as -> E. destruct (IH a' b b' ltac:(lia) E) as [-> ->]. split; reflexivity. Qed.
Section Two.
Context {D : Type} (lq : Liquid D) (env : Env) (o : Options) (streams : list N) (n : N) (m k : nat).
Hypothesis M1 : (1 <= m)%nat.
Hypothesis N1 : 1 <= n.
Hypothesis K1 : (k < N.to_nat n)%nat.
(* two readers that agree on channel k *)
Definition alike (r1 r2 : MPXReader spec_float) : Prop :=
  mr_num_channels r1 = n /\ mr_num_channels r2 = n /\ N.to_nat (mr_chunk_size r1) = (m * N.to_nat n)%nat /\ mr_chunk_size r2 = mr_chunk_size r1 /\
  mr_is_eof r2 = mr_is_eof r1 /\ mr_singlechan_time r2 = mr_singlechan_time r1 /\
  (exists j, length (mr_input r1) = (j * (m * N.to_nat n))%nat) /\ length (mr_input r2) = length (mr_input r1) /\
  every (N.to_nat n) k (mr_input r1) = every (N.to_nat n) k (mr_input r2).
Lemma alike_chunk : forall now r1 r2, alike r1 r2 -> mr_is_eof r1 = false -> readChunk (fillBuffer now r1) (N.of_nat k) = readChunk (fillBuffer now r2) (N.of_nat k) /\
  alike (fillBuffer now r1) (fillBuffer now r2).
Proof.
  intros now r1 r2 (A1 & A2 & A3 & A4 & A5 & A6 & (j & A7) & A8 & A9) E.
  set (c := (m * N.to_nat n)%nat) in *.
  assert (F1 : mr_buffer (fillBuffer now r1) = firstn c (mr_input r1)) by (cbn; rewrite A3; reflexivity).
  assert (F2 : mr_buffer (fillBuffer now r2) = firstn c (mr_input r2)) by (cbn; rewrite A4, A3; reflexivity).
  assert (L12 : length (firstn c (mr_input r2)) = length (firstn c (mr_input r1))) by (rewrite !firstn_length, A8; reflexivity).
  assert (EE : mr_is_eof (fillBuffer now r2) = mr_is_eof (fillBuffer now r1)).
  { cbn [fillBuffer mr_is_eof]. rewrite A5, A4, A3, L12. reflexivity. }
  assert (SP : every (N.to_nat n) k (firstn c (mr_input r1)) = every (N.to_nat n) k (firstn c (mr_input r2)) /\ every (N.to_nat n) k (skipn c (mr_input r1)) = every (N.to_nat n) k (skipn c (mr_input r2))).
  { destruct j as [|j].
    - assert (Z1 : mr_input r1 = []) by (apply length_zero_iff_nil; lia). assert (Z2 : mr_input r2 = []) by (apply length_zero_iff_nil; lia). rewrite Z1, Z2. split; reflexivity.
    - assert (LF1 : length (firstn c (mr_input r1)) = c) by (rewrite firstn_length, A7; nia). assert (LF2 : length (firstn c (mr_input r2)) = c) by (rewrite L12; exact LF1).
      apply app_same.
      + rewrite (proj1 (every_nth _ (N.to_nat n) m (firstn c (mr_input r1)) k ltac:(lia) K1 LF1)), (proj1 (every_nth _ (N.to_nat n) m (firstn c (mr_input r2)) k ltac:(lia) K1 LF2)). reflexivity.
      + rewrite <- !every_app; try lia; try (rewrite ?LF1, ?LF2; apply Nat.mod_mul; lia). rewrite !firstn_skipn. exact A9. }
  split.
  - destruct j as [|j].
    + assert (Z1 : mr_input r1 = []) by (apply length_zero_iff_nil; lia). assert (Z2 : mr_input r2 = []) by (apply length_zero_iff_nil; lia).
      unfold fillBuffer. rewrite Z1, Z2, A4, A5, A6, A1, A2. reflexivity.
    + assert (LF1 : length (firstn c (mr_input r1)) = c) by (rewrite firstn_length, A7; nia). assert (LF2 : length (firstn c (mr_input r2)) = c) by (rewrite L12; exact LF1).
      assert (E1 : mr_is_eof (fillBuffer now r1) = false) by (cbn [fillBuffer mr_is_eof]; rewrite E, A3, LF1; cbn [orb]; lia).
      assert (E2 : mr_is_eof (fillBuffer now r2) = false) by (rewrite EE; exact E1).
      destruct (chunk_channel _ (fillBuffer now r1) (N.of_nat k)) as [t1 C1]; [rewrite <- A1 in N1; exact N1|change (mr_num_channels (fillBuffer now r1)) with (mr_num_channels r1); lia|exact E1|exists m; rewrite F1; change (mr_num_channels (fillBuffer now r1)) with (mr_num_channels r1); rewrite A1; exact LF1|].
      destruct (chunk_channel _ (fillBuffer now r2) (N.of_nat k)) as [t2 C2]; [rewrite <- A2 in N1; exact N1|change (mr_num_channels (fillBuffer now r2)) with (mr_num_channels r2); lia|exact E2|exists m; rewrite F2; change (mr_num_channels (fillBuffer now r2)) with (mr_num_channels r2); rewrite A2; exact LF2|].
      assert (T : forall (r : MPXReader spec_float) t l, readChunk (fillBuffer now r) (N.of_nat k) = Ok (l, t) -> mr_num_channels r = n -> mr_is_eof (fillBuffer now r) = false -> t = if n =? 1 then now else mr_singlechan_time r).
      { clear. intros r t l C En Ef. unfold readChunk in C. rewrite Ef in C. change (mr_num_channels (fillBuffer now r)) with (mr_num_channels r) in C. rewrite En in C.
        destruct (n <=? N.of_nat k); [discriminate|]. destruct (n =? 1); [injection C as _ <-; reflexivity|].
        match type of C with bind ?x _ = _ => destruct x; cbn [bind] in C; try discriminate end. injection C as _ <-. reflexivity. }
      rewrite C1, C2. rewrite (T _ _ _ C1 A1 E1), (T _ _ _ C2 A2 E2), A6. f_equal. f_equal. rewrite F1, F2.
      change (mr_num_channels (fillBuffer now r1)) with (mr_num_channels r1). change (mr_num_channels (fillBuffer now r2)) with (mr_num_channels r2). rewrite A1, A2, Nat2N.id. exact (proj1 SP).
  - split; [exact A1|]. split; [exact A2|]. split; [exact A3|]. split; [exact A4|]. split; [exact EE|]. split; [exact A6|].
    cbn [fillBuffer mr_input]. rewrite A4, A3. fold c. split; [exists (j - 1)%nat; rewrite skipn_length, A7; destruct j; nia|]. split; [rewrite !skipn_length, A8; reflexivity|exact (proj2 SP)].
Qed.
Lemma feed_same : forall now r1 r2 cs, readChunk r1 (N.of_nat k) = readChunk r2 (N.of_nat k) -> feed_channel env lq o now streams r1 (N.of_nat k) cs = feed_channel env lq o now streams r2 (N.of_nat k) cs.
Proof. intros now r1 r2 cs E. unfold feed_channel. rewrite E. reflexivity. Qed.
Lemma loop_same : forall fuel clock r1 r2 css1 css2 x1 x2 o1 o2, alike r1 r2 -> (exists cs, nth_error css1 k = Some cs) -> nth_error css1 k = nth_error css2 k ->
  mpx_loop fuel env lq o clock streams r1 css1 = Ok (Some (x1, o1)) -> mpx_loop fuel env lq o clock streams r2 css2 = Ok (Some (x2, o2)) ->
  (exists cs, nth_error x1 k = Some cs) /\ nth_error x1 k = nth_error x2 k /\ of_channel (N.of_nat k) o1 = of_channel (N.of_nat k) o2.
Proof.
  induction fuel as [|f IH]; intros clock r1 r2 css1 css2 x1 x2 o1 o2 A (cs & Hcs) EQ L1 L2; cbn [mpx_loop] in L1, L2; assert (EE : mr_is_eof r2 = mr_is_eof r1) by (apply A); rewrite EE in L2;
    (destruct (mr_is_eof r1) eqn:E1; [injection L1 as <- <-; injection L2 as <- <-; split; [exists cs; exact Hcs|]; split; [exact EQ|reflexivity]|]); try discriminate.
  cbv zeta in L1, L2. destruct (alike_chunk (clock O) r1 r2 A E1) as [RC A'].
  destruct (feed_channels env lq o (clock O) streams (fillBuffer (clock O) r1) 0 css1) as [[c1 w1]| |] eqn:F1; cbn [bind] in L1; try discriminate.
  destruct (feed_channels env lq o (clock O) streams (fillBuffer (clock O) r2) 0 css2) as [[c2 w2]| |] eqn:F2; cbn [bind] in L2; try discriminate.
  destruct (channels_nth _ _ _ _ _ _ _ _ _ _ _ F1 k cs Hcs) as (d1 & v1 & G1 & H1 & O1). rewrite EQ in Hcs.
  destruct (channels_nth _ _ _ _ _ _ _ _ _ _ _ F2 k cs Hcs) as (d2 & v2 & G2 & H2 & O2). rewrite N.add_0_l in *.
  rewrite (feed_same _ _ _ cs RC) in G1. rewrite G2 in G1. injection G1 as -> ->.
  match type of L1 with bind ?x _ = _ => destruct x as [[[y1 p1]|]| |] eqn:M1'; cbn [bind] in L1; try discriminate end. injection L1 as <- <-.
  match type of L2 with bind ?x _ = _ => destruct x as [[[y2 p2]|]| |] eqn:M2'; cbn [bind] in L2; try discriminate end. injection L2 as <- <-.
  destruct (IH _ _ _ _ _ _ _ _ _ A' (ex_intro _ _ H1) (eq_trans H1 (eq_sym H2)) M1' M2') as (X & Y & Z). split; [exact X|]. split; [exact Y|]. rewrite !of_app, O1, O2, Z. reflexivity.
Qed.
End Two.
Lemma mpx_same : forall (D : Type) (lq : Liquid D) fuel env se o clock now s1 s2 c1 c2 out1 out2 n rate k, mpx_init se o = Opened n rate -> 1 <= n <= 1024 -> k < n ->
  length s1 = length s2 -> N.of_nat (length s1) mod ((8192 / n) * n) = 0 -> every (N.to_nat n) (N.to_nat k) s1 = every (N.to_nat n) (N.to_nat k) s2 ->
  processMPXInput fuel env se lq o clock now s1 = Ok (Some (c1, out1)) -> processMPXInput fuel env se lq o clock now s2 = Ok (Some (c2, out2)) ->
  of_channel k out1 = of_channel k out2.
Proof.
  intros D lq fuel env se o clock now s1 s2 c1 c2 out1 out2 n rate k MI H K LE W EV P1 P2. unfold processMPXInput in P1, P2. rewrite MI in P1, P2. cbv zeta in P1, P2.
  set (o' := with_audio o n (f32_of_Z rate)) in *. set (streams := if o_streams o' then [0; 1; 2; 3] else [0]) in *.
  destruct (make_receivers lq o' (N.to_nat n) 0) as [css| |] eqn:MR; cbn [bind] in P1, P2; try discriminate.
  match type of P1 with bind ?x _ = _ => destruct x as [[[y1 p1]|]| |] eqn:M1'; cbn [bind] in P1; try discriminate end.
  match type of P2 with bind ?x _ = _ => destruct x as [[[y2 p2]|]| |] eqn:M2'; cbn [bind] in P2; try discriminate end.
  match type of P1 with bind ?x _ = _ => destruct x as [q1| |] eqn:Q1; cbn [bind] in P1; try discriminate end. injection P1 as _ <-.
  match type of P2 with bind ?x _ = _ => destruct x as [q2| |] eqn:Q2; cbn [bind] in P2; try discriminate end. injection P2 as _ <-.
  destruct (chunk_pos n H) as (m & M1 & Mc). set (q := (kInputChunkSize / n) * n) in *. assert (Q : q <> 0) by nia. change ((8192 / n) * n) with q in W.
  assert (LC : length css = N.to_nat n).
  { clear -MR. revert css MR. generalize 0. induction (N.to_nat n) as [|x IH]; intros i css MR; cbn [make_receivers] in MR; [injection MR as <-; reflexivity|].
    destruct (SubcarrierSet_new lq (o_samplerate o')); cbn [bind] in MR; try discriminate. destruct (make_receivers lq o' x (i + 1)) eqn:E; cbn [bind] in MR; try discriminate. injection MR as <-. cbn. rewrite (IH _ _ E). reflexivity. }
  assert (EX : exists cs, nth_error css (N.to_nat k) = Some cs).
  { destruct (nth_error css (N.to_nat k)) as [cs|] eqn:E; [exists cs; reflexivity|]. apply nth_error_None in E. lia. }
  assert (AL : alike n m (N.to_nat k) (MPXReader_init n s1) (MPXReader_init n s2)).
  { split; [reflexivity|]. split; [reflexivity|]. split; [exact Mc|]. split; [reflexivity|]. split; [reflexivity|]. split; [reflexivity|].
    split; [exists (N.to_nat (N.of_nat (length s1) / q)); cbn [mr_input MPXReader_init]; rewrite <- Mc; pose proof (N.div_mod (N.of_nat (length s1)) q Q); apply Nat2N.inj; rewrite Nat2N.inj_mul, !N2Nat.id; lia|].
    split; [symmetry; exact LE|exact EV]. }
  destruct (loop_same lq env o' streams n m (N.to_nat k) M1 ltac:(lia) ltac:(lia) _ _ _ _ _ _ _ _ _ _ AL EX eq_refl M1' M2') as ((cs & X) & Y & Z). rewrite N2Nat.id in Z.
  destruct (flush_nth _ _ _ _ _ _ _ Q1 _ _ X) as (d1 & w1 & G1 & O1). rewrite Y in X. destruct (flush_nth _ _ _ _ _ _ _ Q2 _ _ X) as (d2 & w2 & G2 & O2).
  rewrite G1 in G2. injection G2 as _ <-. rewrite N.add_0_l, N2Nat.id in *. rewrite !of_app, Z, O1, O2. reflexivity.
Qed.

(* --- with several channels the clock is not used --- *)
Lemma group_now : forall env o n1 n2 c g t w, processGroup env o n1 c (g_setTime g t) w = processGroup env o n2 c (g_setTime g t) w.
Proof. intros env o n1 n2 c g t w. unfold processGroup. cbn [g_has_time g_setTime negb]. rewrite andb_false_r. reflexivity. Qed.
Lemma bits_now : forall env o t n1 n2 w bits c, processBits env o c t n1 bits w = processBits env o c t n2 bits w.
Proof.
  intros env o t n1 n2 w. unfold processBits. induction bits as [|b bits IH]; intros c; [reflexivity|]. cbn [processBits_loop].
  destruct (arr_get (ch_block_stream c) w) as [s| |]; cbn [bind]; try reflexivity. destruct (bst_step s b) as [s' og]. destruct og as [g|]; cbn [bind].
  - destruct (bit_age_ms (N.of_nat (length bits))) as [age| |]; cbn [bind]; try reflexivity. cbv zeta. rewrite (group_now env o n1 n2).
    match goal with |- context [processGroup ?a ?b ?c ?d ?e ?f] => destruct (processGroup a b c d e f) as [[c1 l1]| |] end; cbn [bind]; try reflexivity. rewrite IH. reflexivity.
  - rewrite IH. reflexivity.
Qed.
Section Clock.
Context {D : Type} (lq : Liquid D) (env : Env) (o : Options) (streams : list N) (n : N) (m : nat).
Hypothesis M1 : (1 <= m)%nat.
Hypothesis N1 : 2 <= n.
Lemma streams_now : forall t1 t2 n1 n2 l c s, t1 = t2 \/ Forall (fun x => snd x = []) l ->
  feed_streams env lq o t1 n1 l c s = feed_streams env lq o t2 n2 l c s.
Proof.
  intros t1 t2 n1 n2. induction l as [|[w bits] l IH]; intros c s H; [reflexivity|]. cbn [feed_streams].
  assert (P : processBits env o c t1 n1 bits w = processBits env o c t2 n2 bits w).
  { destruct H as [->|F]; [apply bits_now|]. apply Forall_inv in F. cbn in F. subst bits. reflexivity. }
  assert (H' : t1 = t2 \/ Forall (fun x => snd x = []) l) by (destruct H as [H|H]; [left; exact H|right; exact (Forall_inv_tail H)]).
  rewrite P. destruct (processBits env o c t2 n2 bits w) as [[c1 o1]| |]; cbn [bind]; try reflexivity.
  destruct (getSecondsSinceCarrierLost c1); cbn [bind]; try reflexivity. cbv zeta. rewrite (IH _ _ H'). reflexivity.
Qed.
Lemma empty_chunk : forall s s' bits, processChunk lq s [] streams = Ok (s', bits) -> Forall (fun x => snd x = []) (combine streams bits).
Proof.
  intros s s' bits E. unfold processChunk, resampleChunk in E. assert (B : bits = map (fun _ => []) streams).
  { destruct (SFeqb _ _); cbn in E; injection E as _ <-; reflexivity. }
  subst bits. clear. induction streams as [|x l IH]; [constructor|]. constructor; [reflexivity|exact IH].
Qed.
Lemma channel_now : forall n1 n2 r1 r2 ch cs, (exists c t1 t2, readChunk r1 ch = Ok (c, t1) /\ readChunk r2 ch = Ok (c, t2) /\ (t1 = t2 \/ c = [])) ->
  feed_channel env lq o n1 streams r1 ch cs = feed_channel env lq o n2 streams r2 ch cs.
Proof.
  intros n1 n2 r1 r2 ch cs (c & t1 & t2 & R1 & R2 & H). unfold feed_channel. rewrite R1, R2. cbn [bind].
  destruct (processChunk lq (snd cs) c streams) as [[s bits]| |] eqn:E; cbn [bind]; try reflexivity.
  rewrite (streams_now t1 t2 n1 n2); [reflexivity|]. destruct H as [H| ->]; [left; exact H|right; exact (empty_chunk _ _ _ E)].
Qed.
Lemma channels_now : forall n1 n2 r1 r2 css i, (forall ch, ch < i + N.of_nat (length css) -> exists c t1 t2, readChunk r1 ch = Ok (c, t1) /\ readChunk r2 ch = Ok (c, t2) /\ (t1 = t2 \/ c = [])) ->
  feed_channels env lq o n1 streams r1 i css = feed_channels env lq o n2 streams r2 i css.
Proof.
  intros n1 n2 r1 r2. induction css as [|cs css IH]; intros i H; [reflexivity|]. cbn [feed_channels]. rewrite (channel_now n1 n2 r1 r2 i cs) by (apply H; cbn [length]; lia).
  destruct (feed_channel env lq o n2 streams r2 i cs) as [[c1 o1]| |]; cbn [bind]; try reflexivity. rewrite (IH (i + 1)); [reflexivity|]. intros ch Hc. apply H. cbn [length]. lia.
Qed.
(* two readers that differ in the time of the buffer only *)
Definition but_time (r1 r2 : MPXReader spec_float) : Prop :=
  mr_num_channels r1 = n /\ N.to_nat (mr_chunk_size r1) = (m * N.to_nat n)%nat /\ (exists j, length (mr_input r1) = (j * (m * N.to_nat n))%nat) /\
  exists t, r2 = mkMPXReader n (mr_chunk_size r1) (mr_is_eof r1) (mr_buffer r1) t (mr_singlechan_time r1) (mr_input r1).
Lemma chunk_now : forall n1 n2 r1 r2, but_time r1 r2 -> mr_is_eof r1 = false ->
  but_time (fillBuffer n1 r1) (fillBuffer n2 r2) /\
  forall ch, ch < n -> exists c t1 t2, readChunk (fillBuffer n1 r1) ch = Ok (c, t1) /\ readChunk (fillBuffer n2 r2) ch = Ok (c, t2) /\ (t1 = t2 \/ c = []).
Proof.
  intros n1 n2 r1 r2 (A1 & A2 & (j & A3) & t & ->) E. split.
  - split; [exact A1|]. split; [exact A2|]. split.
    + cbn [fillBuffer mr_input]. exists (j - 1)%nat. rewrite skipn_length, A2, A3. destruct j; nia.
    + exists n2. unfold fillBuffer. cbn. reflexivity.
  - intros ch Hc. destruct j as [|j].
    + assert (Z : mr_input r1 = []) by (apply length_zero_iff_nil; lia). exists [], n1, n2. unfold readChunk, fillBuffer. cbn. rewrite Z, firstn_nil, E, A1. cbn [length orb].
      replace (n <=? ch) with false by lia. replace (N.of_nat 0 <? mr_chunk_size r1) with true by nia. split; [reflexivity|]. split; [reflexivity|right; reflexivity].
    + set (c := (m * N.to_nat n)%nat) in *. assert (LF : length (firstn c (mr_input r1)) = c) by (rewrite firstn_length, A3; nia).
      assert (E1 : mr_is_eof (fillBuffer n1 r1) = false) by (cbn [fillBuffer mr_is_eof]; rewrite E, A2, LF; cbn [orb]; lia).
      assert (S1 : readChunk (fillBuffer n1 r1) ch = readChunk (fillBuffer n2 (mkMPXReader n (mr_chunk_size r1) (mr_is_eof r1) (mr_buffer r1) t (mr_singlechan_time r1) (mr_input r1))) ch).
      { unfold readChunk. rewrite E1. cbn [fillBuffer mr_is_eof mr_num_channels mr_buffer mr_singlechan_time mr_chunk_size mr_input]. cbn [fillBuffer mr_is_eof] in E1. rewrite E1, A1.
        replace (n =? 1) with false by lia. reflexivity. }
      destruct (chunk_channel _ (fillBuffer n1 r1) ch) as [t1 C1]; [change (mr_num_channels (fillBuffer n1 r1)) with (mr_num_channels r1); lia|change (mr_num_channels (fillBuffer n1 r1)) with (mr_num_channels r1); lia|exact E1| |].
      { exists m. cbn [fillBuffer mr_buffer mr_num_channels]. rewrite A2, A1. exact LF. }
      eexists. exists t1, t1. split; [exact C1|]. split; [rewrite <- S1; exact C1|left; reflexivity].
Qed.
Lemma feed_len : forall now r css i css' out, feed_channels env lq o now streams r i css = Ok (css', out) -> length css' = length css.
Proof.
  intros now r. induction css as [|c css IH]; intros i css' out E; cbn [feed_channels] in E; [injection E as <- _; reflexivity|].
  destruct (feed_channel env lq o now streams r i c) as [[c1 o1]| |]; cbn [bind] in E; try discriminate.
  destruct (feed_channels env lq o now streams r (i + 1) css) as [[c2 o2]| |] eqn:E2; cbn [bind] in E; try discriminate. injection E as <- _. cbn. rewrite (IH _ _ _ E2). reflexivity.
Qed.
Lemma loop_now : forall fuel k1 k2 r1 r2 css, but_time r1 r2 -> N.of_nat (length css) <= n ->
  mpx_loop fuel env lq o k1 streams r1 css = mpx_loop fuel env lq o k2 streams r2 css.
Proof.
  induction fuel as [|f IH]; intros k1 k2 r1 r2 css B L; cbn [mpx_loop]; assert (EE : mr_is_eof r2 = mr_is_eof r1) by (destruct B as (_ & _ & _ & t & ->); reflexivity); rewrite EE;
    destruct (mr_is_eof r1) eqn:E; try reflexivity. cbv zeta. destruct (chunk_now (k1 O) (k2 O) r1 r2 B E) as [B' C].
  rewrite (channels_now (k1 O) (k2 O) _ (fillBuffer (k2 O) r2) css 0) by (intros ch Hc; apply C; lia).
  destruct (feed_channels env lq o (k2 O) streams (fillBuffer (k2 O) r2) 0 css) as [[c1 o1]| |] eqn:F; cbn [bind]; try reflexivity.
  rewrite (IH (fun x => k1 (S x)) (fun x => k2 (S x)) _ _ c1 B'); [reflexivity|]. rewrite (feed_len _ _ _ _ _ _ F). exact L.
Qed.
End Clock.
Lemma made_len : forall (D : Type) (lq : Liquid D) o n i css, make_receivers lq o n i = Ok css -> length css = n.
Proof.
  intros D lq o. induction n as [|x IH]; intros i css MR; cbn [make_receivers] in MR; [injection MR as <-; reflexivity|].
  destruct (SubcarrierSet_new lq (o_samplerate o)); cbn [bind] in MR; try discriminate. destruct (make_receivers lq o x (i + 1)) eqn:E; cbn [bind] in MR; try discriminate. injection MR as <-. cbn. rewrite (IH _ _ E). reflexivity.
Qed.
Lemma mpx_clock : forall (D : Type) (lq : Liquid D) fuel env se o k1 k2 now s n rate, mpx_init se o = Opened n rate -> 2 <= n <= 1024 ->
  N.of_nat (length s) mod ((8192 / n) * n) = 0 ->
  processMPXInput fuel env se lq o k1 now s = processMPXInput fuel env se lq o k2 now s.
Proof.
  intros D lq fuel env se o k1 k2 now s n rate MI H W. unfold processMPXInput. rewrite MI. cbv zeta.
  destruct (make_receivers lq _ (N.to_nat n) 0) as [css| |] eqn:MR; cbn [bind]; try reflexivity.
  destruct (chunk_pos n ltac:(lia)) as (m & M1 & Mc). set (q := (kInputChunkSize / n) * n) in *. assert (Q : q <> 0) by nia. change ((8192 / n) * n) with q in W.
  rewrite (loop_now lq env _ _ n m M1 ltac:(lia) fuel k1 k2 (MPXReader_init n s) (MPXReader_init n s) css); [reflexivity| |].
  - split; [reflexivity|]. split; [exact Mc|]. split; [|exists 0%Z; reflexivity].
    exists (N.to_nat (N.of_nat (length s) / q)). cbn [mr_input MPXReader_init]. rewrite <- Mc. pose proof (N.div_mod (N.of_nat (length s)) q Q). apply Nat2N.inj. rewrite Nat2N.inj_mul, !N2Nat.id. lia.
  - rewrite (made_len _ _ _ _ _ _ MR). lia.
Qed.
