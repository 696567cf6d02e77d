(* Feed-through: decoding does not depend on it, and what is echoed. *)
From Verif.Model Require Import Base Util Float Group BlockSync Options Json Tmc Station Channel Input Dsp Main Streams.
From Verif.Spec Require Import Inputs Session Program Streams.
From Verif.Proofs Require Import Tac InputP HexP MainP.

Local Open Scope N_scope.
Local Open Scope list_scope.

Lemma feed_group : forall env o b now c g w, processGroup env (with_feed o b) now c g w = processGroup env o now c g w.
Proof. intros env o b now c g w. destruct o. reflexivity. Qed.
Lemma feed_groups : forall env o b gs c, run_groups env (with_feed o b) c gs = run_groups env o c gs.
Proof.
  intros env o b. induction gs as [|[[now g] w] gs IH]; intros c; [reflexivity|]. cbn [run_groups]. rewrite feed_group.
  destruct (processGroup env o now c g w) as [[c1 l]| |]; cbn [bind]; [|reflexivity..]. rewrite IH. reflexivity.
Qed.
Lemma feed_bits : forall env o b w bits c, run_bits env (with_feed o b) c w bits = run_bits env o c w bits.
Proof.
  intros env o b w. induction bits as [|[now x] bits IH]; intros c; [reflexivity|]. cbn [run_bits].
  assert (E : processBit env (with_feed o b) now c x w = processBit env o now c x w).
  { unfold processBit. destruct (arr_get (ch_block_stream c) w); cbn [bind]; [|reflexivity..]. destruct (bst_step a x) as [s og]. destruct og; [apply feed_group|reflexivity]. }
  rewrite E. destruct (processBit env o now c x w) as [[c1 l]| |]; cbn [bind]; [|reflexivity..]. rewrite IH. reflexivity.
Qed.
Lemma feed_flush : forall env o b now c, flush env (with_feed o b) now c = flush env o now c.
Proof.
  intros env o b now c. unfold flush. generalize [1; 2; 3]. intros l. revert c. induction l as [|i l IH]; intros c; [reflexivity|]. cbn [flush_loop].
  destruct (arr_get (ch_block_stream c) i) as [s| |]; cbn [bind]; [|reflexivity..]. destruct (g_isEmpty (bst_current_group s)); cbn [bind].
  - rewrite IH. reflexivity.
  - rewrite feed_group. destruct (processGroup _ _ _ _ _ _) as [[c1 o1]| |]; cbn [bind]; [|reflexivity..]. rewrite IH. reflexivity.
Qed.

Lemma feed_ascii : forall env o b clock t input, processASCIIBitsInput env (with_feed o b) clock t input = processASCIIBitsInput env o clock t input.
Proof.
  intros env o b clock t input. unfold processASCIIBitsInput. change (Channel_new (with_feed o b) 0) with (Channel_new o 0). rewrite feed_bits.
  destruct (run_bits _ _ _ _ _) as [[c out]| |]; cbn [bind]; [|reflexivity..]. rewrite feed_flush. reflexivity.
Qed.
Lemma feed_read_hex : forall o b fuel clock lines, hex_groups fuel (with_feed o b) clock lines = hex_groups fuel o clock lines.
Proof.
  intros o b. induction fuel as [|f IH]; intros clock lines; [reflexivity|]. cbn [hex_groups]. destruct lines as [|l r]; [reflexivity|].
  change (readHexGroup (with_feed o b) (clock 0%nat) (l :: r)) with (readHexGroup o (clock 0%nat) (l :: r)). destruct (readHexGroup o (clock 0%nat) (l :: r)). rewrite IH. reflexivity.
Qed.
Lemma feed_hex : forall env o b clock input, processHexInput env (with_feed o b) clock input = processHexInput env o clock input.
Proof.
  intros env o b clock input. unfold processHexInput, read_hex_input. rewrite feed_read_hex. change (Channel_new (with_feed o b) 0) with (Channel_new o 0). rewrite feed_groups. reflexivity.
Qed.
Lemma feed_tef : forall env o b clock input, processTEFInput env (with_feed o b) clock input = processTEFInput env o clock input.
Proof.
  intros env o b clock input. unfold processTEFInput. change (Channel_new (with_feed o b) 0) with (Channel_new o 0). rewrite feed_groups. reflexivity.
Qed.

(* ---- what is echoed ---- *)
Lemma read_echo : forall s b r e echo, readBit s = (b, r, e, echo) -> if e : bool then r = [] /\ echo = s ++ [255] else s = echo ++ r /\ echo <> [].
Proof.
  induction s as [|c s IH]; intros b r e echo E; cbn [readBit] in E.
  - injection E as <- <- <- <-. split; reflexivity.
  - destruct (c =? 48); [injection E as <- <- <- <-; split; [reflexivity|discriminate]|]. destruct (c =? 49); [injection E as <- <- <- <-; split; [reflexivity|discriminate]|].
    destruct (readBit s) as [[[b' r'] e'] echo'] eqn:R. injection E as <- <- <- <-. specialize (IH _ _ _ _ eq_refl). destruct e'.
    + destruct IH as [-> ->]. split; reflexivity.
    + destruct IH as [-> _]. split; [reflexivity|discriminate].
Qed.
Lemma echo_ascii : forall fuel s, (length s < fuel)%nat -> echo_bits fuel s = s ++ [255].
Proof.
  induction fuel as [|f IH]; intros s L; [lia|]. cbn [echo_bits]. destruct (readBit s) as [[[b r] e] echo] eqn:R. pose proof (read_echo _ _ _ _ _ R) as X. destruct e.
  - destruct X as [_ ->]. rewrite app_nil_r. reflexivity.
  - destruct X as [-> Ne]. rewrite IH, app_assoc; [reflexivity|]. rewrite app_length in L. destruct echo; [congruence|]. cbn [length] in L. lia.
Qed.

Lemma lines_join : forall s, flat_map echo_line (split_lines s) = s ++ [10].
Proof.
  induction s as [|c s IH]; [reflexivity|]. cbn [split_lines]. destruct (N.eqb_spec c 10) as [->|Ne].
  - cbn [flat_map]. rewrite IH. reflexivity.
  - destruct (split_lines s) as [|l ls]; [destruct s; discriminate IH|]. cbn [flat_map echo_line app] in *. unfold echo_line in *. cbn [app]. rewrite IH. reflexivity.
Qed.

Lemma echo_all : forall lines rest, (exists l, lines = l ++ rest) -> echo_call lines rest ++ flat_map echo_line rest = flat_map echo_line lines.
Proof.
  intros lines rest [l ->]. unfold echo_call. rewrite app_length, Nat.add_sub, firstn_app, Nat.sub_diag, firstn_O, app_nil_r, firstn_all, flat_map_app. reflexivity.
Qed.
Lemma hex_rest : forall lines g g' rest, readHexGroup_loop lines g = (g', rest) -> exists l, lines = l ++ rest /\ (lines <> [] -> l <> []).
Proof.
  induction lines as [|x lines IH]; intros g g' rest E; cbn [readHexGroup_loop] in E; [injection E as _ <-; exists []; split; [reflexivity|congruence]|].
  destruct (N.of_nat (length x) <? 16).
  - destruct (IH _ _ _ E) as (l & -> & _). exists (x :: l). split; [reflexivity|discriminate].
  - injection E as _ <-. exists [x]. split; [reflexivity|discriminate].
Qed.
Lemma tef_rest : forall lines g g' rest, readTEF_loop lines g = (g', rest) -> exists l, lines = l ++ rest /\ (lines <> [] -> l <> []).
Proof.
  induction lines as [|x lines IH]; intros g g' rest E; cbn [readTEF_loop] in E; [injection E as _ <-; exists []; split; [reflexivity|congruence]|].
  assert (N1 : forall g0, readTEF_loop lines g0 = (g', rest) -> exists l, x :: lines = l ++ rest /\ (x :: lines <> [] -> l <> [])).
  { intros g0 E0. destruct (IH _ _ _ E0) as (l & -> & _). exists (x :: l). split; [reflexivity|discriminate]. }
  assert (N2 : forall g0, (g0, lines) = (g', rest) -> exists l, x :: lines = l ++ rest /\ (x :: lines <> [] -> l <> [])).
  { intros g0 E0. injection E0 as _ <-. exists [x]. split; [reflexivity|discriminate]. }
  repeat match type of E with
  | readTEF_loop lines _ = _ => exact (N1 _ E)
  | (_, lines) = _ => exact (N2 _ E)
  | context [match ?y with _ => _ end] => destruct y
  end.
Qed.
Lemma echo_hex_all : forall fuel o lines, (length lines <= fuel)%nat -> echo_hex fuel o lines = flat_map echo_line lines.
Proof.
  induction fuel as [|f IH]; intros o lines L; [destruct lines; [reflexivity|cbn in L; lia]|]. cbn [echo_hex]. destruct lines as [|x r]; [reflexivity|].
  unfold readHexGroup. destruct (readHexGroup_loop (x :: r) _) as [g rest] eqn:E. destruct (hex_rest _ _ _ _ E) as (l & El & Nl). rewrite IH; [apply echo_all; exists l; exact El|].
  specialize (Nl ltac:(discriminate)). rewrite El, app_length in L. destruct l; [congruence|]. cbn [length] in L. lia.
Qed.
Lemma echo_tef_all : forall fuel lines, (length lines <= fuel)%nat -> echo_tef fuel lines = flat_map echo_line lines.
Proof.
  induction fuel as [|f IH]; intros lines L; [destruct lines; [reflexivity|cbn in L; lia]|]. cbn [echo_tef]. destruct lines as [|x r]; [reflexivity|].
  destruct (readTEFGroup (x :: r)) as [g rest] eqn:E. destruct (tef_rest _ _ _ _ E) as (l & El & Nl). rewrite IH; [apply echo_all; exists l; exact El|].
  specialize (Nl ltac:(discriminate)). rewrite El, app_length in L. destruct l; [congruence|]. cbn [length] in L. lia.
Qed.

(* ---- audio ---- *)
Section Audio.
Variable D : Type.
Variable env : Env.
Variable lq : Liquid D.
Variable b : bool.
Lemma feed_pbits : forall o time now w bits c, processBits env (with_feed o b) c time now bits w = processBits env o c time now bits w.
Proof.
  intros o time now w. unfold processBits. induction bits as [|x bits IH]; intros c; [reflexivity|]. cbn [processBits_loop].
  destruct (arr_get (ch_block_stream c) w) as [s| |]; cbn [bind]; [|reflexivity..]. destruct (bst_step s x) as [s1 og]. destruct og as [g|].
  - destruct (bit_age_ms (N.of_nat (length bits))) as [age| |]; cbn [bind]; [|reflexivity..]. rewrite feed_group.
    destruct (processGroup _ _ _ _ _ _) as [[c1 l]| |]; cbn [bind]; [|reflexivity..]. rewrite IH. reflexivity.
  - cbn [bind]. rewrite IH. reflexivity.
Qed.
Lemma feed_of_streams : forall o time now streams c s, feed_streams env lq (with_feed o b) time now streams c s = feed_streams env lq o time now streams c s.
Proof.
  intros o time now. induction streams as [|[n bits] streams IH]; intros c s; [reflexivity|]. cbn [feed_streams]. rewrite feed_pbits.
  destruct (processBits _ _ _ _ _ _ _) as [[c1 l]| |]; cbn [bind]; [|reflexivity..]. destruct (getSecondsSinceCarrierLost c1); cbn [bind]; [|reflexivity..]. rewrite IH. reflexivity.
Qed.
Lemma feed_of_channels : forall o now streams r css ch, feed_channels env lq (with_feed o b) now streams r ch css = feed_channels env lq o now streams r ch css.
Proof.
  intros o now streams r. induction css as [|cs css IH]; intros ch; [reflexivity|]. cbn [feed_channels]. unfold feed_channel.
  destruct (readChunk r ch) as [[chunk time]| |]; cbn [bind]; [|reflexivity..]. destruct (processChunk _ _ _ _) as [[s bits]| |]; cbn [bind]; [|reflexivity..].
  rewrite feed_of_streams. destruct (feed_streams _ _ _ _ _ _ _ _) as [[[c1 s1] o1]| |]; cbn [bind]; [|reflexivity..]. rewrite IH. reflexivity.
Qed.
Lemma feed_of_loop : forall o streams fuel clock r css, mpx_loop fuel env lq (with_feed o b) clock streams r css = mpx_loop fuel env lq o clock streams r css.
Proof.
  intros o streams. induction fuel as [|fuel IH]; intros clock r css; [reflexivity|]. cbn [mpx_loop]. rewrite feed_of_channels.
  destruct (mr_is_eof r); [reflexivity|]. cbv zeta. destruct (feed_channels _ _ _ _ _ _ _ _) as [[css1 o1]| |]; cbn [bind]; [|reflexivity..]. rewrite IH. reflexivity.
Qed.
Lemma feed_of_end : forall o now (css : list (Receiver D)) ch, flush_channels env (with_feed o b) now ch css = flush_channels env o now ch css.
Proof.
  intros o now. induction css as [|cs css IH]; intros ch; [reflexivity|]. cbn [flush_channels]. rewrite feed_flush.
  destruct (flush _ _ _ _) as [[c1 o1]| |]; cbn [bind]; [|reflexivity..]. rewrite IH. reflexivity.
Qed.
Lemma feed_receivers : forall o n ch, make_receivers lq (with_feed o b) n ch = make_receivers lq o n ch.
Proof.
  intros o. induction n as [|n IH]; intros ch; [reflexivity|]. cbn [make_receivers]. rewrite IH. reflexivity.
Qed.
Lemma feed_init : forall se o, mpx_init se (with_feed o b) = mpx_init se o.
Proof. reflexivity. Qed.
Lemma feed_mpx : forall fuel se o clock now samples, processMPXInput fuel env se lq (with_feed o b) clock now samples = processMPXInput fuel env se lq o clock now samples.
Proof.
  intros fuel se o clock now samples. unfold processMPXInput. rewrite feed_init. destruct (mpx_init se o) as [[]|n rate]; [reflexivity..|]. cbv zeta.
  change (with_audio (with_feed o b) n (f32_of_Z rate)) with (with_feed (with_audio o n (f32_of_Z rate)) b). rewrite feed_receivers.
  destruct (make_receivers _ _ _ _) as [css| |]; cbn [bind]; [|reflexivity..]. rewrite feed_of_loop.
  change (o_streams (with_feed (with_audio o n (f32_of_Z rate)) b)) with (o_streams (with_audio o n (f32_of_Z rate))).
  destruct (mpx_loop _ _ _ _ _ _ _ _) as [[[css1 out]|]| |]; cbn [bind]; [|reflexivity..]. rewrite feed_of_end. reflexivity.
Qed.
Lemma echo_read : forall o streams fuel clock r q css x, mr_is_eof r = false -> mr_is_eof q = false -> mr_chunk_size q = mr_chunk_size r -> mr_input q = mr_input r ->
  mpx_loop fuel env lq o clock streams r css = Ok (Some x) -> echo_audio fuel q = mr_input q.
Proof.
  intros o streams. induction fuel as [|fuel IH]; intros clock r q css x Ne Nq C I E; cbn [mpx_loop echo_audio] in *; rewrite Ne in E; rewrite Nq; [discriminate|]. cbv zeta in *.
  destruct (feed_channels _ _ _ _ _ _ _ _) as [[css1 o1]| |]; cbn [bind] in E; [|discriminate..].
  change (mr_buffer (fillBuffer 0 q)) with (firstn (N.to_nat (mr_chunk_size q)) (mr_input q)).
  assert (EE : mr_is_eof (fillBuffer 0 q) = mr_is_eof (fillBuffer (clock O) r)) by (cbn [fillBuffer mr_is_eof]; rewrite Ne, Nq, C, I; reflexivity).
  destruct (mr_is_eof (fillBuffer (clock O) r)) eqn:E1.
  - replace (echo_audio fuel (fillBuffer 0 q)) with (@nil spec_float) by (destruct fuel; cbn [echo_audio]; rewrite EE; reflexivity).
    rewrite app_nil_r. apply firstn_all2. cbn [fillBuffer mr_is_eof] in EE. rewrite Nq, firstn_length in EE. cbn [orb] in EE. lia.
  - destruct (mpx_loop fuel env lq o (fun n => clock (S n)) streams (fillBuffer (clock O) r) css1) as [[y|]| |] eqn:L; cbn [bind] in E; [|discriminate..].
    rewrite (IH _ _ (fillBuffer 0 q) _ _ E1 EE C ltac:(cbn [fillBuffer mr_input]; rewrite C, I; reflexivity) L). cbn [fillBuffer mr_input]. apply firstn_skipn.
Qed.
Lemma echo_mpx : forall fuel se o clock now samples x n rate, mpx_init se o = Opened n rate -> n < kBufferSize ->
  processMPXInput fuel env se lq o clock now samples = Ok (Some x) -> echo_audio fuel (MPXReader_init n samples) = samples.
Proof.
  intros fuel se o clock now samples x n rate M L E. unfold processMPXInput in E. rewrite M in E. cbv zeta in E.
  destruct (make_receivers _ _ _ _) as [css| |]; cbn [bind] in E; [|discriminate..].
  destruct (mpx_loop _ _ _ _ _ _ _ _) as [[y|]| |] eqn:P; cbn [bind] in E; [|discriminate..].
  assert (F : mr_is_eof (MPXReader_init n samples) = false) by (cbn [MPXReader_init mr_is_eof]; lia).
  exact (echo_read _ _ _ _ _ _ _ _ F F eq_refl eq_refl P).
Qed.
End Audio.
