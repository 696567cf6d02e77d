(* Every sequence of calls on a channel succeeds, and what holds of every line it prints. *)
From Verif.Proofs Require Import Tac Numerals FreqP Utf8P JsonP Schema StationP TextP ClockP BlerP UpdateP.
From Verif.Model Require Import Util Float Group BlockSync Options Json Tmc Station Channel.
From Verif.Spec Require Import Unicode JsonText Calendar Session.

Lemma host_env : forall env, host_ok env -> env_ok env /\ float_text_ok (env_float env).
Proof.
  intros env (K & W & F). split; [|exact F]. split.
  - intros i k E. destruct (K i k E) as [H1 H2]. split; [exact H1|]. rewrite N.shiftl_mul_pow2. exact H2.
  - intros j. apply valid_is_utf8. apply W.
Qed.

(* ---- the text of a value is UTF-8 ---- *)
Lemma txt_small : forall s, Forall (fun c => c < 128) s -> txt s.
Proof. intros s F. induction F; [reflexivity|apply txt_cons; assumption]. Qed.

Lemma num_small : forall s, Forall (fun c => num_char c = true) s -> txt s.
Proof.
  intros s F. apply txt_small. eapply Forall_impl; [|exact F]. intros c H. unfold num_char, is_digit in H.
  repeat rewrite orb_true_iff in H. rewrite andb_true_iff in H. 
  destruct H as [[[[[H|H]|H]|H]|H]|H]; try (apply N.eqb_eq in H; subst; lia). destruct H as [_ H]. apply N.leb_le in H. lia.
Qed.

Lemma escape_small : forall c, c < 128 -> txt (escape_byte c).
Proof.
  intros c H. unfold escape_byte. repeat match goal with |- txt (if ?b then _ else _) => destruct b eqn:? end; try reflexivity.
  - cbv zeta. apply txt_app; [reflexivity|]. 
    assert (L : forall d, d < 16 -> (if d <? 10 then 48 + d else 87 + d) < 128) by (intros d Hd; destruct (d <? 10); lia).
    apply txt_cons; [apply L; lia|]. apply txt_cons; [apply L; lia|reflexivity].
  - apply txt_cons; [exact H|reflexivity].
Qed.
Lemma escape_high : forall h, Forall (fun b => 128 <= b) h -> flat_map escape_byte h = h.
Proof.
  intros h F. induction F as [|b h Hb F IH]; [reflexivity|]. cbn [flat_map]. rewrite IH.
  unfold escape_byte. repeat match goal with |- context [?a =? ?b] => replace (a =? b) with false by (symmetry; apply N.eqb_neq; lia) end.
  replace (b <? 32) with false by (symmetry; apply N.ltb_ge; lia). reflexivity.
Qed.
Lemma dump_string_txt : forall s, txt s -> txt (dump_string s).
Proof.
  intros s H. unfold dump_string. apply txt_cons; [lia|]. apply txt_app; [|reflexivity].
  revert s H. apply txt_ind.
  - reflexivity.
  - intros c r Hc _ IH. cbn [flat_map]. apply txt_app; [apply escape_small; exact Hc|exact IH].
  - intros h r Hh Th _ IH. rewrite flat_map_app, escape_high by exact Hh. apply txt_app; assumption.
Qed.

Lemma dump_txt : forall fl, float_text_ok fl -> forall j, json_utf8 j = true -> txt (dump fl j).
Proof.
  intros fl FL. apply (json_ind' (fun j => json_utf8 j = true -> txt (dump fl j))).
  - reflexivity.
  - intros [|] _; reflexivity.
  - intros z _. apply num_small, dec_string_Z_chars.
  - intros f _. cbn [dump]. destruct (FL f) as [-> |H]; [reflexivity|]. apply num_small, json_number_chars, H.
  - intros s H. apply dump_string_txt. exact H.
  - intros l F H. cbn [dump json_utf8] in *. apply txt_cons; [lia|]. apply txt_app; [|reflexivity].
    apply txt_join; [reflexivity|]. rewrite forallb_forall in H. apply Forall_forall. intros x I. apply in_map_iff in I.
    destruct I as (y & <- & Iy). rewrite Forall_forall in F. apply F; [exact Iy|]. apply H, Iy.
  - intros m F H. cbn [dump json_utf8] in *. apply txt_cons; [lia|]. apply txt_app; [|reflexivity].
    apply txt_join; [reflexivity|]. rewrite forallb_forall in H. apply Forall_forall. intros x I. apply in_map_iff in I.
    destruct I as (y & <- & Iy). rewrite Forall_forall in F. specialize (H y Iy). apply andb_prop in H. destruct H as [H1 H2].
    apply txt_app; [apply dump_string_txt; exact H1|]. apply txt_cons; [lia|]. apply F; assumption.
Qed.

Lemma line_well_formed : forall env F R line, host_ok env -> line_of env (conf F R) line -> well_formed line.
Proof.
  intros env F R line H (j & j' & (m & -> & (_ & ND) & _) & -> & U & D). destruct (host_env env H) as [_ FL].
  assert (O : exists m', j' = JObj m' /\ NoDup (map fst m')).
  { destruct D as [-> |[_ ->]]; [exists m; split; [reflexivity|exact ND]|].
    eexists. split; [reflexivity|]. constructor; [intros []|constructor]. }
  destruct O as (m' & -> & ND'). split; [|split].
  - eexists. rewrite read_dump by exact FL. cbn [value_of]. split; [reflexivity|].
    rewrite map_map. cbn [fst]. rewrite <- map_map. revert ND'. generalize (map fst m'). intros l ND'.
    induction ND' as [|k l Nk N2 IH]; [constructor|]. cbn [map]. constructor; [|exact IH].
    intros I. apply in_map_iff in I. destruct I as (k' & E & Ik). apply bs_inj in E. subst k'. contradiction.
  - apply valid_is_utf8. apply dump_txt; assumption.
  - apply dump_no_control. exact FL.
Qed.

Lemma line_lacks : forall env F line k, host_ok env -> line_of env (conf F absent) line -> F k = true ->
  k <> "debug"%string -> lacks line k.
Proof.
  intros env F line k H (j & j' & C & -> & U & D) Fk Nk. destruct (host_env env H) as [_ FL]. unfold lacks.
  rewrite line_at_dump by exact FL. destruct D as [-> |[_ ->]].
  - rewrite (conf_get F absent j k C Fk). reflexivity.
  - cbn [jget obj_find]. destruct (String.eqb_spec k "debug") as [->|]; [contradiction|]. reflexivity.
Qed.

(* ---- sequences of calls ---- *)
Definition fine (P : bytes -> Prop) (out : list (option bytes)) : Prop := Forall P (printed out).

Lemma printed_app : forall a b, printed (a ++ b) = printed a ++ printed b.
Proof. intros a b. unfold printed. apply flat_map_app. Qed.

Section Generic.
Context (env : Env) (o : Options) (Inv : Channel -> Prop) (P : bytes -> Prop).
Context (Inv_ok : forall c, Inv c -> ch_ok c).
Context (Inv_stream : forall c w s, Inv c -> stream_ok s -> Inv (ch_set_stream c w s)).
Context (Inv_time : forall c t, Inv c -> Inv (ch_set_time c t)).
Context (Inv_reset : forall c, Inv c -> Inv (resetPI c)).
Context (Inv_group : forall now c g w, Inv c -> g_has_bler g = false -> w < 4 ->
  good (fun cl => Inv (fst cl) /\ fine P [snd cl]) (processGroup env o now c g w)).

Definition gc (cl : Channel * list (option bytes)) : Prop := Inv (fst cl) /\ fine P (snd cl).

Lemma fine_app : forall a b, fine P a -> fine P b -> fine P (a ++ b).
Proof. intros a b A B. unfold fine. rewrite printed_app. apply Forall_app. split; assumption. Qed.

Lemma bit_generic : forall now c b w, Inv c -> w < 4 ->
  good (fun cl => Inv (fst cl) /\ fine P [snd cl]) (processBit env o now c b w).
Proof.
  intros now c b w Hc Hw. unfold processBit.
  destruct (stream_get c w (Inv_ok c Hc) Hw) as (s & -> & [S1 S2]). cbn [bind].
  destruct (step_bler s b S1 S2) as (A & B & D). destruct (bst_step s b) as [s' og]. cbn [fst snd] in *.
  assert (C1 : Inv (ch_set_stream c w s')) by (apply Inv_stream; [exact Hc|split; assumption]).
  destruct og as [g|]; [|apply good_ok; split; [exact C1|constructor]].
  apply Inv_group; [exact C1|apply D; reflexivity|exact Hw].
Qed.

Lemma bits_generic : forall t now w bits c, Inv c -> w < 4 ->
  N.of_nat (length bits) < 9007199254740992 -> good gc (processBits env o c t now bits w).
Proof.
  intros t now w. unfold processBits. induction bits as [|b bits IH]; intros c Hc Hw L; [apply good_ok; split; [exact Hc|constructor]|].
  cbn [length] in L. cbn [processBits_loop]. destruct (stream_get c w (Inv_ok c Hc) Hw) as (s & -> & [S1 S2]). cbn [bind].
  destruct (step_bler s b S1 S2) as (A & B & D). destruct (bst_step s b) as [s' og]. cbn [fst snd] in *.
  assert (C1 : Inv (ch_set_stream c w s')) by (apply Inv_stream; [exact Hc|split; assumption]).
  apply (good_bind _ _ gc).
  - destruct og as [g|]; [|apply good_ok; split; [exact C1|constructor]].
    destruct (age_good (N.of_nat (length bits)) ltac:(lia)) as (z & ->). cbn [bind].
    eapply good_bind; [apply Inv_group; [exact C1|exact (D g eq_refl)|exact Hw]|].
    intros [c2 l2] [C2 P2]. apply good_ok. split; [apply Inv_time; exact C2|exact P2].
  - intros [c2 l2] [C2 P2]. cbn [fst snd] in *.
    eapply good_bind; [apply IH; try assumption; lia|]. intros [c3 l3] [C3 P3]. apply good_ok.
    split; [exact C3|apply fine_app; assumption].
Qed.

Lemma flush_generic : forall now c, Inv c -> good gc (flush env o now c).
Proof.
  intros now c. unfold flush.
  assert (G : forall l c, Forall (fun i => i < 4) l -> Inv c -> good gc (flush_loop env o now l c)).
  { induction l as [|i l IH]; intros c0 F Hc; [apply good_ok; split; [exact Hc|constructor]|]. inversion F; subst. cbn [flush_loop].
    destruct (stream_get c0 i (Inv_ok c0 Hc) H1) as (s & -> & [S1 S2]). cbn [bind].
    apply (good_bind _ _ gc).
    - destruct (g_isEmpty _); [apply good_ok; split; [exact Hc|constructor]|].
      eapply good_bind; [apply Inv_group; [exact Hc|exact S1|exact H1]|].
      intros [c2 l2] [C2 P2]. apply good_ok. split; assumption.
    - intros [c2 l2] [C2 P2]. cbn [fst snd] in *.
      eapply good_bind; [apply IH; assumption|]. intros [c3 l3] [C3 P3]. apply good_ok.
      split; [exact C3|apply fine_app; assumption]. }
  apply G. repeat constructor.
Qed.

Lemma call_generic : forall x c, possible x -> Inv c -> good gc (do_call env o c x).
Proof.
  intros [now g w|now b w|t now bits w|now|] c Hx Hc; cbn [do_call].
  - eapply good_bind; [apply Inv_group; [exact Hc|apply Hx|apply Hx]|]. intros [c1 l] H. apply good_ok. exact H.
  - eapply good_bind; [apply bit_generic; [exact Hc|exact Hx]|]. intros [c1 l] H. apply good_ok. exact H.
  - apply bits_generic; [exact Hc|apply Hx|apply Hx].
  - apply flush_generic; exact Hc.
  - apply good_ok. split; [apply Inv_reset; exact Hc|constructor].
Qed.

Lemma session_generic : forall calls c, Forall possible calls -> Inv c ->
  good (fun cl => Inv (fst cl) /\ Forall P (snd cl)) (session env o c calls).
Proof.
  induction calls as [|x calls IH]; intros c F Hc; [apply good_ok; split; [exact Hc|constructor]|].
  inversion F; subst. cbn [session]. eapply good_bind; [apply call_generic; assumption|].
  intros [c1 out] [C1 P1]. cbn [fst snd] in *. eapply good_bind; [apply IH; assumption|]. intros [c2 l2] [C2 P2].
  apply good_ok. split; [exact C2|]. apply Forall_app. split; [exact P1|exact P2].
Qed.
End Generic.

Lemma created_ok : forall o c, created o c -> ch_ok c.
Proof. intros o c [(w & ->)|(pi & ->)]; [apply channel_new_ok|apply channel_new_pi_ok]. Qed.

(* A line of a session is the line of some group *)
Definition json_line (env : Env) (o : Options) (line : bytes) : Prop :=
  exists g, g_has_bler g = o_bler o /\ line_of env (conf (not_in (line_keys o g)) absent) line.

Lemma session_lines : forall env o c calls, host_ok env -> created o c -> Forall possible calls ->
  exists c' lines, session env o c calls = Ok (c', lines) /\ ch_ok c' /\
    (o_output_type o = OutJSON -> Forall (json_line env o) lines).
Proof.
  intros env o c calls H Cr Po. destruct (host_env env H) as [E _].
  destruct (session_generic env o ch_ok (fun line => o_output_type o = OutJSON -> json_line env o line)
              (fun c x => x) set_stream_ok set_time_ok resetPI_ok) with (calls := calls) (c := c) as ([c' lines] & Eq & C' & L);
    [|exact Po|apply (created_ok o c Cr)|].
  - intros now c0 g w Hc Hg Hw. eapply good_imp; [apply process_good; assumption|]. intros [c1 line] [C1 S]. split; [exact C1|].
    cbn [snd] in *. destruct line as [text|]; [|constructor]. constructor; [|constructor]. intros OJ.
    unfold shown in S. rewrite OJ in S. exists (prepared o now c0 g w). split; [apply prepared_bler; assumption|exact S].
  - exists c', lines. split; [exact Eq|]. split; [exact C'|]. intros OJ. cbn [snd] in L. eapply Forall_impl; [|exact L]. intros a Ha. apply Ha, OJ.
Qed.

Lemma session_well_formed : forall env o c calls, host_ok env -> created o c -> Forall possible calls ->
  o_output_type o = OutJSON ->
  exists c' lines, session env o c calls = Ok (c', lines) /\ Forall well_formed lines.
Proof.
  intros env o c calls H Cr Po OJ. destruct (session_lines env o c calls H Cr Po) as (c' & lines & E & _ & L).
  exists c', lines. split; [exact E|]. eapply Forall_impl; [|exact (L OJ)]. intros line (g & _ & LO).
  eapply line_well_formed; eassumption.
Qed.

Lemma not_in_app : forall a b k, not_in (a ++ b) k = not_in a k && not_in b k.
Proof. intros a b k. unfold not_in. rewrite existsb_app, negb_orb. reflexivity. Qed.

Lemma session_lacks : forall env o c calls c' lines k, host_ok env -> created o c -> Forall possible calls ->
  o_output_type o = OutJSON -> session env o c calls = Ok (c', lines) ->
  (forall g, g_has_bler g = o_bler o -> not_in (line_keys o g) k = true) -> k <> "debug"%string ->
  forall line, In line lines -> lacks line k.
Proof.
  intros env o c calls c' lines k H Cr Po OJ E K N line I.
  destruct (session_lines env o c calls H Cr Po) as (c1 & l1 & E1 & _ & L). rewrite E in E1. injection E1 as <- <-.
  specialize (L OJ). rewrite Forall_forall in L. destruct (L line I) as (g & B & LO).
  eapply line_lacks; [exact H|exact LO|apply K, B|exact N].
Qed.
