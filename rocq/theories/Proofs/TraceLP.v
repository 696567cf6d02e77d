(* As TraceP, for properties of the groups decoded and of their lines. *)
From Verif.Model Require Import Util Group Options Json Tmc Station Channel.
From Verif.Spec Require Import JsonText Session Identity History Files.
From Verif.Proofs Require Import Tac Numerals JsonP Schema StationP TextP CleanP UpdateP SessionP LineP FrameP ChannelP LinesP HistoryP ShowP TraceP PsP.

Local Open Scope list_scope.

Lemma lines_in_app : forall a b x y, length a = length x -> lines_in (a ++ b) (x ++ y) = lines_in a x ++ lines_in b y.
Proof.
  intros a b x y H. unfold lines_in. rewrite <- flat_map_app. f_equal. revert x H.
  induction a as [|u a IH]; intros [|v x] H; try discriminate; [reflexivity|]. cbn [combine app]. f_equal. apply IH. injection H as H. exact H.
Qed.

Section TraceL.
  Variable I : list (Group * N * bytes) -> Station -> Prop.
  Variable env : Env.
  Variable o : Options.
  Hypothesis H : host_ok env.
  Hypothesis HT : host_text env.
  Hypothesis OJ : o_output_type o = OutJSON.
  Hypothesis New : forall w, I [] (Station_new w).
  Hypothesis New_pi : forall w p, I [] (Station_new_pi w p).
  Hypothesis Had : forall h st g, I h st -> I h (had st g).
  Hypothesis Step : forall h st now c g w st' j ln, I h st -> st_ok st -> received_group (now, g, w) ->
    bler_ok (prepared o now c g w) -> decoded env o st (prepared o now c g w) = Ok (st', j) ->
    (raw_group st (prepared o now c g w) = false \/ g_has_type (prepared o now c g w) = false -> forall q, line_at q ln = option_map (value_of (env_float env)) (jget q j)) ->
    I (h ++ [(g, w, ln)]) st'.

  (* One group *)
  Lemma group_history : forall h now c g w c' line, ch_fine c -> received_group (now, g, w) -> I h (tuned c (prepared o now c g w)) ->
    st_ok (tuned c (prepared o now c g w)) -> processGroup env o now c g w = Ok (c', line) ->
    I (h ++ match line with Some l => [(g, w, l)] | None => [] end) (ch_station c').
  Proof.
    intros h now c g w c' line Hc R Ih So E. pose proof (host_text_txt env HT) as Et.
    destruct (process_cases env o now c g w c' line H OJ (proj1 Hc) (proj1 R) E) as [[-> ->]|(l & j & -> & Dd & _)].
    - rewrite app_nil_r. apply Had. exact Ih.
    - eapply Step; try eassumption; [apply prepared_bler; [apply Hc|apply R]|].
      intros Rw. destruct (process_shows env o now c g w c' l H Et OJ Hc (proj1 R) E Rw) as (j' & D' & Lj). rewrite Dd in D'. injection D' as <-. exact Lj.
  Qed.

  Lemma lines_history : forall gs w0 c out, Forall received_group gs -> run_groups env o (Channel_new o w0) gs = Ok (c, out) ->
    exists old h, lines_in gs out = old ++ h /\ I h (ch_station c).
  Proof.
    pose proof (host_text_txt env HT) as Et.
    intros gs w0. induction gs as [|[[now g] w] gs IH] using rev_ind; intros c out F E.
    - injection E as <- <-. exists [], []. split; [reflexivity|apply New].
    - apply Forall_app in F. destruct F as [F1 F2]. inversion F2 as [|? ? Rg _]; subst.
      destruct (run_snoc _ _ _ _ _ _ _ _ _ E) as (c1 & out1 & line & E1 & E2 & ->).
      destruct (IH c1 out1 F1 E1) as (old & h & D & Hh).
      pose proof (run_fine env o gs _ _ _ H Et (created_fine o _ (or_introl (ex_intro _ w0 eq_refl))) F1 E1) as Fc.
      rewrite lines_in_app by (exact (run_length _ _ _ _ _ _ E1)).
      assert (T : exists old' h', lines_in gs out1 = old' ++ h' /\ I h' (tuned c1 (prepared o now c1 g w)) /\ st_ok (tuned c1 (prepared o now c1 g w))).
      { destruct (tuned_cases c1 (prepared o now c1 g w)) as [->|(p & ->)].
        - exists old, h. split; [exact D|]. split; [exact Hh|apply Fc].
        - exists (lines_in gs out1), []. rewrite app_nil_r. split; [reflexivity|]. split; [apply New_pi|apply station_new_pi_ok]. }
      destruct T as (old' & h' & D' & Ht & Hs).
      pose proof (group_history h' now c1 g w c line Fc Rg Ht Hs E2) as G. eexists old', _. split; [|exact G].
      rewrite D', <- app_assoc. f_equal. f_equal. destruct line; reflexivity.
  Qed.

  Lemma steady_lines : forall p gs h0 c c' out, ch_fine c -> locked p c -> I h0 (ch_station c) ->
    Forall received_group gs -> Forall (stays p) gs -> run_groups env o c gs = Ok (c', out) ->
    locked p c' /\ ch_fine c' /\ I (h0 ++ lines_in gs out) (ch_station c').
  Proof.
    pose proof (host_text_txt env HT) as Et.
    intros p gs. induction gs as [|[[now g] w] gs IH] using rev_ind; intros h0 c c' out Hc L I0 F S E.
    - injection E as <- <-. unfold lines_in. cbn [combine flat_map]. rewrite app_nil_r. auto.
    - apply Forall_app in F. destruct F as [F1 F2]. inversion F2 as [|? ? Rg _]; subst.
      apply Forall_app in S. destruct S as [S1 S2]. inversion S2 as [|? ? R _]; subst.
      destruct (run_snoc _ _ _ _ _ _ _ _ _ E) as (c1 & out1 & line & E1 & E2 & ->).
      destruct (IH h0 c c1 out1 Hc L I0 F1 S1 E1) as (L1 & Hc1 & I1).
      split; [exact (locked_step _ _ _ _ _ _ _ _ _ OJ L1 R E2)|]. split; [exact (process_fine _ _ _ _ _ _ _ _ H Et Hc1 (proj1 Rg) E2)|].
      rewrite lines_in_app by (exact (run_length _ _ _ _ _ _ E1)). rewrite app_assoc.
      pose proof (locked_tuned p c1 o now g w L1 R) as Tu.
      pose proof (group_history (h0 ++ lines_in gs out1) now c1 g w c' line Hc1 Rg) as G. rewrite Tu in G. specialize (G I1 (proj1 (proj2 (proj1 Hc1))) E2) || specialize (G I1 ltac:(apply Hc1) E2).
      replace (lines_in [(now, g, w)] [line]) with (match line with Some l => [(g, w, l)] | None => [] end) by (destruct line; reflexivity). exact G.
  Qed.

  (* A group of an additional data stream is always shown while a station is received *)
  Lemma type_c_printed : forall p now c g w c' line, locked p c -> type_c g w = true -> processGroup env o now c g w = Ok (c', line) -> exists l, line = Some l.
  Proof.
    intros p now c g w c' line L T E. destruct (process_station env o now c g w c' line OJ E) as (_ & _ & _ & Sl).
    destruct line as [l|]; [exists l; reflexivity|]. exfalso. assert (Si : silent (tuned c (prepared o now c g w)) (prepared o now c g w) = true) by (apply Sl; reflexivity).
    assert (Vc : Version_eqb (gt_version (g_type (prepared o now c g w))) VC = true).
    { rewrite prepared_type. unfold type_c in T. destruct (w =? 0); [|reflexivity]. cbn [negb orb] in T. apply andb_prop in T. apply T. }
    assert (Cp : carried_pi (now, g, w) = None).
    { unfold carried_pi. unfold type_c in T. destruct (w =? 0); [|reflexivity]. cbn [negb orb] in T. apply andb_prop in T. destruct T as [_ T]. destruct (gt_version (g_type g)); try discriminate. reflexivity. }
    rewrite (locked_tuned p c o now g w L (or_introl Cp)) in Si. unfold silent in Si. rewrite (locked_has_pi p c L) in Si. cbn [negb orb] in Si.
    unfold is_C in Si. rewrite Vc in Si. discriminate Si.
  Qed.
End TraceL.
