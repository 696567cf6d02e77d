(* How a time is written. *)
From Verif.Model Require Import Base Util Group Options Json RdsString Tmc Station Channel.
From Verif.Spec Require Import Session Quality TimeText Identity.
From Verif.Proofs Require Import Tac Numerals UpdateP HistoryP.

Local Open Scope N_scope.
Local Open Scope list_scope.

Lemma replace_eq : forall by_ c s, replace_percent_f by_ (c :: s) =
  if (c =? 37) && match s with d :: _ => d =? 102 | [] => false end then Some (by_ ++ tl s)
  else match replace_percent_f by_ s with Some r => Some (c :: r) | None => None end.
Proof.
  intros by_ c s. destruct (N.eqb_spec c 37) as [->|Ne].
  - destruct s as [|d r]; [reflexivity|]. cbn [andb]. destruct (N.eqb_spec d 102) as [->|Nd]; [reflexivity|].
    cbn [replace_percent_f]. destruct d as [|p]; [reflexivity|]. repeat (destruct p as [p|p|]; try reflexivity). exfalso. apply Nd. reflexivity.
  - cbn [replace_percent_f andb]. destruct c as [|p]; [reflexivity|]. repeat (destruct p as [p|p|]; try reflexivity). exfalso. apply Ne. reflexivity.
Qed.
Lemma replaced : forall by_ a b, no_f a -> replace_percent_f by_ (a ++ bs "%f" ++ b) = Some (a ++ by_ ++ b).
Proof.
  intros by_. induction a as [|c a IH]; intros b Nf; [reflexivity|].
  assert (Nf' : no_f a) by (intros x y E; apply (Nf (c :: x) y); rewrite E; reflexivity).
  cbn [app]. rewrite replace_eq, (IH b Nf').
  destruct ((c =? 37) && _) eqn:E; [|reflexivity]. exfalso. apply andb_true_iff in E. destruct E as [E1 E2]. apply N.eqb_eq in E1. subst c.
  destruct a as [|d a]; [discriminate E2|]. cbn [app] in E2. apply N.eqb_eq in E2. subst d. apply (Nf [] a). reflexivity.
Qed.
Lemma not_replaced : forall by_ a, no_f a -> replace_percent_f by_ a = None.
Proof.
  intros by_. induction a as [|c a IH]; intros Nf; [reflexivity|].
  assert (Nf' : no_f a) by (intros x y E; apply (Nf (c :: x) y); rewrite E; reflexivity).
  rewrite replace_eq, (IH Nf'). destruct ((c =? 37) && _) eqn:E; [|reflexivity]. exfalso. apply andb_true_iff in E. destruct E as [E1 E2]. apply N.eqb_eq in E1. subst c.
  destruct a as [|d a]; [discriminate E2|]. apply N.eqb_eq in E2. subst d. apply (Nf [] a). reflexivity.
Qed.
Lemma whole_plain : forall c r, c <> 37 -> whole (c :: r) = whole r.
Proof. intros c r Ne. cbn [whole]. destruct c as [|p]; [reflexivity|]. repeat (destruct p as [p|p|]; try reflexivity). exfalso. apply Ne. reflexivity. Qed.
Lemma whole_app : forall a b, whole a = true -> whole b = true -> whole (a ++ b) = true.
Proof.
  intros a. remember (length a) as n eqn:L. assert (Hn : (length a <= n)%nat) by lia. clear L. revert a Hn. induction n as [|n IH]; intros [|c a] L b A B; cbn [length] in L; try exact B; [lia|].
  cbn [app]. destruct (N.eqb_spec c 37) as [->|Ne].
  - cbn [whole] in *. destruct a as [|d a]; [discriminate|]. cbn [app]. apply andb_true_iff in A. destruct A as [A1 A2]. rewrite A1. cbn [andb]. apply IH; [cbn [length] in L; lia|exact A2|exact B].
  - rewrite whole_plain in * by exact Ne. apply IH; [lia|exact A|exact B].
Qed.
Lemma digit_string : forall z, (0 <= z < 10)%Z -> dec_string_Z z = [48 + Z.to_N z].
Proof.
  intros z H. assert (K : (z = 0 \/ z = 1 \/ z = 2 \/ z = 3 \/ z = 4 \/ z = 5 \/ z = 6 \/ z = 7 \/ z = 8 \/ z = 9)%Z) by lia.
  repeat (destruct K as [->|K]; [reflexivity|]). rewrite K. reflexivity.
Qed.

Lemma time_written : forall env expand format t s, strftime_is env expand -> (0 <= t)%Z -> time_text expand format t s ->
  getTimePointString env t format = shown_text s.
Proof.
  intros env expand format t s (Sa & Sc & Sf) T0 X. unfold getTimePointString. cbv zeta.
  assert (Q : Z.quot t 1000000000 = (t / 1000000000)%Z) by (apply Z.quot_div_nonneg; lia).
  rewrite Q. remember (t / 1000000000)%Z as sec eqn:Es.
  assert (Em : (t - sec * 1000000000 = t mod 1000000000)%Z) by (subst sec; pose proof (Z.div_mod t 1000000000); lia).
  rewrite Em. pose proof (Z.mod_pos_bound t 1000000000 ltac:(lia)) as Bm. remember (t mod 1000000000)%Z as m eqn:Dm.
  assert (Q2 : Z.quot m 1000000 = (m / 1000000)%Z) by (apply Z.quot_div_nonneg; lia). rewrite Q2.
  assert (B2 : (0 <= m / 1000000 < 1000)%Z) by (split; [apply Z.div_pos; lia|apply Z.div_lt_upper_bound; lia]).
  assert (D1 : Z.rem (Z.quot (m / 1000000) 10) 10 = ((m / 10000000) mod 10)%Z).
  { rewrite Z.quot_div_nonneg, Z.rem_mod_nonneg by (try apply Z.div_pos; lia). rewrite Z.div_div by lia. reflexivity. }
  assert (D2 : Z.rem (Z.quot (m / 1000000) 100) 10 = ((m / 10000000) / 10)%Z).
  { rewrite Z.quot_div_nonneg, Z.rem_mod_nonneg by (try apply Z.div_pos; lia). rewrite !Z.div_div by lia. rewrite Z.mod_small; [reflexivity|]. split; [apply Z.div_pos; lia|apply Z.div_lt_upper_bound; lia]. }
  rewrite D1, D2. assert (B3 : (0 <= m / 10000000 < 100)%Z) by (split; [apply Z.div_pos; lia|apply Z.div_lt_upper_bound; lia]).
  unfold time_text in X. cbv zeta in X. rewrite <- Es, <- Dm in X. remember (m / 10000000)%Z as h eqn:Dh.
  rewrite !digit_string by (split; [first [apply Z.div_pos; lia|apply Z.mod_pos_bound; lia]|first [apply Z.div_lt_upper_bound; lia|apply Z.mod_pos_bound; lia]]).
  change ([48 + Z.to_N (h / 10)] ++ [48 + Z.to_N (h mod 10)]) with (two h).
  destruct X as [(W & Nf & ->)|(a & b & -> & Wa & Wb & Nf & ->)].
  - rewrite not_replaced by exact Nf. rewrite Sf by exact W. unfold shown_text. destruct (_ && _); reflexivity.
  - rewrite replaced by exact Nf.
    assert (Hh : (0 <= h / 10 < 10)%Z) by (split; [apply Z.div_pos; lia|apply Z.div_lt_upper_bound; lia]).
    pose proof (Z.mod_pos_bound h 10 ltac:(lia)) as Hm.
    assert (W2 : whole (two h) = true) by (unfold two; rewrite !whole_plain by lia; reflexivity).
    assert (E2 : expand (two h) sec = two h).
    { unfold two. change [48 + Z.to_N (h / 10); 48 + Z.to_N (h mod 10)] with ([48 + Z.to_N (h / 10)] ++ [48 + Z.to_N (h mod 10)]).
      rewrite Sa by (rewrite whole_plain by lia; reflexivity). rewrite !Sc by lia. reflexivity. }
    rewrite Sf by (apply whole_app; [exact Wa|apply whole_app; assumption]).
    rewrite (Sa a) by (try exact Wa; apply whole_app; assumption). rewrite (Sa (two h)) by assumption. rewrite E2. unfold shown_text. destruct (_ && _); reflexivity.
Qed.

(* ---- hex output ---- *)
Lemma hex_line : forall env o g g', o_timestamp o = true -> g_b1 g = g_b1 g' -> g_b2 g = g_b2 g' -> g_b3 g = g_b3 g' -> g_b4 g = g_b4 g' -> g_data_stream g = g_data_stream g' ->
  printAsHex env o g = match printAsHex env (without_times o) g' with
                       | Some h => Some (h ++ [32] ++ getTimePointString env (g_time_received g) (o_time_format o)) | None => None end.
Proof.
  intros env o g g' OT E1 E2 E3 E4 Es. unfold printAsHex. rewrite OT. change (o_timestamp (without_times o)) with false.
  assert (Ee : g_isEmpty g = g_isEmpty g') by (unfold g_isEmpty, g_has; cbn; rewrite E1, E2, E3, E4; reflexivity).
  assert (Eh : g_printHex g = g_printHex g') by (unfold g_printHex; rewrite E1, E2, E3, E4; reflexivity).
  rewrite Ee, Eh, Es. destruct (g_isEmpty g'); [reflexivity|]. rewrite app_nil_r, <- app_assoc. reflexivity.
Qed.
Lemma seen_blocks : forall o now c g w, let g' := prepared o now c g w in g_b1 g' = g_b1 g /\ g_b2 g' = g_b2 g /\ g_b3 g' = g_b3 g /\ g_b4 g' = g_b4 g /\ g_data_stream g' = w.
Proof.
  intros o now c g w. cbv zeta. unfold prepared, streamed, measured, stamped. destruct (o_timestamp o && negb (g_has_time g)); destruct (o_bler o); destruct (w =? 0); repeat split.
Qed.
Lemma seen_time : forall o now c g w, o_timestamp o = true -> g_has_time g = false -> (ch_last_group_rx_time c <= now)%Z -> g_time_received (prepared o now c g w) = now.
Proof.
  intros o now c g w OT U L. unfold prepared, streamed, measured, stamped. rewrite OT, U. cbn [andb negb]. replace (now <? ch_last_group_rx_time c)%Z with false by (symmetry; apply Z.ltb_ge; exact L).
  destruct (o_bler o); destruct (w =? 0); reflexivity.
Qed.
Lemma hex_stamped : forall env o, o_output_type o = OutHex -> o_timestamp o = true ->
  forall gs c d c' d' out plain, Forall (fun x : Z * Group * N => g_has_time (snd (fst x)) = false) gs ->
  Forall (fun x => (ch_last_group_rx_time c <= fst (fst x))%Z) gs -> Sorted.StronglySorted Z.le (map (fun x => fst (fst x)) gs) ->
  run_groups env o c gs = Ok (c', out) -> run_groups env (without_times o) d gs = Ok (d', plain) ->
  Forall2 (fun x line => line = match snd x with Some h => Some (h ++ [32] ++ getTimePointString env (fst (fst (fst x))) (o_time_format o)) | None => None end) (combine gs plain) out.
Proof.
  intros env o OH OT. induction gs as [|[[now g] w] gs IH]; intros c d c' d' out plain U L S E P; cbn [run_groups] in E, P.
  - injection E as _ <-. injection P as _ <-. constructor.
  - rewrite Forall_cons_iff in U, L. destruct U as [Ux U]. destruct L as [Lx L]. cbn [map fst snd] in *. inversion S as [|? ? S1 F1]; subst.
    destruct (processGroup env o now c g w) as [[c1 l1]| |] eqn:P1; cbn [bind] in E; try discriminate.
    destruct (run_groups env o c1 gs) as [[c2 o2]| |] eqn:E2; cbn [bind] in E; try discriminate. injection E as <- <-.
    destruct (processGroup env (without_times o) now d g w) as [[d1 p1]| |] eqn:Q1; cbn [bind] in P; try discriminate.
    destruct (run_groups env (without_times o) d1 gs) as [[d2 p2]| |] eqn:P2; cbn [bind] in P; try discriminate. injection P as <- <-.
    pose proof (process_last _ _ _ _ _ _ _ _ P1) as Ll. unfold stamp_time in Ll. rewrite OT, Ux in Ll. cbn [andb negb] in Ll.
    cbn [combine]. constructor.
    + rewrite process_eq in P1, Q1. change (o_output_type (without_times o)) with (o_output_type o) in Q1. rewrite OH in P1, Q1. cbn [fst snd].
      assert (l1 = printAsHex env o (prepared o now c g w)) as -> by congruence. assert (p1 = printAsHex env (without_times o) (prepared (without_times o) now d g w)) as -> by congruence.
      destruct (seen_blocks o now c g w) as (A1 & A2 & A3 & A4 & A5). destruct (seen_blocks (without_times o) now d g w) as (B1 & B2 & B3 & B4 & B5).
      rewrite (hex_line env o _ (prepared (without_times o) now d g w) OT) by congruence. rewrite seen_time by assumption. reflexivity.
    + apply (IH c1 d1 c2 d2 o2 p2 U); [|exact S1|exact E2|exact P2]. rewrite Ll. clear - F1. rewrite Forall_forall in *. intros x X. apply F1. apply in_map_iff. exists x. split; [reflexivity|exact X].
Qed.
