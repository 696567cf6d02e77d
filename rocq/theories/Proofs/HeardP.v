(* From bits on the air to what is decided by the groups received (C117). *)
From Verif.Model Require Import Base Util Float Group BlockSync Options Tables Freq RdsString Rft Json Tmc Station Channel Input Dsp Main.
From Verif.Spec Require Import RdsCode RdsStream Reception Inputs Unicode JsonText Session Identity Frequencies Calendar Clock Texts History Received Program Recording OnAir Host Recovery Apps Traffic Plus Enhanced Heard.
From Verif.Proofs Require Import Tac UpdateP SessionP ShowP ChannelP HistoryP HostP PsP RtP EndP LpsP AfP LossP InputP MainP Ring BlockSyncP BlockSyncE RecordP AirP BlockSyncS AgainP PartsP AgainTextP.

Definition given (t : TxGroup) (x : Z * Group * N) : Prop := exists e, handed (t, e) x.

Section Heard.
  Variables (env : Env) (o : Options).
  Hypothesis H : host_ok env.

  (* What is known of the groups decoded *)
  Definition situation (input : bytes) (p : N) (ts : list TxGroup) (gs0 gb : list (Z * Group * N)) : Prop :=
    Forall received_group (gs0 ++ gb) /\ three p (pis gs0) /\ Forall (fun x => carried_pi x = Some p) gb /\ Forall2 given ts gb /\
    (forall x, In x (groups_of (gs0 ++ gb)) -> In x (found_in (o_use_fec o) input)).

  Lemma handed_pi : forall p l m, Forall (fun x : TxGroup * (N * N * N * N) => tx1 (fst x) = p) l -> Forall2 handed l m -> Forall (fun x => carried_pi x = Some p) m.
  Proof.
    intros p l m Fl D. induction D as [|y x l m [D1 W1] D IH]; [constructor|]. apply Forall_cons_iff in Fl. destruct Fl as [F1 F2].
    destruct x as [[n g] w]. cbn [fst snd] in *. subst w.
    constructor; [rewrite (delivered_pi _ _ (n, g, 0) D1 eq_refl), F1; reflexivity|apply IH, F2].
  Qed.
  Lemma three_handed : forall p gs0 ga, Forall (fun x => carried_pi x = Some p) ga -> (3 <= length ga)%nat -> three p (pis (gs0 ++ ga)).
  Proof.
    intros p gs0 ga Q L. unfold three, pis. rewrite flat_map_app.
    assert (X : flat_map (fun x => match carried_pi x with Some p => [p] | None => [] end) ga = repeat p (length ga))
      by (clear - Q; induction Q as [|x ga Q _ IH]; [reflexivity|]; cbn [flat_map length repeat app]; rewrite Q, IH; reflexivity).
    rewrite X. exists (flat_map (fun x => match carried_pi x with Some p => [p] | None => [] end) gs0 ++ repeat p (length ga - 3)).
    rewrite <- app_assoc. f_equal. change [p; p; p] with (repeat p 3). rewrite <- repeat_app. f_equal. lia.
  Qed.
  Lemma handed_given : forall l m, Forall2 handed l m -> Forall2 given (map fst l) m.
  Proof. intros l m D. induction D as [|[t e] x l m D1 D IH]; cbn [map fst]; constructor; [exists e; exact D1|exact IH]. Qed.

  Lemma heard_groups : forall clock t input p ts, heard (o_use_fec o) input p ts -> exists gs0 gb c out c' more,
    situation input p ts gs0 gb /\ run_groups env o (Channel_new o 0) (gs0 ++ gb) = Ok (c, out) /\
    run_groups env o c more = Ok c' /\ processASCIIBitsInput env o clock t input = Ok (EXIT_SUCCESS, Main.lines_of 0 (out ++ snd c')).
  Proof.
    intros clock t input p ts Hd. destruct (bits_as_groups env o clock t input H) as (gs & c & out & M & W & Rg & Er & Ep).
    assert (Ag : forall x, In x (groups_of gs) -> In x (found_in (o_use_fec o) input)).
    { intros x X. unfold groups_of in X. apply in_map_iff in X. destruct X as (y & <- & Y). rewrite Forall_forall in W. rewrite (W y Y).
      unfold found_in. rewrite <- M, map_map. apply in_map_iff. exists y. split; [reflexivity|exact Y]. }
    destruct Hd as [(pre & b & ws0 & tes0 & tes & rest & Ts & I & L & A & F & R & K & E & P & T0)|(bits0 & ts0 & ts1 & rest & I & L0 & F0 & F & C & R & P & L1)].
    - assert (Q : groups_after (o_use_fec o) [] (ascii_bits input) =
        groups_after (o_use_fec o) [] (pre ++ [b] ++ flat_map block_bits ws0) ++ groups_after (o_use_fec o) (pre ++ [b] ++ flat_map block_bits ws0) (flat_map rx_bits (tes0 ++ tes))).
      { rewrite ascii_bits_spec, I. rewrite <- (nothing_more (o_use_fec o) pre b ws0 (tes0 ++ tes) (rest ++ [false]) A F R); [|rewrite app_length; cbn; lia|exact K|exact E].
        rewrite <- groups_after_app. f_equal. rewrite <- !app_assoc. reflexivity. }
      rewrite Q in M. apply map_split in M. destruct M as (g0 & gs1 & -> & _ & M1).
      pose proof (delivery (o_use_fec o) pre b ws0 (tes0 ++ tes) A F R K E) as D. rewrite <- M1 in D.
      assert (D' : Forall2 handed (tes0 ++ tes) gs1).
      { apply Forall_app in W. destruct W as [_ W]. clear - D W. revert D. generalize (tes0 ++ tes). induction W as [|x gs1 Wx W IH]; intros q D; cbn [map] in D; inversion D; subst; constructor; [split; assumption|apply IH; assumption]. }
      apply Forall2_app_inv_l in D'. destruct D' as (ga & gb & Da & Db & ->). apply Forall_app in P. destruct P as [Pa Pb].
      exists (g0 ++ ga), gb, c, out, (c, []), []. split; [|split; [|split]].
      + repeat split.
        * rewrite <- app_assoc. exact Rg.
        * apply three_handed; [exact (handed_pi _ _ _ Pa Da)|]. assert (Le : length tes0 = length ga) by (clear - Da; induction Da; cbn [length]; congruence). lia.
        * exact (handed_pi _ _ _ Pb Db).
        * rewrite <- Ts. apply handed_given, Db.
        * intros x X. apply Ag. rewrite <- app_assoc in X. exact X.
      + rewrite <- app_assoc. exact Er.
      + reflexivity.
      + cbn [snd]. rewrite app_nil_r. exact Ep.
    - cbv zeta in *. set (bits := bits0 ++ flat_map tx_bits ts0) in *.
      assert (Q : groups_after (o_use_fec o) [] (ascii_bits input) =
        groups_after (o_use_fec o) [] bits ++ groups_after (o_use_fec o) bits (flat_map tx_bits (ts1 ++ ts)) ++ groups_after (o_use_fec o) (bits ++ flat_map tx_bits (ts1 ++ ts)) (rest ++ [false])).
      { rewrite ascii_bits_spec, I. rewrite <- groups_after_more, <- groups_after_app. f_equal. rewrite <- !app_assoc. reflexivity. }
      rewrite Q in M. apply map_split in M. destruct M as (g0 & gsr & -> & _ & M). apply map_split in M. destruct M as (gs1 & gs2 & -> & M1 & _).
      destruct (recovery (o_use_fec o) bits0 ts0 (ts1 ++ ts) L0 F0 F C R) as [D _]. fold bits in D. rewrite <- M1 in D.
      rewrite app_assoc in Er. rewrite run_groups_app in Er.
      destruct (run_groups env o (Channel_new o 0) (g0 ++ gs1)) as [[c1 out1]| |] eqn:E1; cbn [bind] in Er; try discriminate.
      destruct (run_groups env o c1 gs2) as [[c2 out2]| |] eqn:E2; cbn [bind] in Er; try discriminate.
      assert (Eo : out = out1 ++ out2) by congruence. subst out.
      assert (Dl : Forall2 handed (map clean ts1 ++ map clean ts) gs1).
      { rewrite <- map_app. apply Forall_app in W. destruct W as [_ W]. apply Forall_app in W. destruct W as [W _].
        clear - D W. revert gs1 D W. induction (ts1 ++ ts) as [|x l IH]; intros gs1 D W.
        - destruct gs1; [constructor|inversion D].
        - destruct gs1 as [|y gs1]; [inversion D|]. cbn [map] in D |- *. inversion D; subst. inversion W; subst. constructor; [split; assumption|apply IH; assumption]. }
      apply Forall2_app_inv_l in Dl. destruct Dl as (ga & gb & Da & Db & ->). apply Forall_app in P. destruct P as [Pa Pb].
      assert (Pc : forall l, Forall (fun x => tx1 x = p) l -> Forall (fun x : TxGroup * (N * N * N * N) => tx1 (fst x) = p) (map clean l)).
      { intros l Fl. apply Forall_forall. intros x X. apply in_map_iff in X. destruct X as (y & <- & Y). rewrite Forall_forall in Fl. exact (Fl y Y). }
      exists (g0 ++ ga), gb, c1, out1, (c2, out2), gs2. split; [|split; [|split]].
      + assert (In1 : forall x, In x (groups_of ((g0 ++ ga) ++ gb)) -> In x (groups_of (g0 ++ (ga ++ gb) ++ gs2))).
        { intros x X. unfold groups_of in *. rewrite app_assoc, map_app. apply in_or_app. left. rewrite app_assoc. exact X. }
        repeat split.
        * rewrite <- app_assoc. rewrite app_assoc in Rg. apply Forall_app in Rg. exact (proj1 Rg).
        * apply three_handed; [exact (handed_pi _ _ _ (Pc _ Pa) Da)|]. assert (Le : length (map clean ts1) = length ga) by (clear - Da; induction Da; cbn [length]; congruence). rewrite map_length in Le. lia.
        * exact (handed_pi _ _ _ (Pc _ Pb) Db).
        * replace ts with (map fst (map clean ts)) by (rewrite map_map; apply map_id). apply handed_given, Db.
        * intros x X. apply Ag, In1, X.
      + rewrite <- app_assoc. exact E1.
      + exact E2.
      + cbn [snd]. exact Ep.
  Qed.

  (* What the last group shows is printed *)
  Lemma heard_line : forall clock t input p ts (Q : bytes -> Prop), heard (o_use_fec o) input p ts ->
    (forall gs0 gb c out, situation input p ts gs0 gb -> run_groups env o (Channel_new o 0) (gs0 ++ gb) = Ok (c, out) ->
      exists out' line, out = out' ++ [Some line] /\ Q line) ->
    exists items line more, processASCIIBitsInput env o clock t input = Ok (EXIT_SUCCESS, items ++ [Line 0 line] ++ more) /\ Q line.
  Proof.
    intros clock t input p ts Q Hd X. destruct (heard_groups clock t input p ts Hd) as (gs0 & gb & c & out & c' & more & S & Er & _ & Ep).
    destruct (X gs0 gb c out S Er) as (out' & line & -> & Ql). exists (Main.lines_of 0 out'), line, (Main.lines_of 0 (snd c')).
    split; [|exact Ql]. rewrite Ep, !lines_app. cbn. rewrite <- app_assoc. reflexivity.
  Qed.
End Heard.

(* The parts in the groups *)
Lemma given_parts : forall (A : Type) (f : Group * N -> list A) (h : TxGroup -> list A),
  (forall t x, given t x -> f (snd (fst x), snd x) = h t) ->
  forall ts gb, Forall2 given ts gb -> flat_map f (groups_of gb) = flat_map h ts.
Proof.
  intros A f h X ts gb D. induction D as [|t x ts gb D1 D IH]; [reflexivity|]. cbn [groups_of map flat_map]. rewrite (X _ _ D1). f_equal. exact IH.
Qed.
Lemma given_facts : forall t n g w, given t (n, g, w) -> w = 0 /\ g_has_type g = true /\ g_type g = mkGroupType (tx2 t / 4096) (if N.testbit (tx2 t) 11 then VB else VA) /\
  (blk_is_received (g_b1 g) = true /\ blk_is_received (g_b2 g) = true /\ blk_is_received (g_b3 g) = true /\ blk_is_received (g_b4 g) = true) /\
  blk_data (g_b2 g) = tx2 t /\ blk_data (g_b3 g) = tx3 t /\ blk_data (g_b4 g) = tx4 t.
Proof.
  intros t n g w [e [D W]]. cbn [fst snd] in *. subst w. destruct (bad4 e) as [[[f1 f2] f3] f4]. destruct D as ((H1 & _) & (H2 & G2 & _) & (H3 & G3 & _) & (H4 & G4 & _) & T & Ty & V).
  unfold g_has, g_get in *. cbn [g_block] in *. repeat split; try assumption. destruct (g_type g) as [a b]. cbn [gt_number gt_version] in *. congruence.
Qed.
Lemma given_type_name : forall t x, given t x -> pn_segment (snd (fst x), snd x) = type_name_part t.
Proof.
  intros t [[n g] w] D. cbn [fst snd]. destruct (given_facts t n g w D) as (-> & T & Ty & (_ & _ & R3 & R4) & G2 & G3 & G4).
  unfold pn_segment, type_name_part, carries, tx_type. rewrite T, Ty, R3, R4, G2, G3, G4. cbn [gt_number gt_version N.eqb andb].
  destruct (tx2 t / 4096 =? 10); [|reflexivity]. destruct (N.testbit (tx2 t) 11); reflexivity.
Qed.
Lemma given_long_name : forall t x, given t x -> long_segment (snd (fst x), snd x) = long_name_part t.
Proof.
  intros t [[n g] w] D. cbn [fst snd]. destruct (given_facts t n g w D) as (-> & T & Ty & (_ & _ & R3 & R4) & G2 & G3 & G4).
  unfold long_segment, long_name_part, tx_type. rewrite T, Ty, R3, R4, G2, G3, G4. cbn [gt_number gt_version N.eqb andb].
  destruct (tx2 t / 4096 =? 15); [|reflexivity]. destruct (N.testbit (tx2 t) 11); reflexivity.
Qed.
Lemma given_freq : forall t x, given t x -> af_events (snd (fst x), snd x) = freq_codes t.
Proof.
  intros t [[n g] w] D. cbn [fst snd]. destruct (given_facts t n g w D) as (-> & T & Ty & (_ & _ & R3 & R4) & G2 & G3 & G4).
  unfold af_events, freq_codes, tx_type. rewrite T, Ty, R3, G3. cbn [gt_number gt_version N.eqb andb].
  destruct (tx2 t / 4096 =? 0); [|reflexivity]. destruct (N.testbit (tx2 t) 11); reflexivity.
Qed.
Lemma given_items : forall t x, given t x -> app_items (snd (fst x), snd x) = tx_items t.
Proof.
  intros t [[n g] w] D. cbn [fst snd]. destruct (given_facts t n g w D) as (-> & T & Ty & (_ & R2 & R3 & R4) & G2 & G3 & G4).
  unfold app_items, tx_items, announcement, carries, tx_type. rewrite T, Ty, R2, R3, R4, G2, G3, G4. cbn [gt_number gt_version N.eqb andb]. rewrite ?andb_true_r.
  f_equal. destruct (tx2 t / 4096 =? 3); cbn [andb]; [|reflexivity]. destruct (N.testbit (tx2 t) 11); reflexivity.
Qed.
Lemma given_last : forall ts tn gb, Forall2 given (ts ++ [tn]) gb -> exists gb1 n g, gb = gb1 ++ [(n, g, 0)] /\ Forall2 given ts gb1 /\ given tn (n, g, 0).
Proof.
  intros ts tn gb D. apply Forall2_app_inv_l in D. destruct D as (gb1 & gl & D1 & Dl & ->). inversion Dl as [|? [[n g] w] ? ? Dg Dn]; subst. inversion Dn; subst.
  destruct (given_facts _ _ _ _ Dg) as [-> _]. exists gb1, n, g. split; [reflexivity|]. split; assumption.
Qed.
Lemma pi_stays : forall p gb, Forall (fun x => carried_pi x = Some p) gb -> Forall (stays p) gb.
Proof. intros p gb F. eapply Forall_impl; [|exact F]. intros x X. right. exact X. Qed.
Lemma pi_anyway : forall p (Q : Z * Group * N -> Prop) gb, Forall (fun x => carried_pi x = Some p) gb -> Forall (fun x => Q x -> carried_pi x = Some p) gb.
Proof. intros p Q gb F. eapply Forall_impl; [|exact F]. intros x X _. exact X. Qed.

(* The group that is heard last, on its own *)
Lemma heard_one : forall env o clock t input p ts tn (Q : bytes -> Prop), host_ok env -> host_text env -> o_output_type o = OutJSON -> p <> 0 ->
  heard (o_use_fec o) input p (ts ++ [tn]) ->
  (forall c n g c' line, reachable env o c -> received_group (n, g, 0) -> given tn (n, g, 0) -> station_of c' = Some p -> processGroup env o n c g 0 = Ok (c', Some line) -> Q line) ->
  exists items line more, processASCIIBitsInput env o clock t input = Ok (EXIT_SUCCESS, items ++ [Line 0 line] ++ more) /\ Q line.
Proof.
  intros env o clock t input p ts tn Q H HT OJ P0 Hd X.
  apply (heard_line env o H clock t input p (ts ++ [tn]) Q Hd). intros gs0 gb c out (Rg & T3 & Pi & Gv & Fi) Er.
  destruct (given_last ts tn gb Gv) as (gb1 & n & g & -> & G0 & Gn).
  assert (Pn : carried_pi (n, g, 0) = Some p) by (apply Forall_app in Pi; destruct Pi as [_ Pi]; exact (Forall_inv Pi)).
  destruct (last_shown (fun _ _ => True) env o H HT OJ (fun _ => I) (fun _ _ => I) (fun _ _ _ _ => I) (fun _ _ _ _ _ _ _ _ _ _ _ _ _ => I)
    0 gs0 gb1 n g 0 c out p Rg P0 T3 (pi_stays _ _ Pi) Pn Er) as (_ & _ & out0 & out1 & ln & _ & _ & _ & _ & Eo & _).
  assert (T3' : three p (pis (gs0 ++ gb1 ++ [(n, g, 0)]))).
  { destruct T3 as [e T3]. assert (K : pis (gb1 ++ [(n, g, 0)]) = repeat p (length (gb1 ++ [(n, g, 0)]))).
    { clear - Pi. unfold pis. induction Pi as [|x l Q _ IH]; [reflexivity|]. cbn [flat_map length repeat app]. rewrite Q, IH. reflexivity. }
    exists (e ++ repeat p (length (gb1 ++ [(n, g, 0)]))). unfold pis in *. rewrite flat_map_app, T3, K, <- !app_assoc. f_equal.
    change [p; p; p] with (repeat p 3). rewrite <- !repeat_app. f_equal. lia. }
  pose proof (three_adopted env o 0 _ c out p OJ Er P0 T3') as St.
  rewrite app_assoc in Er, Rg. destruct (run_snoc env o (gs0 ++ gb1) n g 0 _ _ _ Er) as (c1 & out2 & line & E1 & Eg & Eo2).
  assert (El : line = Some ln). { rewrite Eo2, app_assoc in Eo. apply app_inj_tail in Eo. exact (proj2 Eo). }
  exists out2, ln. split; [congruence|]. rewrite El in Eg. apply Forall_app in Rg. destruct Rg as [Rg0 Rg1].
  apply (X c1 n g c ln); try assumption; [|exact (Forall_inv Rg1)].
  exists (Channel_new o 0), (map as_call (gs0 ++ gb1)). eexists. split; [left; exists 0; reflexivity|]. split; [|exact (session_groups env o _ _ _ _ E1)].
  apply Forall_forall. intros y Y. apply in_map_iff in Y. destruct Y as ([[n1 g1] w1] & <- & Y). cbn [as_call possible].
  rewrite Forall_forall in Rg0. destruct (Rg0 _ Y) as [B1 _]. split; [exact B1|].
  assert (Z : In (g1, w1) (found_in (o_use_fec o) input)).
  { apply Fi. unfold groups_of. rewrite app_assoc, map_app. apply in_or_app. left. apply in_map_iff. exists (n1, g1, w1). split; [reflexivity|exact Y]. }
  unfold found_in in Z. apply in_map_iff in Z. destruct Z as (g2 & Z & _). assert (w1 = 0) as -> by congruence. reflexivity.
Qed.
Lemma given_is : forall t n g k b, given t (n, g, 0) -> tx_type t k b = true -> is_type g k (if b then VB else VA).
Proof.
  intros t n g k b G T. destruct (given_facts t n g 0 G) as (_ & Ht & Ty & _). unfold tx_type in T. apply andb_prop in T. destruct T as [T1 T2].
  apply N.eqb_eq in T1. apply Bool.eqb_prop in T2. split; [exact Ht|]. rewrite Ty, T1, T2. reflexivity.
Qed.

Lemma given_text : forall t x, given t x -> rt_segment (snd (fst x), snd x) = text_part t.
Proof.
  intros t [[n g] w] D. cbn [fst snd]. destruct (given_facts t n g w D) as (-> & T & Ty & (_ & _ & R3 & R4) & G2 & G3 & G4).
  unfold rt_segment, text_part, carries. rewrite T, Ty, R3, R4, G2, G3, G4. cbn [gt_number gt_version N.eqb andb].
  destruct (tx2 t / 4096 =? 2); [|reflexivity]. destruct (N.testbit (tx2 t) 11); reflexivity.
Qed.
Lemma given_assigns : forall t x, given t x -> announcement (snd (fst x), snd x) = tx_assigns t.
Proof.
  intros t [[n g] w] D. cbn [fst snd]. destruct (given_facts t n g w D) as (-> & T & Ty & (_ & R2 & R3 & R4) & G2 & G3 & G4).
  unfold announcement, tx_assigns, carries, tx_type. rewrite T, Ty, ?R2, ?R3, R4, G2, G4. cbn [gt_number gt_version N.eqb andb].
  destruct (tx2 t / 4096 =? 3); cbn [andb]; [|reflexivity]. destruct (N.testbit (tx2 t) 11); reflexivity.
Qed.
Lemma given_ert : forall ty t x, given t x -> ert_segment ty (snd (fst x), snd x) = ert_part ty t.
Proof.
  intros ty t [[n g] w] D. cbn [fst snd]. destruct (given_facts t n g w D) as (-> & T & Ty & (_ & R2 & R3 & R4) & G2 & G3 & G4).
  unfold ert_segment, ert_part. rewrite T, Ty, R3, R4, G2, G3, G4. reflexivity.
Qed.

Lemma Forall2_In_r : forall {A B} (R : A -> B -> Prop) l m y, Forall2 R l m -> In y m -> exists x, In x l /\ R x y.
Proof.
  intros A B R l m y F. induction F as [|a b l m Rb F IH]; intros I; [destruct I|]. destruct I as [<-|I].
  - exists a. split; [left; reflexivity|exact Rb].
  - destruct (IH I) as (x & X1 & X2). exists x. split; [right; exact X1|exact X2].
Qed.
Lemma given_pi : forall t n g w, given t (n, g, w) -> blk_data (g_b1 g) = tx1 t.
Proof.
  intros t n g w [e [D W]]. cbn [fst snd] in *. destruct (bad4 e) as [[[f1 f2] f3] f4]. destruct D as ((H1 & G1 & _) & _). unfold g_get in G1. cbn [g_block] in G1. exact G1.
Qed.
