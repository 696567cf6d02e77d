(* Two runs with different options: the lines agree in all members that the options do not concern. *)
From Verif.Model Require Import Base Util Float Group BlockSync Options Tables Freq RdsString Rft Json Tmc Station Channel Input Dsp Main.
From Verif.Spec Require Import Unicode JsonText Session OptionSets.
From Verif.Proofs Require Import Tac FreqP JsonP Schema StationP TextP CleanP ClockP BlerP UpdateP SessionP LineP FrameP ChannelP LinesP HistoryP ShowP GetP TraceP KeysP InputP HexP MainP.

Local Open Scope string_scope.
Local Open Scope N_scope.
Local Open Scope list_scope.

(* ---- two results ---- *)
Definition rel {A : Type} (R : A -> A -> Prop) (r r' : res A) : Prop := forall a a', r = Ok a -> r' = Ok a' -> R a a'.
Lemma rel_ok : forall (A : Type) (R : A -> A -> Prop) a a', R a a' -> rel R (Ok a) (Ok a').
Proof. intros A R a a' H x x' E E'. injection E as <-. injection E' as <-. exact H. Qed.
Lemma rel_bind : forall (A B : Type) (R : A -> A -> Prop) (S : B -> B -> Prop) m m' f f', rel R m m' -> (forall a a', R a a' -> rel S (f a) (f' a')) -> rel S (bind m f) (bind m' f').
Proof.
  intros A B R S m m' f f' H K x x' E E'. destruct m as [a| |]; cbn [bind] in E; try discriminate. destruct m' as [a'| |]; cbn [bind] in E'; try discriminate.
  exact (K a a' (H a a' eq_refl eq_refl) x x' E E').
Qed.
Lemma rel_eq : forall (A : Type) (r : res A), rel eq r r.
Proof. intros A r a a' E E'. congruence. Qed.

(* ---- values that agree outside some members ---- *)
Section Agree.
Variable K : string -> bool.
Definition agree (j j' : json) : Prop := exists m m', j = JObj m /\ j' = JObj m' /\ forall k, K k = false -> obj_find k m = obj_find k m'.
Definition agreeP {A : Type} (x y : A * json) : Prop := fst x = fst y /\ agree (snd x) (snd y).

Lemma find_put_eq : forall k k' v m, obj_find k' (obj_put k v m) = if String.eqb k' k then Some v else obj_find k' m.
Proof. intros k k' v m. apply obj_find_put. Qed.

Lemma jupd_agree : forall p f j j', p <> [] -> agree j j' -> rel agree (jupd p f j) (jupd p f j').
Proof.
  intros [|k p] f j j' Np (m & m' & -> & -> & A) x x' E E'; [contradiction|]. destruct (jupd_obj _ _ _ _ _ E) as (v & -> & Ev). destruct (jupd_obj _ _ _ _ _ E') as (v' & -> & Ev').
  eexists. eexists. split; [reflexivity|]. split; [reflexivity|]. intros q Q. rewrite !find_put_eq. destruct (String.eqb_spec q k) as [->|Ne]; [|exact (A q Q)].
  rewrite (A k Q) in Ev. congruence.
Qed.
Lemma jset_agree : forall p v j j', p <> [] -> agree j j' -> rel agree (jset p v j) (jset p v j').
Proof. intros. apply jupd_agree; assumption. Qed.
Lemma jpush_agree : forall p v j j', p <> [] -> agree j j' -> rel agree (jpush p v j) (jpush p v j').
Proof. intros. apply jupd_agree; assumption. Qed.
Lemma jpush_all_agree : forall p l j j', p <> [] -> agree j j' -> rel agree (jpush_all p l j) (jpush_all p l j').
Proof.
  intros p l. induction l as [|v l IH]; intros j j' Np A; cbn [jpush_all]; [apply rel_ok; exact A|]. eapply rel_bind; [apply jpush_agree; eassumption|]. intros a a' A'. apply IH; assumption.
Qed.
(* what is written to a member that may differ *)
Lemma jupd_left : forall k p f j j' x, K k = true -> agree j j' -> jupd (k :: p) f j = Ok x -> agree x j'.
Proof.
  intros k p f j j' x Kk (m & m' & -> & -> & A) E. destruct (jupd_obj _ _ _ _ _ E) as (v & -> & _). eexists. eexists. split; [reflexivity|]. split; [reflexivity|].
  intros q Q. rewrite find_put_eq. destruct (String.eqb_spec q k) as [->|Ne]; [congruence|exact (A q Q)].
Qed.
Lemma agree_sym : forall j j', agree j j' -> agree j' j.
Proof. intros j j' (m & m' & E & E' & A). exists m', m. repeat split; try assumption. intros k Q. symmetry. apply A, Q. Qed.
Lemma jupd_any : forall k p p' f f' j j', K k = true -> agree j j' -> rel agree (jupd (k :: p) f j) (jupd (k :: p') f' j').
Proof.
  intros k p p' f f' j j' Kk A x x' E E'. pose proof (jupd_left k p f j j' x Kk A E) as E2.
  apply agree_sym. exact (jupd_left k p' f' j' x x' Kk (agree_sym _ _ E2) E').
Qed.
Lemma jpush_all_left : forall k p l j j' x, K k = true -> agree j j' -> jpush_all (k :: p) l j = Ok x -> agree x j'.
Proof.
  intros k p l. induction l as [|v l IH]; intros j j' x Kk A E; cbn [jpush_all] in E; [injection E as <-; exact A|].
  unbind E. apply (IH y); [exact Kk| |exact E]. exact (jupd_left _ _ _ _ _ _ Kk A B).
Qed.
End Agree.

Ltac agr := first [assumption | apply agree_sym; assumption].
Ltac rstep := match goal with
  | |- rel eq ?r ?r => apply rel_eq
  | |- rel _ (UB _) _ => let X := fresh in intros ? ? X; discriminate X
  | |- rel _ (Throw _) _ => let X := fresh in intros ? ? X; discriminate X
  | |- rel _ (Ok _) (Ok _) => apply rel_ok; first [agr | split; [reflexivity|cbn [snd]; agr]]
  | |- rel (agree ?K) (jset ?p ?v _) (jset ?p ?v _) => apply jset_agree; [discriminate|agr]
  | |- rel (agree ?K) (jpush ?p ?v _) (jpush ?p ?v _) => apply jpush_agree; [discriminate|agr]
  | |- rel (agree ?K) (jpush_all ?p ?v _) (jpush_all ?p ?v _) => apply jpush_all_agree; [discriminate|agr]
  | |- rel (agree ?K) (debug _ _) (debug _ _) => unfold debug
  | |- rel (agreeP ?K) (bind (A := json) ?m _) (bind ?m' _) => eapply (rel_bind _ _ (agree K)); [|let a := fresh "j" in let b := fresh "j'" in let A := fresh "A" in intros a b A]
  | |- rel (agree ?K) (bind (A := json) ?m _) (bind ?m' _) => eapply (rel_bind _ _ (agree K)); [|let a := fresh "j" in let b := fresh "j'" in let A := fresh "A" in intros a b A]
  | |- rel (agreeP ?K) (bind (A := (_ * json)%type) ?m _) (bind ?m' _) => eapply (rel_bind _ _ (agreeP K)); [|let A := fresh "A" in let E := fresh "E" in intros [? ?] [? ?] [E A]; cbn [fst snd] in E, A; try rewrite <- E; clear E]
  | |- rel (agree ?K) (bind (A := (_ * json)%type) ?m _) (bind ?m' _) => eapply (rel_bind _ _ (agreeP K)); [|let A := fresh "A" in let E := fresh "E" in intros [? ?] [? ?] [E A]; cbn [fst snd] in E, A; try rewrite <- E; clear E]
  | |- rel _ (bind ?m _) (bind ?m _) => eapply rel_bind; [apply rel_eq|intros ? ? <-]
  | |- rel _ (if ?b then _ else _) (if ?b then _ else _) => destruct b
  | |- rel _ (match ?b with _ => _ end) (match ?b with _ => _ end) => destruct b
  end.
Ltac rwalk := cbv zeta; repeat rstep.

Section Decoders.
Variable K : string -> bool.
Notation agr2 := (@agreeP K _).

Lemma ag_PIN : forall pin path j j', agree K j j' -> rel agr2 (decodePIN pin path j) (decodePIN pin path j').
Proof. intros pin path j j' A. unfold decodePIN. destruct path; cbn [app]; rwalk. Qed.
Lemma ag_1 : forall st g j j', agree K j j' -> rel (agree K) (decodeType1 st g j) (decodeType1 st g j').
Proof. intros st g j j' A. unfold decodeType1. rwalk. all: try (apply ag_PIN; assumption). Qed.
Lemma ag_3A : forall st g j j', agree K j j' -> rel agr2 (decodeType3A st g j) (decodeType3A st g j').
Proof. intros st g j j' A. unfold decodeType3A, receiveSystemGroup. rwalk. Qed.
Lemma ag_4A : forall env g j j', agree K j j' -> rel (agree K) (decodeType4A env g j) (decodeType4A env g j').
Proof. intros env g j j' A. unfold decodeType4A. rwalk. Qed.
Lemma ag_5 : forall env st g j j', agree K j j' -> rel agr2 (decodeType5 env st g j) (decodeType5 env st g j').
Proof. intros env st g j j' A. unfold decodeType5. rwalk. Qed.
Lemma ag_6 : forall g j j', agree K j j' -> rel (agree K) (decodeType6 g j) (decodeType6 g j').
Proof. intros g j j' A. unfold decodeType6. rwalk. Qed.
Lemma ag_10A : forall env st g j j', agree K j j' -> rel agr2 (decodeType10A env st g j) (decodeType10A env st g j').
Proof. intros env st g j j' A. unfold decodeType10A. rwalk. Qed.
Lemma ag_15B : forall g j j', agree K j j' -> rel (agree K) (decodeType15B g j) (decodeType15B g j').
Proof. intros g j j' A. unfold decodeType15B. rwalk. Qed.
Lemma ag_DAB : forall g j j', agree K j j' -> rel (agree K) (parseDAB g j) (parseDAB g j').
Proof. intros g j j' A. unfold parseDAB. rwalk. Qed.
Lemma ag_plus : forall g rt path j j', agree K j j' -> rel agr2 (parseRadioTextPlus g rt path j) (parseRadioTextPlus g rt path j').
Proof.
  intros g rt path j j' A. unfold parseRadioTextPlus. cbv zeta.
  assert (T : forall rt path a b c j j', agree K j j' -> rel (agree K) (rtplus_tag rt path a b c j) (rtplus_tag rt path a b c j')).
  { intros. unfold rtplus_tag. destruct path0; cbn [app]; rwalk. }
  eapply (rel_bind _ _ (agree K)); [destruct path; cbn [app]; rwalk|intros ? ? A1]. eapply (rel_bind _ _ (agree K)); [destruct path; cbn [app]; rwalk|intros ? ? A2].
  eapply (rel_bind _ _ (agree K)); [destruct (g_has g BLOCK3); [apply T; assumption|rwalk]|intros ? ? A3].
  eapply (rel_bind _ _ (agree K)); [destruct (_ && _); [apply T; assumption|rwalk]|intros ? ? A4]. rwalk.
Qed.
Lemma ag_ert : forall env st g j j', agree K j j' -> rel agr2 (parseEnhancedRT env st g j) (parseEnhancedRT env st g j').
Proof. intros env st g j j' A. unfold parseEnhancedRT. rwalk. Qed.
Lemma ag_loc : forall l n has lcd neg ext j j', agree K j j' -> rel (agree K) (decodeLocation l n has lcd neg ext j) (decodeLocation l n has lcd neg ext j').
Proof. intros l n has lcd neg ext j j' A. unfold decodeLocation. rwalk. Qed.
Lemma ag_tmc : forall env st g j j', agree K j j' -> rel agr2 (receiveTMC env st g j) (receiveTMC env st g j').
Proof.
  intros env st g j j' A. unfold receiveTMC, receiveUserGroup, finish_message, receiveTuningInfo. rwalk. all: apply ag_loc; assumption.
Qed.
Lemma ag_oda : forall env st g j j', agree K j j' -> rel agr2 (decodeODAGroup env st g j) (decodeODAGroup env st g j').
Proof.
  intros env st g j j' A. unfold decodeODAGroup. rwalk.
  all: first [apply ag_DAB; assumption | apply ag_plus; assumption | apply ag_ert; assumption | apply ag_tmc; assumption | idtac].
Qed.
Lemma ag_C : forall st g j j', agree K j j' -> rel agr2 (decodeC st g j) (decodeC st g j').
Proof. intros st g j j' A. unfold decodeC, decodeC_rft, decodeC_assign. rwalk. Qed.
End Decoders.

(* ---- the decoders that look at the options ---- *)
Definition partial_members : list string := ["partial_ps"; "partial_alt_frequencies"; "partial_radiotext"; "partial_long_ps"; "rt_ab"; "debug"].
Section Options.
Variable K : string -> bool.
Variables o o' : Options.
Hypothesis HP : o_show_partial o = o_show_partial o' \/ forall k, In k partial_members -> K k = true.
Hypothesis HR : o_rbds o = o_rbds o' \/ K "other_network" = true.
Notation agr2 := (@agreeP K _).

Lemma one_sided : forall (A : Type) (a : A) k p f j j', K k = true -> agree K j j' -> rel agr2 (j1 <- jupd (k :: p) f j ;; Ok (a, j1)) (Ok (a, j')).
Proof.
  intros A a k p f j j' Kk Aj x x' E E'. unbind E. injection E as <-. injection E' as <-. split; [reflexivity|]. exact (jupd_left K k p f j j' y Kk Aj B).
Qed.
Lemma rel_sym2 : forall (A : Type) (r r' : res (A * json)), rel agr2 r r' -> rel agr2 r' r.
Proof. intros A r r' H x x' E E'. destruct (H x' x E' E) as [X Y]. split; [symmetry; exact X|apply agree_sym, Y]. Qed.

Lemma ag_AF : forall l b3 j j', agree K j j' -> rel agr2 (decodeAF o l b3 j) (decodeAF o' l b3 j').
Proof.
  intros l b3 j j' A. unfold decodeAF. destruct HP as [Eq|HPr]; [rewrite <- Eq; rwalk|]. assert (HD : K "debug" = true) by (apply HPr; cbn; tauto). assert (Kp : K "partial_alt_frequencies" = true) by (apply HPr; cbn; tauto).
  eapply rel_bind; [apply rel_eq|intros l1 ? <-]. eapply rel_bind; [apply rel_eq|intros l2 ? <-]. destruct (af_isComplete l2); [rwalk|].
  destruct (o_show_partial o), (o_show_partial o'); [rwalk| | |rwalk]; [|apply rel_sym2; apply agree_sym in A].
  all: intros x x' E E'; do 2 unbind E; injection E as <-; injection E' as <-; split; [reflexivity|]; cbn [snd]; eapply jpush_all_left; [exact Kp|exact A|eassumption].
Qed.
Lemma ag_0 : forall env st g j j', agree K j j' -> rel agr2 (decodeType0 env o st g j) (decodeType0 env o' st g j').
Proof.
  intros env st g j j' A. unfold decodeType0. cbv zeta. do 3 (rstep; [rwalk|]). destruct (negb (g_has g BLOCK3)); [rwalk|].
  rstep; [destruct (Version_eqb _ _); [rstep; [apply ag_AF; assumption|rwalk]|rwalk]|]. destruct (negb _); [rwalk|]. destruct (s_isComplete _); [rwalk|].
  destruct HP as [Eq|HPr]; [rewrite <- Eq; rwalk|]. assert (HD : K "debug" = true) by (apply HPr; cbn; tauto). assert (Kp : K "partial_ps" = true) by (apply HPr; cbn; tauto).
  destruct (o_show_partial o), (o_show_partial o'); [rwalk| | |rwalk]; [|apply rel_sym2; apply agree_sym in A3].
  all: destruct (s_str _ _); apply one_sided; assumption.
Qed.
Lemma ag_2 : forall env st g j j', agree K j j' -> rel agr2 (decodeType2 env o st g j) (decodeType2 env o' st g j').
Proof.
  intros env st g j j' A. unfold decodeType2. cbv zeta. destruct (negb _); [rwalk|]. destruct (rt_isABChanged _ _) as [ch rt].
  destruct HP as [Eq|HPr]; [rewrite <- Eq; rwalk|]. assert (HD : K "debug" = true) by (apply HPr; cbn; tauto). assert (Kp : K "partial_radiotext" = true) by (apply HPr; cbn; tauto). assert (Ka : K "rt_ab" = true) by (apply HPr; cbn; tauto).
  assert (Ab : forall j0 j1 v, agree K j0 j1 -> rel (agree K) (jset ["rt_ab"] v j0) (Ok j1)).
  { intros j0 j1 v A0 x x' E E'. injection E' as <-. exact (jupd_left K _ _ _ _ _ _ Ka A0 E). }
  rstep.
  { destruct (o_show_partial o), (o_show_partial o'); [rwalk|apply Ab; exact A| |rwalk]. intros x x' E E'. apply agree_sym. exact (Ab _ _ _ (agree_sym _ _ _ A) _ _ E' E). }
  assert (C : forall rt (has : bool) message, rel agr2
    (if s_isComplete (rt_text rt) then j2 <- jset ["radiotext"] (JStr (rtrim (s_last_complete_string (rt_text rt)))) j0 ;; Ok (set_radiotext st rt, j2)
     else if has then j2 <- jset ["radiotext"] (JStr (rtrim message)) j0 ;; Ok (set_radiotext st rt, j2)
     else if o_show_partial o then
        match s_str (env_ucs2 env) (rt_text rt) with
        | Some t => match rtrim t with
                    | [] => Ok (set_radiotext st rt, j0)
                    | _ => j2 <- jset ["partial_radiotext"%string] (JStr t) j0 ;; Ok (set_radiotext st rt, j2)
                    end
        | None => j2 <- debug (env_what_iconv env) j0 ;; Ok (set_radiotext st rt, j2)
        end
      else Ok (set_radiotext st rt, j0))
    (if s_isComplete (rt_text rt) then j2 <- jset ["radiotext"] (JStr (rtrim (s_last_complete_string (rt_text rt)))) j'0 ;; Ok (set_radiotext st rt, j2)
     else if has then j2 <- jset ["radiotext"] (JStr (rtrim message)) j'0 ;; Ok (set_radiotext st rt, j2)
     else if o_show_partial o' then
        match s_str (env_ucs2 env) (rt_text rt) with
        | Some t => match rtrim t with
                    | [] => Ok (set_radiotext st rt, j'0)
                    | _ => j2 <- jset ["partial_radiotext"%string] (JStr t) j'0 ;; Ok (set_radiotext st rt, j2)
                    end
        | None => j2 <- debug (env_what_iconv env) j'0 ;; Ok (set_radiotext st rt, j2)
        end
      else Ok (set_radiotext st rt, j'0))).
  { intros rt0 has message. destruct (s_isComplete _); [rwalk|]. destruct has; [rwalk|].
    destruct (o_show_partial o), (o_show_partial o'); [rwalk| | |rwalk]; [|apply rel_sym2; apply agree_sym in A0].
    all: destruct (s_str _ _) as [t|]; [destruct (rtrim t); [rwalk|]|]; apply one_sided; assumption. }
  destruct (_ && _ && _ && _).
  - destruct (s_str _ _) as [t|]; [|rwalk]. match goal with |- rel _ (if s_isComplete (rt_text ?r) then _ else if ?h then _ else _) _ => exact (C r h (rtrim t)) end.
  - match goal with |- rel _ (if s_isComplete (rt_text ?r) then _ else _) _ => exact (C r false []) end.
Qed.
Lemma ag_14 : forall env st g j j', agree K j j' -> rel agr2 (decodeType14 env o st g j) (decodeType14 env o' st g j').
Proof.
  intros env st g j j' A. unfold decodeType14. destruct HR as [E|Ko].
  - unfold pty_string. rewrite <- E. rwalk. all: apply ag_PIN; assumption.
  - rwalk; try apply rel_ok; try (apply ag_PIN; assumption); try (eapply jupd_any; eassumption).
Qed.
Lemma ag_15A : forall env st g j j', agree K j j' -> rel agr2 (decodeType15A env o st g j) (decodeType15A env o' st g j').
Proof.
  intros env st g j j' A. unfold decodeType15A. cbv zeta. destruct (_ && _); [rwalk|].
  destruct HP as [Eq|HPr]; [rewrite <- Eq; rwalk|]. assert (HD : K "debug" = true) by (apply HPr; cbn; tauto). assert (Kp : K "partial_long_ps" = true) by (apply HPr; cbn; tauto).
  destruct (o_show_partial o), (o_show_partial o'); [rwalk| | |rwalk]; [|apply rel_sym2; apply agree_sym in A].
  all: destruct (s_str _ _); apply one_sided; assumption.
Qed.
Lemma ag_by_type : forall env st g j j', agree K j j' -> rel agr2 (decodeByType env o st g j) (decodeByType env o' st g j').
Proof.
  intros env st g j j' A. unfold decodeByType. rwalk.
  all: first [apply ag_0 | apply ag_1 | apply ag_2 | apply ag_3A | apply ag_4A | apply ag_5 | apply ag_6 | apply ag_10A | apply ag_14 | apply ag_15A | apply ag_15B | apply ag_tmc | apply ag_oda | apply ag_C | idtac]; assumption.
Qed.
End Options.

(* ---- the group, without what the channel adds to it ---- *)
Definition strip (g : Group) : Group :=
  mkGroup (g_type g) (g_b1 g) (g_b2 g) (g_b3 g) (g_b4 g) 0 (S754_zero false) (g_data_stream g) (g_has_type g) (g_has_c_prime g) false false (g_no_offsets g).
Lemma strip_type : forall env o st g j, decodeByType env o st g j = decodeByType env o st (strip g) j.
Proof. intros env o st [] j. reflexivity. Qed.
Lemma strip_had : forall st g, had st g = had st (strip g).
Proof. intros st []. reflexivity. Qed.
Lemma strip_silent : forall st g, silent st g = silent st (strip g).
Proof. intros st []. reflexivity. Qed.
Lemma strip_pi : forall c g, next_pi c g = next_pi c (strip g).
Proof. intros c []. reflexivity. Qed.
Lemma strip_tuned : forall c g, tuned c g = tuned c (strip g).
Proof. intros c []. reflexivity. Qed.
Lemma strip_raw : forall st g, raw_group st g = raw_group st (strip g).
Proof. intros st []. reflexivity. Qed.
Lemma strip_keys : forall o st g, type_keys o st g = type_keys o st (strip g).
Proof. intros o st []. reflexivity. Qed.

Definition alike_groups (o o' : Options) (g g' : Group) : Prop :=
  strip g = strip g' /\ (o_timestamp o = o_timestamp o' -> g_time_received g = g_time_received g' /\ g_has_time g = g_has_time g').
Definition alike_channels (o o' : Options) (c c' : Channel) : Prop :=
  ch_which_channel c = ch_which_channel c' /\ ch_cached_pi c = ch_cached_pi c' /\ ch_block_stream c = ch_block_stream c' /\ ch_station c = ch_station c' /\
  (o_bler o = o_bler o' -> ch_bler_average c = ch_bler_average c') /\ (o_timestamp o = o_timestamp o' -> ch_last_group_rx_time c = ch_last_group_rx_time c').

Lemma strip_prepared : forall o now c g w, strip (prepared o now c g w) = streamed (strip g) w.
Proof. intros o now c [] w. unfold prepared, streamed, measured, stamped. destruct (w =? 0), (o_bler o), (_ && _); reflexivity. Qed.
Lemma prepared_alike : forall o o' now c c' g g' w, alike_channels o o' c c' -> alike_groups o o' g g' ->
  strip (prepared o now c g w) = strip (prepared o' now c' g' w) /\
  (o_timestamp o = o_timestamp o' -> g_time_received (prepared o now c g w) = g_time_received (prepared o' now c' g' w)) /\
  (o_bler o = o_bler o' -> o_bler o = true -> g_bler (prepared o now c g w) = g_bler (prepared o' now c' g' w)) /\
  (o_timestamp o = o_timestamp o' -> stamp_time o now c g = stamp_time o' now c' g') /\
  (o_bler o = o_bler o' -> next_avg o c g = next_avg o' c' g').
Proof.
  intros o o' now c c' g g' w (_ & _ & _ & _ & Cb & Ct) [Gs Gt].
  assert (Ne : forall h, g_getNumErrors h = g_getNumErrors (strip h)) by (intros []; reflexivity).
  assert (En : g_getNumErrors g = g_getNumErrors g') by (rewrite (Ne g), (Ne g'), Gs; reflexivity).
  assert (Av : o_bler o = o_bler o' -> next_avg o c g = next_avg o' c' g').
  { intros E. unfold next_avg. rewrite <- E, (Cb E), En. reflexivity. }
  split; [rewrite !strip_prepared, Gs; reflexivity|]. split.
  { intros E. destruct (Gt E) as [T1 T2]. specialize (Ct E). unfold prepared, streamed, measured, stamped. rewrite <- E, <- T2, <- Ct.
    destruct (w =? 0), (o_bler o), (o_bler o'), (_ && _); cbn; first [reflexivity | exact T1]. }
  split.
  { intros E B. assert (X : forall o1 c1 g1, o_bler o1 = true -> g_bler (prepared o1 now c1 g1 w) = f32_mul (f32_of_Z 100) (ra_getAverage (next_avg o1 c1 g1))).
    { intros o1 c1 g1 B1. unfold prepared, streamed, measured. rewrite B1. unfold next_avg. rewrite B1, stamped_errors. destruct (w =? 0); reflexivity. }
    rewrite !X by congruence. rewrite (Av E). reflexivity. }
  split; [|exact Av]. intros E. destruct (Gt E) as [_ T2]. unfold stamp_time. rewrite <- E, <- T2, (Ct E). reflexivity.
Qed.

(* ---- headers ---- *)
Definition Kof (o o' : Options) (k : string) : bool := existsb (String.eqb k) (concerned o o').
Lemma Kof_in : forall o o' k, Kof o o' k = true <-> In k (concerned o o').
Proof.
  intros o o' k. unfold Kof. rewrite existsb_exists. split.
  - intros (x & I & E). apply String.eqb_eq in E. subst. exact I.
  - intros I. exists k. split; [exact I|apply String.eqb_refl].
Qed.
Lemma Kof_sym : forall o o' k, Kof o o' k = Kof o' o k.
Proof.
  intros o o' k. unfold Kof, concerned, differ. assert (S : forall a b, Bool.eqb a b = Bool.eqb b a) by (intros [] []; reflexivity). rewrite (S (o_timestamp o)), (S (o_bler o)), (S (o_show_raw o)), (S (o_streams o)), (S (o_rbds o)), (S (o_show_partial o)). rewrite (N.eqb_sym (o_num_channels o)).
  replace (Base.bytes_eqb (o_time_format o) (o_time_format o')) with (Base.bytes_eqb (o_time_format o') (o_time_format o)); [reflexivity|].
  apply Bool.eq_true_iff_eq. rewrite !FreqP.bytes_eqb_eq. split; congruence.
Qed.
Lemma find_single : forall k k0 v, k <> k0 -> obj_find k [(k0, v)] = None.
Proof. intros k k0 v N. cbn [obj_find]. destruct (String.eqb_spec k k0); [contradiction|reflexivity]. Qed.
Lemma find_if : forall (b : bool) k k0 v, k <> k0 -> obj_find k (if b then [(k0, v)] else []) = None.
Proof. intros [] k k0 v N; [apply find_single, N|reflexivity]. Qed.
Lemma find_ap : forall k a a' b b', obj_find k a = obj_find k a' -> obj_find k b = obj_find k b' -> obj_find k (a ++ b) = obj_find k (a' ++ b').
Proof. intros k a a' b b' A B. rewrite !obj_find_app, A, B. reflexivity. Qed.
Lemma differ_same : forall a b l k, ~ In k (differ a b l) -> a = b \/ ~ In k l.
Proof. intros a b l k H. unfold differ in H. destruct (Bool.eqb a b) eqn:E; [left; apply eqb_prop, E|right; exact H]. Qed.

Lemma header_alike : forall env o o' st g g' k, strip g = strip g' ->
  (o_timestamp o = o_timestamp o' -> g_time_received g = g_time_received g') ->
  g_has_bler g = o_bler o -> g_has_bler g' = o_bler o' -> (o_bler o = o_bler o' -> o_bler o = true -> g_bler g = g_bler g') ->
  ~ In k (concerned o o') -> obj_find k (header env o st g) = obj_find k (header env o' st g').
Proof.
  intros env o o' st g g' k Gs Gt B B' Gb Nk. unfold concerned in Nk. rewrite !in_app_iff in Nk.
  apply Decidable.not_or in Nk. destruct Nk as [N1 Nk]. apply Decidable.not_or in Nk. destruct Nk as [N2 Nk]. apply Decidable.not_or in Nk. destruct Nk as [N3 Nk].
  apply Decidable.not_or in Nk. destruct Nk as [N4 Nk]. apply Decidable.not_or in Nk. destruct Nk as [N5 Nk]. apply Decidable.not_or in Nk. destruct Nk as [N6 Nk].
  apply Decidable.not_or in Nk. destruct Nk as [N7 _].
  apply differ_same in N1, N3, N4, N5, N7.
  assert (C : is_C g = is_C g') by (change (is_C (strip g) = is_C (strip g')); rewrite Gs; reflexivity).
  assert (Ne : forall x, ~ In k [x] -> k <> x) by (intros x H E; apply H; left; symmetry; exact E).
  unfold header. rewrite C. apply find_ap.
  { destruct N5 as [E|N]; [|rewrite !find_if by auto; reflexivity]. rewrite <- E. replace (g_data_stream g') with (g_data_stream g) by (change (g_data_stream (strip g) = g_data_stream (strip g')); rewrite Gs; reflexivity). reflexivity. }
  apply find_ap; [reflexivity|]. apply find_ap.
  { destruct (is_C g'); [reflexivity|]. unfold call_member. destruct N7 as [E|N]; [rewrite <- E; reflexivity|].
    assert (X : forall b : bool, obj_find k (if b then match getCallsignFromPI (st_pi st) with [] => [] | s => [(if N.land (st_pi st) 0xF000 =? 0x1000 then "callsign_uncertain" else "callsign", JStr s)] end else []) = None).
    { intros []; [|reflexivity]. destruct (getCallsignFromPI _); [reflexivity|]. apply find_single. intros E. apply N. rewrite E. clear. destruct (_ =? 0x1000); cbn; tauto. }
    rewrite (X (o_rbds o)), (X (o_rbds o')). reflexivity. }
  apply find_ap.
  { destruct (String.eqb_spec k "rx_time") as [->|Nr]; [|rewrite !find_if by exact Nr; reflexivity].
    destruct N1 as [E|N]; [|exfalso; apply N; left; reflexivity]. rewrite <- E, (Gt E). destruct (Base.bytes_eqb (o_time_format o) (o_time_format o')) eqn:F; [|exfalso; apply N2; left; reflexivity].
    apply FreqP.bytes_eqb_eq in F. rewrite F. reflexivity. }
  apply find_ap.
  { rewrite B, B'. destruct N3 as [E|N]; [|rewrite !find_if by auto; reflexivity]. rewrite <- E. destruct (o_bler o) eqn:Eb; [|reflexivity]. unfold bler_value. rewrite (Gb E eq_refl). reflexivity. }
  apply find_ap.
  { destruct (N.eqb_spec (o_num_channels o) (o_num_channels o')) as [->|N]; [reflexivity|]. rewrite !find_if by auto. reflexivity. }
  apply find_ap.
  { destruct N4 as [E|N]; [|rewrite !find_if by auto; reflexivity]. rewrite <- E. replace (g_printHex g') with (g_printHex g) by (change (g_printHex (strip g) = g_printHex (strip g')); rewrite Gs; reflexivity). reflexivity. }
  assert (Bs : forall o g, basics o g = basics o (strip g)) by (intros ? []; reflexivity). rewrite (Bs o), (Bs o'), Gs.
  destruct N7 as [E|N].
  - unfold basics, basics_of, pty_string. rewrite <- E. reflexivity.
  - assert (Np : k <> "prog_type") by (intros ->; apply N; cbn; tauto).
    assert (X : forall b w h, obj_find k (basics_of o h b w) = obj_find k (basics_of o' h b w)).
    { intros b w h. unfold basics_of. apply find_ap; [reflexivity|]. cbn [obj_find]. destruct (String.eqb k "tp"); [reflexivity|]. destruct (String.eqb_spec k "prog_type"); [contradiction|reflexivity]. }
    clear - X. unfold basics. generalize (strip g'). intros h. destruct (is_C h); [reflexivity|]. destruct (g_has h BLOCK2); [apply X|]. destruct (_ && g_has h BLOCK4); [apply X|reflexivity].
Qed.

(* ---- UTF-8 or not ---- *)
Lemma find_in : forall k m v, NoDup (map fst m) -> In (k, v) m -> obj_find k m = Some v.
Proof.
  intros k m v. induction m as [|[k0 v0] m IH]; intros N I; [destruct I|]. cbn [map fst] in N. inversion N as [|? ? Nin N']; subst. cbn [obj_find].
  destruct I as [E|I]; [injection E as <- <-; rewrite String.eqb_refl; reflexivity|].
  destruct (String.eqb_spec k k0) as [->|Ne]; [exfalso; apply Nin; apply in_map_iff; exists (k0, v); split; [reflexivity|exact I]|exact (IH N' I)].
Qed.
Lemma find_some_in : forall k m v, obj_find k m = Some v -> In (k, v) m.
Proof.
  intros k m v. induction m as [|[k0 v0] m IH]; [discriminate|]. cbn [obj_find]. destruct (String.eqb_spec k k0) as [->|Ne]; [intros E; injection E as <-; left; reflexivity|intros E; right; exact (IH E)].
Qed.
Lemma clean_agree : forall K m m', NoDup (map fst m') -> (forall k, K k = false -> obj_find k m = obj_find k m') ->
  (forall k v, K k = true -> obj_find k m' = Some v -> txt (bs k) /\ clean v) -> clean (JObj m) -> clean (JObj m').
Proof.
  intros K m m' N A V C. apply clean_obj. apply clean_obj in C. rewrite Forall_forall in C. apply Forall_forall. intros [k v] I. pose proof (find_in k m' v N I) as F. cbn [fst snd].
  destruct (K k) eqn:Kk; [exact (V k v Kk F)|]. rewrite <- (A k Kk) in F. exact (C _ (find_some_in _ _ _ F)).
Qed.
Lemma decoded_nodup : forall env o st g st' j, env_ok env -> st_ok st -> bler_ok g -> decoded env o st g = Ok (st', j) -> exists m, j = JObj m /\ NoDup (map fst m).
Proof.
  intros env o st g st' j E So B D. destruct (header_conf env o st g B) as [C _]. unfold decoded in D. destruct (g_has_type g).
  - destruct (decodeByType_good in_header _ env o (had st g) g _ mjd_total_holds (proj1 E) C (had_ok _ _ So) (decoder_not_header o)) as ([s1 j1] & D1 & _ & C1).
    rewrite D in D1. injection D1 as <- <-. cbn [snd] in C1. destruct C1 as (m & -> & (_ & N) & _). exists m. split; [reflexivity|exact N].
  - injection D as _ <-. destruct C as (m & Em & (_ & N) & _). exists m. split; [exact Em|exact N].
Qed.

Lemma concerned_cases : forall o o' k, In k (concerned o o') -> o_show_partial o = o_show_partial o' -> in_header k = true \/ k = "other_network".
Proof.
  intros o o' k I P. unfold concerned in I. rewrite P in I. unfold differ in I. rewrite Bool.eqb_reflx, app_nil_r in I. rewrite !in_app_iff in I.
  repeat match goal with H : context [if ?b then _ else _] |- _ => destruct b end; cbn [In] in I;
  repeat match goal with H : _ \/ _ |- _ => destruct H end; try contradiction; subst; first [left; reflexivity | right; reflexivity].
Qed.
Lemma raw_no_network : forall o st g, raw_group st g = true -> existsb (String.eqb "other_network") (type_keys o st g) = false.
Proof.
  intros o st g R. unfold raw_group in R. cbv zeta in R. unfold type_keys. cbv zeta. destruct (gt_number (g_type g) =? 14) eqn:E14.
  { exfalso. destruct (find_type _ _).
    - rewrite !orb_true_r in R. cbn [negb] in R. rewrite !andb_false_r in R. discriminate.
    - apply N.eqb_eq in E14. rewrite E14 in R. rewrite andb_false_r in R. discriminate. }
  clear R E14. unfold app_keys. destruct (find_type _ _) as [a|].
  - repeat match goal with |- existsb _ (if ?b then _ else _) = _ => destruct b end; try destruct (o_show_partial o); reflexivity.
  - repeat match goal with |- existsb _ (if ?b then _ else _) = _ => destruct b end; try destruct (o_show_partial o); reflexivity.
Qed.

(* ---- one group under both sets of options ---- *)
Definition same_out (o o' : Options) (x y : option bytes) : Prop :=
  match x, y with None, None => True | Some l, Some l' => same_line o o' l l' | _, _ => False end.

Lemma error_line : forall env j line, host_ok env -> print_json env j = Ok line -> json_utf8 j = false -> reports_error line.
Proof.
  intros env j line H Pr U. destruct (host_env env H) as [[_ W] FL]. unfold print_json, json_print in Pr. rewrite U in Pr. cbn [json_utf8 forallb fst snd] in Pr. rewrite W in Pr.
  change (utf8_valid (bs "debug")) with true in Pr. cbn [andb] in Pr. assert (line = dump (env_float env) (JObj [("debug", JStr (env_what_json env j))])) as -> by congruence. exists (env_what_json env j). unfold says. rewrite line_at_dump by exact FL. reflexivity.
Qed.
Lemma clean_line : forall env j line p, host_ok env -> print_json env j = Ok line -> json_utf8 j = true -> line_at p line = option_map (value_of (env_float env)) (jget p j).
Proof.
  intros env j line p H Pr U. destruct (host_env env H) as [_ FL]. unfold print_json, json_print in Pr. rewrite U in Pr. injection Pr as <-. rewrite line_at_dump by exact FL. destruct (jget p j); reflexivity.
Qed.

Lemma header_vals_clean : forall env o st g j k v, env_txt env -> (forall k, in_header k = true -> jget [k] j = obj_find k (header env o st g)) ->
  in_header k = true -> jget [k] j = Some v -> txt (bs k) /\ clean v.
Proof.
  intros env o st g j k v E Hd Hk J. rewrite (Hd k Hk) in J. pose proof (header_clean env o st g E) as C. apply clean_obj in C. rewrite Forall_forall in C. exact (C _ (find_some_in _ _ _ J)).
Qed.

(* one side's object is UTF-8 if the other's is *)
Lemma clean_across : forall env o o' st g j j' st1', host_ok env -> env_txt env -> st_ok st -> st_clean st -> bler_ok g -> o_show_partial o = o_show_partial o' ->
  decoded env o' st g = Ok (st1', j') -> (forall k, in_header k = true -> jget [k] j' = obj_find k (header env o' st g)) ->
  agree (Kof o o') j j' -> raw_group st g = true -> g_has_type g = true -> clean j -> clean j'.
Proof.
  intros env o o' st g j j' st1' H E So Sc B P D Hd (m & m' & -> & -> & A) R Ty C. destruct (host_env env H) as [Ee _].
  destruct (decoded_nodup env o' st g st1' (JObj m') Ee So B D) as (m2 & E2 & N). injection E2 as <-.
  apply (clean_agree (Kof o o') m m' N A); [|exact C]. intros k v Kk F. apply Kof_in in Kk. destruct (concerned_cases o o' k Kk P) as [Hk| ->].
  - apply (header_vals_clean env o' st g (JObj m') k v E Hd Hk). cbn [jget]. rewrite F. reflexivity.
  - exfalso. pose proof (decoded_absent env o' st g st1' (JObj m') "other_network" Ee So B D eq_refl (fun _ => raw_no_network o' st g R)) as X. cbn [jget] in X. rewrite F in X. discriminate.
Qed.

Lemma decoded_agree : forall env o o' st g g' st1 st1' j j', strip g = strip g' ->
  (forall k, Kof o o' k = false -> obj_find k (header env o st g) = obj_find k (header env o' st g')) ->
  decoded env o st g = Ok (st1, j) -> decoded env o' st g' = Ok (st1', j') -> st1 = st1' /\ agree (Kof o o') j j'.
Proof.
  intros env o o' st g g' st1 st1' j j' Gs Hh D D'. unfold decoded in D, D'. rewrite strip_had, (strip_type env o) in D. rewrite strip_had, (strip_type env o') in D'. rewrite <- Gs in D'.
  replace (g_has_type g') with (g_has_type g) in D' by (change (g_has_type (strip g) = g_has_type (strip g')); rewrite Gs; reflexivity).
  assert (A : agree (Kof o o') (JObj (header env o st g)) (JObj (header env o' st g'))) by (eexists; eexists; split; [reflexivity|]; split; [reflexivity|exact Hh]).
  destruct (g_has_type g).
  - assert (HP : o_show_partial o = o_show_partial o' \/ forall k, In k partial_members -> Kof o o' k = true).
    { destruct (Bool.eqb (o_show_partial o) (o_show_partial o')) eqn:Q; [left; apply eqb_prop, Q|right]. intros k I. apply Kof_in. unfold concerned, differ. rewrite Q, !in_app_iff. do 7 right. exact I. }
    assert (HR : o_rbds o = o_rbds o' \/ Kof o o' "other_network" = true).
    { destruct (Bool.eqb (o_rbds o) (o_rbds o')) eqn:Q; [left; apply eqb_prop, Q|right]. apply Kof_in. unfold concerned, differ. rewrite Q, !in_app_iff. do 6 right. left. cbn. tauto. }
    exact (ag_by_type (Kof o o') o o' HP HR env (had st (strip g)) (strip g) _ _ A _ _ D D').
  - injection D as <- <-. injection D' as <- <-. split; [reflexivity|exact A].
Qed.

Lemma pair_group : forall env o o' now c c' g g' w, host_ok env -> env_txt env -> o_output_type o = OutJSON -> o_output_type o' = OutJSON ->
  alike_channels o o' c c' -> alike_groups o o' g g' -> ch_fine c -> ch_fine c' -> g_has_bler g = false -> g_has_bler g' = false ->
  exists c1 c1' l l', processGroup env o now c g w = Ok (c1, l) /\ processGroup env o' now c' g' w = Ok (c1', l') /\ alike_channels o o' c1 c1' /\ same_out o o' l l' /\ ch_fine c1 /\ ch_fine c1'.
Proof.
  intros env o o' now c c' g g' w H E OJ OJ' Ca Ga Fc Fc' Hb Hb'. destruct (host_env env H) as [Ee _].
  destruct (prepared_alike o o' now c c' g g' w Ca Ga) as (Ps & Pt & Pb & St & Av).
  destruct (prepared_bler o now c g w (proj1 Fc) Hb) as [B1 B2]. destruct (prepared_bler o' now c' g' w (proj1 Fc') Hb') as [B1' B2'].
  set (p := prepared o now c g w) in *. set (p' := prepared o' now c' g' w) in *.
  assert (Tn : tuned c p = tuned c' p').
  { rewrite (strip_tuned c p), (strip_tuned c' p'), <- Ps. destruct Ca as (C1 & C2 & _ & C4 & _). unfold tuned, next_pi. rewrite C1, C2, C4. reflexivity. }
  assert (Nx : next_pi c p = next_pi c' p').
  { rewrite (strip_pi c p), (strip_pi c' p'), <- Ps. destruct Ca as (_ & C2 & _). unfold next_pi. rewrite C2. reflexivity. }
  assert (Aft : forall st, alike_channels o o' (after o now c g w st) (after o' now c' g' w st)).
  { intros st. destruct Ca as (C1 & C2 & C3 & C4 & C5 & C6). unfold after. fold p p'. repeat split; cbn; try assumption. }
  assert (Sl : silent (tuned c p) p = silent (tuned c' p') p') by (rewrite Tn, (strip_silent _ p), (strip_silent _ p'), Ps; reflexivity).
  destruct (silent (tuned c p) p) eqn:S.
  - pose proof (process_silent env o now c g w OJ S) as P. pose proof (process_silent env o' now c' g' w OJ' (eq_sym Sl)) as P'. fold p in P. fold p' in P'.
    assert (Hd : had (tuned c p) p = had (tuned c' p') p') by (rewrite Tn, (strip_had _ p), (strip_had _ p'), Ps; reflexivity).
    exists (after o now c g w (had (tuned c p) p)), (after o' now c' g' w (had (tuned c' p') p')), None, None. do 2 (split; [assumption|]). rewrite Hd. split; [apply Aft|]. split; [exact I|].
    rewrite <- Hd at 1. split; [exact (process_fine _ _ _ _ _ _ _ _ H E Fc Hb P)|exact (process_fine _ _ _ _ _ _ _ _ H E Fc' Hb' P')].
  - destruct (process_spoken env o now c g w OJ Ee (proj1 Fc) Hb S) as (s1 & j & line & D & P & _ & Pr & Hd). fold p in D, Hd.
    destruct (process_spoken env o' now c' g' w OJ' Ee (proj1 Fc') Hb' (eq_sym Sl)) as (s1' & j' & line' & D' & P' & _ & Pr' & Hd'). fold p' in D', Hd'.
    assert (Hh : forall k, Kof o o' k = false -> obj_find k (header env o (tuned c p) p) = obj_find k (header env o' (tuned c p) p')).
    { intros k Kk. apply header_alike; try assumption. intros I. apply Kof_in in I. congruence. }
    pose proof (tuned_ok c p (proj1 Fc)) as To. pose proof (tuned_clean c p (proj2 Fc)) as Tc. rewrite <- Tn in D', Hd'.
    destruct (decoded_agree env o o' (tuned c p) p p' s1 s1' j j' Ps Hh D D') as [<- A].
    exists (after o now c g w s1), (after o' now c' g' w s1), (Some line), (Some line'). do 2 (split; [assumption|]). split; [apply Aft|].
    split; [|split; [exact (process_fine _ _ _ _ _ _ _ _ H E Fc Hb P)|exact (process_fine _ _ _ _ _ _ _ _ H E Fc' Hb' P')]].
    cbn [same_out]. unfold same_line.
    assert (Both : json_utf8 j = true -> json_utf8 j' = true -> forall k, ~ In k (concerned o o') -> line_at [k] line = line_at [k] line').
    { intros U U' k Nk. rewrite (clean_line env j line [k] H Pr U), (clean_line env j' line' [k] H Pr' U'). destruct A as (m & m' & -> & -> & A). cbn [jget]. rewrite (A k); [reflexivity|].
      destruct (Kof o o' k) eqn:Q; [apply Kof_in in Q; contradiction|reflexivity]. }
    assert (X : o_show_partial o = o_show_partial o' -> clean j -> clean j').
    { intros P1 C. destruct (raw_group (tuned c p) p') eqn:R; [destruct (g_has_type p') eqn:Ty|].
      - exact (clean_across env o o' (tuned c p) p' j j' s1 H E To Tc B2' P1 D' Hd' A R Ty C).
      - exact (proj2 (decoded_clean env o' (tuned c p) p' E Tc (or_intror Ty) _ D')).
      - exact (proj2 (decoded_clean env o' (tuned c p) p' E Tc (or_introl R) _ D')). }
    assert (Y : o_show_partial o = o_show_partial o' -> clean j' -> clean j).
    { intros P1 C. destruct (raw_group (tuned c p) p) eqn:R; [destruct (g_has_type p) eqn:Ty|].
      - assert (A' : agree (Kof o' o) j' j) by (destruct A as (m & m' & -> & -> & A); exists m', m; split; [reflexivity|]; split; [reflexivity|]; intros k Kk; symmetry; apply A; rewrite Kof_sym; exact Kk).
        exact (clean_across env o' o (tuned c p) p j' j s1 H E To Tc B2 (eq_sym P1) D Hd A' R Ty C).
      - exact (proj2 (decoded_clean env o (tuned c p) p E Tc (or_intror Ty) _ D)).
      - exact (proj2 (decoded_clean env o (tuned c p) p E Tc (or_introl R) _ D)). }
    unfold clean in X, Y. destruct (json_utf8 j) eqn:U, (json_utf8 j') eqn:U'.
    + left. exact (Both eq_refl eq_refl).
    + right. destruct (Bool.bool_dec (o_show_partial o) (o_show_partial o')) as [P1|P1]; [exfalso|right; split; [exact P1|right; exact (error_line env j' line' H Pr' U')]].
      discriminate (X P1 eq_refl).
    + right. destruct (Bool.bool_dec (o_show_partial o) (o_show_partial o')) as [P1|P1]; [exfalso|right; split; [exact P1|left; exact (error_line env j line H Pr U)]].
      discriminate (Y P1 eq_refl).
    + right. left. split; [exact (error_line env j line H Pr U)|exact (error_line env j' line' H Pr' U')].
Qed.

(* ---- whole runs ---- *)
Definition both (o o' : Options) (c c' : Channel) : Prop := alike_channels o o' c c' /\ ch_fine c /\ ch_fine c'.
Definition paired (o o' : Options) (r r' : res (Channel * list (option bytes))) : Prop :=
  exists c c' out out', r = Ok (c, out) /\ r' = Ok (c', out') /\ both o o' c c' /\ Forall2 (same_out o o') out out'.

Section Runs.
Variable env : Env.
Variables o o' : Options.
Hypothesis H : host_ok env.
Hypothesis E : env_txt env.
Hypothesis OJ : o_output_type o = OutJSON.
Hypothesis OJ' : o_output_type o' = OutJSON.

Lemma both_stream : forall c c' w s, both o o' c c' -> stream_ok s -> both o o' (ch_set_stream c w s) (ch_set_stream c' w s).
Proof.
  intros c c' w s ((A1 & A2 & A3 & A4 & A5 & A6) & F & F') S. split; [|split].
  - repeat split; cbn; try assumption. rewrite A3. reflexivity.
  - split; [apply set_stream_ok; [apply F|exact S]|apply F].
  - split; [apply set_stream_ok; [apply F'|exact S]|apply F'].
Qed.
Lemma both_get : forall c c' w, both o o' c c' -> w < 4 -> exists s, arr_get (ch_block_stream c) w = Ok s /\ arr_get (ch_block_stream c') w = Ok s /\ stream_ok s.
Proof.
  intros c c' w ((_ & _ & A3 & _) & F & _) L. destruct (stream_get c w (proj1 F) L) as (s & G & S). exists s. rewrite <- A3. repeat split; try assumption; apply S.
Qed.
Lemma both_group : forall now c c' g g' w, both o o' c c' -> alike_groups o o' g g' -> g_has_bler g = false -> g_has_bler g' = false ->
  exists c1 c1' l l', processGroup env o now c g w = Ok (c1, l) /\ processGroup env o' now c' g' w = Ok (c1', l') /\ both o o' c1 c1' /\ same_out o o' l l'.
Proof.
  intros now c c' g g' w (A & F & F') G B B'. destruct (pair_group env o o' now c c' g g' w H E OJ OJ' A G F F' B B') as (c1 & c1' & l & l' & P & P' & A1 & S & F1 & F1').
  exists c1, c1', l, l'. repeat split; try assumption; apply A1 || apply F1 || apply F1'.
Qed.
Lemma alike_refl : forall g, alike_groups o o' g g.
Proof. intros g. split; [reflexivity|]. intros _. split; reflexivity. Qed.

Lemma both_groups : forall gs gs' c c', both o o' c c' ->
  Forall2 (fun x y : Z * Group * N => fst (fst x) = fst (fst y) /\ alike_groups o o' (snd (fst x)) (snd (fst y)) /\ snd x = snd y /\ g_has_bler (snd (fst x)) = false /\ g_has_bler (snd (fst y)) = false) gs gs' ->
  paired o o' (run_groups env o c gs) (run_groups env o' c' gs').
Proof.
  intros gs gs' c c' B F. revert c c' B. induction F as [|[[t g] w] [[t' g'] w'] gs gs' X F IH]; intros c c' B.
  - exists c, c', [], []. repeat split; try apply B. constructor.
  - cbn [fst snd] in X. destruct X as (<- & G & <- & N & N'). destruct (both_group t c c' g g' w B G N N') as (c1 & c1' & l & l' & P & P' & B1 & S). cbn [run_groups]. rewrite P, P'. cbn [bind].
    destruct (IH c1 c1' B1) as (c2 & c2' & out & out' & R & R' & B2 & S2). rewrite R, R'. cbn [bind]. exists c2, c2', (l :: out), (l' :: out'). repeat split; try apply B2. constructor; assumption.
Qed.

Lemma both_bit : forall now c c' b w, both o o' c c' -> w < 4 ->
  exists c1 c1' l l', processBit env o now c b w = Ok (c1, l) /\ processBit env o' now c' b w = Ok (c1', l') /\ both o o' c1 c1' /\ same_out o o' l l'.
Proof.
  intros now c c' b w B L. destruct (both_get c c' w B L) as (s & G & G' & [S1 S2]). unfold processBit. rewrite G, G'. cbn [bind].
  destruct (step_bler s b S1 S2) as (A & A2 & D). destruct (bst_step s b) as [s' og]. cbn [fst snd] in *.
  pose proof (both_stream c c' w s' B (conj A A2)) as B1. destruct og as [g|].
  - apply both_group; [exact B1|apply alike_refl|exact (D g eq_refl)..].
  - exists (ch_set_stream c w s'), (ch_set_stream c' w s'), None, None. repeat split; apply B1.
Qed.
Lemma both_run_bits : forall w bits c c', w < 4 -> both o o' c c' -> paired o o' (run_bits env o c w bits) (run_bits env o' c' w bits).
Proof.
  intros w bits. induction bits as [|[t b] bits IH]; intros c c' L B.
  - exists c, c', [], []. repeat split; try apply B. constructor.
  - destruct (both_bit t c c' b w B L) as (c1 & c1' & l & l' & P & P' & B1 & S). cbn [run_bits]. rewrite P, P'. cbn [bind].
    destruct (IH c1 c1' L B1) as (c2 & c2' & out & out' & R & R' & B2 & S2). rewrite R, R'. cbn [bind]. exists c2, c2'. eexists. eexists. split; [reflexivity|]. split; [reflexivity|]. split; [exact B2|].
    destruct l, l'; try contradiction; [|exact S2]. cbn [app]. constructor; assumption.
Qed.
Lemma both_flush : forall now c c', both o o' c c' -> paired o o' (flush env o now c) (flush env o' now c').
Proof.
  intros now c c' B. unfold flush. assert (F : Forall (fun i => i < 4) [1; 2; 3]) by (repeat constructor). revert c c' B F. generalize [1; 2; 3]. induction l as [|i l IH]; intros c c' B F.
  - exists c, c', [], []. repeat split; try apply B. constructor.
  - apply Forall_cons_iff in F. destruct F as [Fi F]. destruct (both_get c c' i B Fi) as (s & G & G' & [S1 S2]). cbn [flush_loop]. rewrite G, G'. cbn [bind].
    assert (X : paired o o' (if g_isEmpty (bst_current_group s) then Ok (c, []) else '(c0, line) <- processGroup env o now c (bst_current_group s) i ;; Ok (c0, [line]))
                            (if g_isEmpty (bst_current_group s) then Ok (c', []) else '(c0, line) <- processGroup env o' now c' (bst_current_group s) i ;; Ok (c0, [line]))).
    { destruct (g_isEmpty _); [exists c, c', [], []; repeat split; try apply B; constructor|].
      destruct (both_group now c c' _ _ i B (alike_refl (bst_current_group s)) S1 S1) as (c1 & c1' & l1 & l1' & P & P' & B1 & S). rewrite P, P'. cbn [bind].
      exists c1, c1', [l1], [l1']. repeat split; try apply B1. repeat constructor. exact S. }
    destruct X as (c1 & c1' & o1 & o1' & -> & -> & B1 & X1). cbn [bind]. destruct (IH c1 c1' B1 F) as (c2 & c2' & o2 & o2' & -> & -> & B2 & X2). cbn [bind].
    exists c2, c2', (o1 ++ o2), (o1' ++ o2'). repeat split; try apply B2. apply Forall2_app; assumption.
Qed.
Lemma both_time : forall c c' t t', both o o' c c' -> (o_timestamp o = o_timestamp o' -> t = t') -> both o o' (ch_set_time c t) (ch_set_time c' t').
Proof. intros c c' t t' ((A1 & A2 & A3 & A4 & A5 & A6) & F & F') T. repeat split; cbn; try assumption; try apply F; apply F'. Qed.
Lemma both_bits : forall t now w bits c c', w < 4 -> N.of_nat (length bits) < 9007199254740992 -> both o o' c c' ->
  paired o o' (processBits env o c t now bits w) (processBits env o' c' t now bits w).
Proof.
  intros t now w. unfold processBits. induction bits as [|b bits IH]; intros c c' L Ln B.
  - exists c, c', [], []. repeat split; try apply B. constructor.
  - cbn [length] in Ln. cbn [processBits_loop]. destruct (both_get c c' w B L) as (s & G & G' & [S1 S2]). rewrite G, G'. cbn [bind].
    destruct (step_bler s b S1 S2) as (A & A2 & D). destruct (bst_step s b) as [s' og]. cbn [fst snd] in *. pose proof (both_stream c c' w s' B (conj A A2)) as B1.
    assert (X : paired o o'
      (match og with None => Ok (ch_set_stream c w s', []) | Some g => age <- bit_age_ms (N.of_nat (length bits)) ;; let t0 := (t - age * 1000000)%Z in let t0 := if (t0 <? ch_last_group_rx_time (ch_set_stream c w s'))%Z then ch_last_group_rx_time (ch_set_stream c w s') else t0 in '(c0, line) <- processGroup env o now (ch_set_stream c w s') (g_setTime g t0) w ;; Ok (ch_set_time c0 t0, [line]) end)
      (match og with None => Ok (ch_set_stream c' w s', []) | Some g => age <- bit_age_ms (N.of_nat (length bits)) ;; let t0 := (t - age * 1000000)%Z in let t0 := if (t0 <? ch_last_group_rx_time (ch_set_stream c' w s'))%Z then ch_last_group_rx_time (ch_set_stream c' w s') else t0 in '(c0, line) <- processGroup env o' now (ch_set_stream c' w s') (g_setTime g t0) w ;; Ok (ch_set_time c0 t0, [line]) end)).
    { destruct og as [g|]; [|exists (ch_set_stream c w s'), (ch_set_stream c' w s'), [], []; repeat split; try apply B1; constructor].
      destruct (age_good (N.of_nat (length bits)) ltac:(lia)) as (z & ->). cbn [bind]. cbv zeta.
      set (t1 := if (_ <? ch_last_group_rx_time (ch_set_stream c w s'))%Z then _ else _). set (t1' := if (_ <? ch_last_group_rx_time (ch_set_stream c' w s'))%Z then _ else _).
      assert (T : o_timestamp o = o_timestamp o' -> t1 = t1') by (intros Et; destruct B1 as ((_ & _ & _ & _ & _ & A6) & _); specialize (A6 Et); unfold t1, t1'; rewrite A6; reflexivity).
      destruct (both_group now _ _ (g_setTime g t1) (g_setTime g t1') w B1) as (c1 & c1' & l & l' & P & P' & B2 & S); [split; [reflexivity|intros Et; split; [exact (T Et)|reflexivity]]|exact (D g eq_refl)..|].
      rewrite P, P'. cbn [bind]. exists (ch_set_time c1 t1), (ch_set_time c1' t1'), [l], [l']. split; [reflexivity|]. split; [reflexivity|]. split; [apply both_time; assumption|]. repeat constructor. exact S. }
    destruct X as (c1 & c1' & o1 & o1' & E1 & E1' & B2 & X1). cbv zeta in E1, E1'. rewrite E1, E1'. cbn [bind].
    destruct (IH c1 c1' L ltac:(lia) B2) as (c2 & c2' & o2 & o2' & -> & -> & B3 & X2). cbn [bind].
    exists c2, c2', (o1 ++ o2), (o1' ++ o2'). repeat split; try apply B3. apply Forall2_app; assumption.
Qed.

Lemma both_reset : forall c c', both o o' c c' -> both o o' (resetPI c) (resetPI c').
Proof. intros c c' ((A1 & A2 & A3 & A4 & A5 & A6) & F & F'). repeat split; cbn; try assumption; try apply F; apply F'. Qed.
Lemma both_call : forall x c c', possible x -> both o o' c c' -> paired o o' (do_call env o c x) (do_call env o' c' x).
Proof.
  intros [now g w|now b w|t now bits w|now|] c c' P B; cbn [possible do_call] in *.
  - destruct P as [N _]. destruct (both_group now c c' g g w B (alike_refl g) N N) as (c1 & c1' & l & l' & -> & -> & B1 & S). cbn [bind]. exists c1, c1', [l], [l']. repeat split; try apply B1. repeat constructor. exact S.
  - destruct (both_bit now c c' b w B P) as (c1 & c1' & l & l' & -> & -> & B1 & S). cbn [bind]. exists c1, c1', [l], [l']. repeat split; try apply B1. repeat constructor. exact S.
  - apply both_bits; [apply P|apply P|exact B].
  - apply both_flush, B.
  - exists (resetPI c), (resetPI c'), [], []. split; [reflexivity|]. split; [reflexivity|]. split; [apply both_reset, B|constructor].
Qed.
Lemma printed_pairs : forall out out', Forall2 (same_out o o') out out' -> Forall2 (same_line o o') (printed out) (printed out').
Proof.
  intros out out' F. induction F as [|x y out out' S F IH]; [constructor|]. change (x :: out) with ([x] ++ out). change (y :: out') with ([y] ++ out'). rewrite !printed_app.
  apply Forall2_app; [|exact IH]. destruct x, y; try contradiction; [|constructor]. constructor; [exact S|constructor].
Qed.
Lemma both_session : forall calls c c', Forall possible calls -> both o o' c c' ->
  exists c1 c1' lines lines', session env o c calls = Ok (c1, lines) /\ session env o' c' calls = Ok (c1', lines') /\ Forall2 (same_line o o') lines lines'.
Proof.
  induction calls as [|x calls IH]; intros c c' P B; [exists c, c', [], []; repeat split; constructor|]. apply Forall_cons_iff in P. destruct P as [Px P].
  cbn [session]. destruct (both_call x c c' Px B) as (c1 & c1' & o1 & o1' & -> & -> & B1 & S). cbn [bind]. destruct (IH c1 c1' P B1) as (c2 & c2' & l2 & l2' & -> & -> & S2). cbn [bind].
  exists c2, c2'. eexists. eexists. split; [reflexivity|]. split; [reflexivity|]. apply Forall2_app; [apply printed_pairs, S|exact S2].
Qed.
Lemma both_new : forall w, o_use_fec o = o_use_fec o' -> both o o' (Channel_new o w) (Channel_new o' w).
Proof.
  intros w F. split; [|split; [apply (created_fine o)|apply (created_fine o')]; left; exists w; reflexivity]. repeat split; cbn; try reflexivity. rewrite F. reflexivity.
Qed.

(* ---- the program with text inputs ---- *)
Lemma hex_alike : forall fuel clock lines, Forall2 (fun g g' => alike_groups o o' g g' /\ g_data_stream g = g_data_stream g') (hex_groups fuel o clock lines) (hex_groups fuel o' clock lines).
Proof.
  induction fuel as [|f IH]; intros clock lines; [constructor|]. cbn [hex_groups]. destruct lines as [|l r]; [constructor|]. unfold readHexGroup. destruct (readHexGroup_loop (l :: r) _) as [g rest].
  constructor; [|apply IH]. split; [split|].
  - destruct (o_timestamp o), (o_timestamp o'); reflexivity.
  - intros <-. split; reflexivity.
  - destruct (o_timestamp o), (o_timestamp o'); reflexivity.
Qed.
Lemma timed_pairs : forall (A : Type) (R : A -> A -> Prop) l l', Forall2 R l l' -> forall clock, Forall2 (fun x y => fst x = fst y /\ R (snd x) (snd y)) (timed clock l) (timed clock l').
Proof. intros A R l l' F. induction F as [|x y l l' X F IH]; intros clock; [constructor|]. cbn [timed]. constructor; [split; [reflexivity|exact X]|apply IH]. Qed.
Lemma lines_pairs : forall out out', Forall2 (same_out o o') out out' -> exists ls ls', Main.lines_of 0 out = map (Line 0) ls /\ Main.lines_of 0 out' = map (Line 0) ls' /\ Forall2 (same_line o o') ls ls'.
Proof.
  intros out out' F. exists (printed out), (printed out'). split; [|split; [|apply printed_pairs, F]].
  all: clear; unfold Main.lines_of, printed; match goal with |- context [flat_map _ ?l] => induction l as [|[x|] l IH] end; cbn [flat_map app map]; try rewrite IH; reflexivity.
Qed.
Lemma pair_tef : forall clock input, o_use_fec o = o_use_fec o' -> exists ls ls', processTEFInput env o clock input = Ok (EXIT_SUCCESS, map (Line 0) ls) /\ processTEFInput env o' clock input = Ok (EXIT_SUCCESS, map (Line 0) ls') /\ Forall2 (same_line o o') ls ls'.
Proof.
  intros clock input Fe. unfold processTEFInput. set (gs := map (fun x => (x, 0)) (timed clock (read_tef_input input))).
  destruct (both_groups gs gs (Channel_new o 0) (Channel_new o' 0) (both_new 0 Fe)) as (c & c' & out & out' & R & R' & _ & S).
  - assert (P : Forall (fun x : Z * Group * N => g_has_bler (snd (fst x)) = false) gs).
    { subst gs. apply Forall_map. pose proof (MainP.timed_snd _ _ _ clock (plain_tef (length (split_lines input)) (split_lines input))) as F. eapply Forall_impl; [|exact F]. intros [t g] [P _]. exact P. }
    clearbody gs. induction P as [|x gs Px P IH]; constructor; [|exact IH]. repeat split; try assumption.
  - rewrite R, R'. cbn [bind]. destruct (lines_pairs out out' S) as (ls & ls' & -> & -> & F). exists ls, ls'. repeat split. exact F.
Qed.
Lemma pair_hex : forall clock input, o_use_fec o = o_use_fec o' -> exists ls ls', processHexInput env o clock input = Ok (EXIT_SUCCESS, map (Line 0) ls) /\ processHexInput env o' clock input = Ok (EXIT_SUCCESS, map (Line 0) ls') /\ Forall2 (same_line o o') ls ls'.
Proof.
  intros clock input Fe. unfold processHexInput. cbv zeta.
  pose proof (hex_alike (length (split_lines input)) clock (split_lines input)) as A. pose proof (plain_hex o (length (split_lines input)) clock (split_lines input)) as P. pose proof (plain_hex o' (length (split_lines input)) clock (split_lines input)) as P'.
  fold (read_hex_input o clock input) in A, P. fold (read_hex_input o' clock input) in A, P'.
  destruct (both_groups (map (fun x => (x, g_data_stream (snd x))) (timed clock (read_hex_input o clock input))) (map (fun x => (x, g_data_stream (snd x))) (timed clock (read_hex_input o' clock input))) (Channel_new o 0) (Channel_new o' 0) (both_new 0 Fe)) as (c & c' & out & out' & R & R' & _ & S).
  - revert A P P'. generalize (read_hex_input o clock input), (read_hex_input o' clock input). intros l l' A. generalize clock. induction A as [|g g' l l' [X Xs] A IH]; intros ck P P'; [constructor|].
    apply Forall_cons_iff in P, P'. destruct P as [[Pb _] P], P' as [[Pb' _] P']. cbn [timed map]. constructor; [|exact (IH _ P P')]. cbn [fst snd]. split; [reflexivity|]. split; [exact X|]. split; [exact Xs|]. split; assumption.
  - rewrite R, R'. cbn [bind]. destruct (lines_pairs out out' S) as (ls & ls' & -> & -> & F). exists ls, ls'. repeat split. exact F.
Qed.
Lemma pair_ascii : forall clock t input, o_use_fec o = o_use_fec o' -> exists ls ls', processASCIIBitsInput env o clock t input = Ok (EXIT_SUCCESS, map (Line 0) ls) /\ processASCIIBitsInput env o' clock t input = Ok (EXIT_SUCCESS, map (Line 0) ls') /\ Forall2 (same_line o o') ls ls'.
Proof.
  intros clock t input Fe. unfold processASCIIBitsInput.
  destruct (both_run_bits 0 (timed clock (ascii_bits input)) _ _ ltac:(lia) (both_new 0 Fe)) as (c & c' & out & out' & -> & -> & B & S). cbn [bind].
  destruct (both_flush t c c' B) as (c2 & c2' & out2 & out2' & -> & -> & _ & S2). cbn [bind].
  destruct (lines_pairs (out ++ out2) (out' ++ out2') (Forall2_app S S2)) as (ls & ls' & -> & -> & F). exists ls, ls'. repeat split. exact F.
Qed.
End Runs.
