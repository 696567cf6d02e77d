(* Alternative frequencies in groups 0A. *)
From Verif.Model Require Import Util Group Options Tables Json Freq RdsString Tmc Station Channel.
From Verif.Spec Require Import Numerals Frequencies Unicode JsonText Session Identity History Quality Texts.
From Verif.Proofs Require Import Tac Numerals FreqP JsonP Schema StationP TextP CleanP UpdateP SessionP LineP FrameP ChannelP LinesP HistoryP ShowP TraceP KeysP GetP FieldsP StringP PsP EndP.

Local Open Scope string_scope.
Local Open Scope N_scope.
Local Open Scope list_scope.

Definition isB (l : AltFreqList) : bool := match af_isMethodB l with Ok b => b | _ => false end.
Definition af_do (l : AltFreqList) (e : af_event) : AltFreqList :=
  match e with
  | AfMissed => if isB l then af_clear l else l
  | AfCodes c1 c2 => match insert_all l [c1; c2] with Ok l' => if af_isComplete l' then af_clear l' else l' | _ => l end
  end.
Definition af_inv (h : list (Group * N)) (st : Station) : Prop :=
  st_alt_freq_list st = fold_left af_do (flat_map af_events h) af_init.

Lemma af_prepared : forall o now c g w, received_group (now, g, w) -> let g' := prepared o now c g w in
  af_events (g, w) = if g_has_type g' && (gt_number (g_type g') =? 0) && negb (Version_eqb (gt_version (g_type g')) VC) then
    (if g_has g' BLOCK3 then (if Version_eqb (gt_version (g_type g')) VA then [AfCodes (getUint8 (g_get g' BLOCK3) 8) (getUint8 (g_get g' BLOCK3) 0)] else []) else [AfMissed]) else [].
Proof.
  intros o now c g w (_ & R1 & R2 & R3 & R4) g'. unfold af_events, g_has, g'. rewrite !prepared_type, !prepared_has_type, !prepared_get, !prepared_block.
  destruct (w =? 0) eqn:Ew; cbn [andb]. 2: { cbn [gt_number gt_version Version_eqb negb]. rewrite ?andb_false_r. reflexivity. }
  destruct (g_has_type g && (gt_number (g_type g) =? 0) && negb (Version_eqb (gt_version (g_type g)) VC)); [|reflexivity]. cbn [g_block].
  destruct (blk_is_received (g_b3 g)); [|reflexivity]. destruct (hi_bits _ R3) as [X _]. destruct (lo_bits (blk_data (g_b3 g))) as [Y _].
  unfold hi, lo in *. change (g_get g BLOCK3) with (blk_data (g_b3 g)). rewrite X, Y. destruct (gt_version (g_type g)); reflexivity.
Qed.

Lemma decodeAF_do : forall o l b j l' j', decodeAF o l b j = Ok (l', j') -> l' = af_do l (AfCodes (getUint8 b 8) (getUint8 b 0)).
Proof.
  intros o l b j l' j' D. unfold decodeAF in D. unfold af_do, insert_all. unbind D. cbn [bind]. unbind D. cbn [bind].
  destruct (af_isComplete y0).
  - unbind D. unbind D. destruct y2.
    + destruct y1; [discriminate D|]. destruct (methodB_pairs n y1) as [[afs regs]| |]; cbn [bind] in D; try discriminate D. unbind D. congruence.
    + unbind D. congruence.
  - destruct (o_show_partial o); [|congruence]. unbind D. unbind D. congruence.
Qed.
Lemma decodeType0_af : forall env o st g j st' j', decodeType0 env o st g j = Ok (st', j') ->
  st_alt_freq_list st' = fold_left af_do
    (if g_has g BLOCK3 then (if Version_eqb (gt_version (g_type g)) VA then [AfCodes (getUint8 (g_get g BLOCK3) 8) (getUint8 (g_get g BLOCK3) 0)] else []) else [AfMissed]) (st_alt_freq_list st).
Proof.
  intros env o st g j st' j' D. unfold decodeType0 in D. cbv zeta in D. do 3 unbind D. destruct (g_has g BLOCK3); cbn [negb] in D.
  - match type of D with bind ?m _ = _ => destruct m as [[s1 j1]| |] eqn:E1; cbn [bind] in D; try discriminate D end.
    assert (X : st_alt_freq_list st' = st_alt_freq_list s1).
    { destruct (g_has g BLOCK4); cbn [negb] in D; [|congruence]. destruct (s_isComplete _).
      - unbind D. assert (st' = _) as -> by (injection D as D _; symmetry; exact D). reflexivity.
      - destruct (o_show_partial o); [destruct (s_str _ _); unbind D|]; (assert (st' = _) as -> by (injection D as D _; symmetry; exact D)); reflexivity. }
    rewrite X. destruct (Version_eqb _ VA); [|injection E1 as <- _; reflexivity].
    destruct (decodeAF o (st_alt_freq_list st) (g_get g BLOCK3) y1) as [[l2 j2]| |] eqn:E2; cbn [bind] in E1; try discriminate E1. injection E1 as <- _.
    cbn [fold_left]. exact (decodeAF_do _ _ _ _ _ _ E2).
  - unbind D. injection D as <- _. cbn [fold_left af_do]. unfold isB. rewrite B2. destruct y2; reflexivity.
Qed.

Lemma had_af : forall st g, st_alt_freq_list (had st g) = st_alt_freq_list st.
Proof. intros st g. unfold had. destruct (_ || _); reflexivity. Qed.
Lemma af_step : forall env o h st now c g w st' j, af_inv h st -> st_ok st -> received_group (now, g, w) ->
  bler_ok (prepared o now c g w) -> decoded env o st (prepared o now c g w) = Ok (st', j) -> af_inv (h ++ [(g, w)]) st'.
Proof.
  intros env o h st now c g w st' j I So R B D. unfold af_inv in *. rewrite flat_map_app, fold_left_app, <- I. cbn [flat_map]. rewrite app_nil_r, (af_prepared o now c g w R). cbv zeta.
  set (g' := prepared o now c g w) in *.
  destruct (type0_cases env o st g' st' j D) as [(Ht & Hv & Hn & D0)|(No & _ & _)].
  - rewrite Ht, Hv, Hn. cbn [andb negb N.eqb]. rewrite (decodeType0_af _ _ _ _ _ _ _ D0), had_af. reflexivity.
  - replace (g_has_type g' && (gt_number (g_type g') =? 0) && negb (Version_eqb (gt_version (g_type g')) VC)) with false.
    2: { destruct No as [->|[->|No]]; [reflexivity|rewrite andb_false_r; reflexivity|]. apply N.eqb_neq in No. rewrite No, andb_false_r. reflexivity. }
    cbn [fold_left]. pose proof (decoded_frame env o st g' _ D) as Fr. cbn [fst] in Fr. destruct Fr as (_ & _ & _ & _ & _ & _ & _ & _ & _ & _ & _ & _ & Fa & _).
    rewrite Fa; [apply had_af|]. destruct No as [No|[No|No]].
    + rewrite No. reflexivity.
    + unfold group_fields. cbv zeta. rewrite No. destruct (g_has_type g'); reflexivity.
    + apply N.eqb_neq in No. destruct (g_has_type g'); [|reflexivity]. unfold off, group_fields, app_fields. cbv zeta. rewrite No. by_cases.
Qed.

(* ---- receiving a whole list, event by event ---- *)
Lemma insert_all_wf : forall cs l, af_wf l -> exists l', insert_all l cs = Ok l' /\ af_wf l'.
Proof.
  induction cs as [|c cs IH]; intros l W; cbn [insert_all]; [eexists; split; [reflexivity|exact W]|].
  destruct (af_insert_wf l c W) as (l1 & -> & W1). cbn [bind]. exact (IH l1 W1).
Qed.
Lemma af_do_wf : forall l e, af_wf l -> af_wf (af_do l e).
Proof.
  intros l [c1 c2|] W; cbn [af_do].
  - destruct (insert_all_wf [c1; c2] l W) as (l1 & -> & W1). destruct (af_isComplete l1); [apply af_clear_wf|]; exact W1.
  - destruct (isB l); [apply af_clear_wf|]; exact W.
Qed.
Lemma af_dos_wf : forall evs l, af_wf l -> af_wf (fold_left af_do evs l).
Proof. induction evs as [|e evs IH]; intros l W; [exact W|]. cbn [fold_left]. apply IH, af_do_wf, W. Qed.

Lemma insert_250 : forall l n got, af_at l n got false -> exists l', af_insert l 250 = Ok l' /\ af_at l' n got true.
Proof.
  intros [a ne nr lf] n got (L & En & Er & Eg & Ef). cbn [alt_freqs num_expected num_received lf_mf_follows] in *. subst lf.
  unfold af_insert. cbn [lf_mf_follows alt_freqs num_expected num_received]. cbv [cf_isValid cf_band cf_code]. cbn [N.leb N.compare Pos.compare Pos.compare_cont andb orb N.eqb Pos.eqb].
  eexists. split; [reflexivity|]. repeat split; assumption.
Qed.

(* A proper part of the codes: some of the frequencies so far, and not all *)
Lemma listed_prefix : forall fs cs, listed fs cs -> forall pre rest l n got,
  cs = pre ++ rest -> Exists (fun c => c <> filler) rest ->
  (length got + length fs <= n)%nat -> (1 <= n <= 25)%nat -> af_at l n got false ->
  exists l' k lf, insert_all l pre = Ok l' /\ af_at l' n (got ++ map freq_kHz (firstn k fs)) lf /\ (k < length fs)%nat.
Proof.
  intros fs cs Li. induction Li as [|fs cs Li IH|f fs cs Ok_ Li IH]; intros pre rest l n got E X Hl Hn A.
  - destruct pre; cbn [app] in E; [subst rest; inversion X|discriminate].
  - destruct pre as [|c pre]; cbn [app] in E.
    + assert (fs <> []). { intros ->. subst rest. inversion X; subst; [congruence|]. assert (Y : forall fs0 cs0, listed fs0 cs0 -> fs0 = [] -> Exists (fun c => c <> filler) cs0 -> False); [|exact (Y _ _ Li eq_refl H0)].
        intros fs0 cs0 L0. induction L0; intros Z; intros Ex; [inversion Ex|inversion Ex; subst; [congruence|auto]|discriminate]. }
      exists l, 0%nat, false. split; [reflexivity|]. cbn [firstn map]. rewrite app_nil_r. split; [exact A|]. destruct fs; [contradiction|cbn; lia].
    + injection E as <- E. destruct (insert_filler l n got ltac:(lia) A) as (l1 & I1 & A1). cbn [insert_all]. rewrite I1. cbn [bind].
      exact (IH pre rest l1 n got E X Hl Hn A1).
  - cbn [length] in Hl. destruct f as [c|c]; cbn [freq_codes app] in E.
    + destruct pre as [|c' pre]; cbn [app] in E.
      * exists l, 0%nat, false. split; [reflexivity|]. cbn [firstn map length]. rewrite app_nil_r. split; [exact A|lia].
      * injection E as <- E. destruct (insert_freq l n got (TxFM c) ltac:(lia) ltac:(lia) Ok_ A) as (l1 & I1 & A1). cbn [freq_codes insert_all] in I1. unbind I1. injection I1 as ->.
        destruct (IH pre rest l1 n (got ++ [freq_kHz (TxFM c)]) E X ltac:(rewrite app_length; cbn [length]; lia) Hn A1) as (l2 & k & lf & I2 & A2 & K).
        exists l2, (S k), lf. cbn [insert_all]. rewrite B. cbn [bind]. split; [exact I2|]. cbn [firstn map length]. rewrite <- app_assoc in A2. split; [exact A2|lia].
    + destruct pre as [|c' [|c'' pre]]; cbn [app] in E.
      * exists l, 0%nat, false. split; [reflexivity|]. cbn [firstn map length]. rewrite app_nil_r. split; [exact A|lia].
      * injection E as <- E. destruct (insert_250 l n got A) as (l1 & I1 & A1). exists l1, 0%nat, true. cbn [insert_all]. rewrite I1. cbn [bind]. split; [reflexivity|].
        cbn [firstn map length]. rewrite app_nil_r. split; [exact A1|lia].
      * injection E as <- <- E. destruct (insert_freq l n got (TxLFMF c) ltac:(lia) ltac:(lia) Ok_ A) as (l1 & I1 & A1). cbn [freq_codes insert_all] in I1.
        unbind I1. unbind I1. injection I1 as ->.
        destruct (IH pre rest l1 n (got ++ [freq_kHz (TxLFMF c)]) E X ltac:(rewrite app_length; cbn [length]; lia) Hn A1) as (l2 & k & lf & I2 & A2 & K).
        exists l2, (S k), lf. cbn [insert_all]. rewrite B. cbn [bind]. rewrite B0. cbn [bind]. split; [exact I2|]. cbn [firstn map length]. rewrite <- app_assoc in A2. split; [exact A2|lia].
Qed.

Lemma at_partial_lf : forall l n got lf, (length got < n)%nat -> af_at l n got lf -> af_isComplete l = false.
Proof. intros l n got lf Hl (_ & En & Er & _). unfold af_isComplete. rewrite En, Er. assert (N.of_nat n =? N.of_nat (length got) = false) as -> by (apply N.eqb_neq; lia). reflexivity. Qed.

(* Frequencies that are all different are not taken for method B *)
Lemma at_not_B : forall l n got lf, NoDup got -> (length got <= n)%nat -> (n <= 25)%nat -> af_at l n got lf -> af_isMethodB l = Ok false.
Proof.
  intros l n got lf Nd Hg Hn (L & En & Er & Eg & _). unfold af_isMethodB. rewrite En, Er.
  destruct (N.of_nat (length got) <? 3) eqn:E3; [rewrite orb_true_r; reflexivity|]. apply N.ltb_ge in E3.
  destruct got as [|a [|b [|c got]]]; cbn [length] in E3; try lia.
  destruct (negb _) eqn:Eo; cbn [orb]; [reflexivity|].
  destruct (alt_freqs l) as [|a' [|b' [|c' r]]]; cbn [length] in L; try lia.
  cbn [length firstn] in Eg. injection Eg as -> -> -> Eg.
  cbn [length]. rewrite Nat2N.id.
  change (arr_get (a :: b :: c :: r) 0) with (@Ok N a). cbn [bind methodB_loop].
  assert (1 <? N.of_nat (S (S (S (length got)))) = true) as -> by (apply N.ltb_lt; lia).
  change (arr_get (a :: b :: c :: r) 1) with (@Ok N b). change (arr_get (a :: b :: c :: r) (1 + 1)) with (@Ok N c). cbn [bind].
  inversion Nd as [|? ? N1 _]; subst. cbn [In] in N1.
  assert (b =? a = false) as -> by (apply N.eqb_neq; intros ->; tauto). assert (c =? a = false) as -> by (apply N.eqb_neq; intros ->; tauto). reflexivity.
Qed.

Lemma codes_app : forall a b, codes_of (a ++ b) = codes_of a ++ codes_of b.
Proof. intros. unfold codes_of. apply flat_map_app. Qed.

Lemma run_prefix : forall fs cs l0 c post pre, listed fs cs -> (1 <= length fs <= 25)%nat -> length (alt_freqs l0) = 25%nat ->
  let h := 224 + N.of_nat (length fs) in
  codes_of ((AfCodes h c :: pre) ++ post) = h :: cs -> Exists (fun c => c <> filler) (codes_of post) ->
  NoDup (map freq_kHz fs) \/ ~ In AfMissed pre ->
  insert_all l0 (codes_of (AfCodes h c :: pre)) = Ok (fold_left af_do (AfCodes h c :: pre) l0).
Proof.
  intros fs cs l0 c post pre Li Ln L0 h. revert post.
  assert (F : forall post pre, codes_of ((AfCodes h c :: pre) ++ post) = h :: cs -> Exists (fun c => c <> filler) (codes_of post) ->
    exists l' k lf, insert_all l0 (codes_of (AfCodes h c :: pre)) = Ok l' /\ af_at l' (length fs) (map freq_kHz (firstn k fs)) lf /\ (k < length fs)%nat).
  { intros post p E X. rewrite codes_app in E. cbn [codes_of flat_map app] in E. injection E as E.
    destruct (insert_header l0 (length fs) Ln L0) as (l1 & I1 & A1).
    destruct (listed_prefix fs cs Li (c :: codes_of p) (codes_of post) l1 (length fs) [] (eq_sym E) X (le_n _) Ln A1) as (l2 & k & lf & I2 & A2 & K).
    exists l2, k, lf. cbn [codes_of flat_map app insert_all]. unfold h. rewrite I1. cbn [bind]. split; [exact I2|]. split; [exact A2|exact K]. }
  induction pre as [|e pre IH] using rev_ind; intros post E X Q.
  - destruct (F post [] E X) as (l' & k & lf & I1 & A & K). cbn [codes_of flat_map app] in I1 |- *. cbn [fold_left af_do]. rewrite I1.
    rewrite (at_partial_lf l' _ _ lf) with (2 := A) by (rewrite map_length, firstn_length; lia). reflexivity.
  - change (AfCodes h c :: pre ++ [e]) with ((AfCodes h c :: pre) ++ [e]). rewrite fold_left_app, codes_app.
    assert (E' : codes_of ((AfCodes h c :: pre) ++ [e] ++ post) = h :: cs) by (rewrite <- E; cbn [app]; rewrite <- app_assoc; reflexivity).
    assert (X' : Exists (fun c => c <> filler) (codes_of ([e] ++ post))) by (rewrite codes_app; apply Exists_app; right; exact X).
    assert (Q' : NoDup (map freq_kHz fs) \/ ~ In AfMissed pre) by (destruct Q as [Q|Q]; [left; exact Q|right; intros Z; apply Q, in_or_app; left; exact Z]).
    specialize (IH _ E' X' Q'). rewrite insert_all_app, IH. cbn [bind].
    destruct (F ([e] ++ post) pre E' X') as (l1 & k1 & lf1 & I1 & A1 & K1). rewrite IH in I1.
    destruct (F post (pre ++ [e]) E X) as (l2 & k2 & lf2 & I2 & A2 & K2).
    change (AfCodes h c :: pre ++ [e]) with ((AfCodes h c :: pre) ++ [e]) in I2. rewrite codes_app, insert_all_app, IH in I2. cbn [bind] in I2.
    remember (fold_left af_do (AfCodes h c :: pre) l0) as l3 eqn:E3. assert (l1 = l3) by congruence. subst l1.
    destruct e as [e1 e2|]; cbn [codes_of flat_map app] in I2 |- *; cbn [fold_left af_do].
    + rewrite I2. rewrite (at_partial_lf l2 _ _ lf2) with (2 := A2) by (rewrite map_length, firstn_length; lia). reflexivity.
    + destruct Q as [Q|Q]; [|exfalso; apply Q, in_or_app; right; left; reflexivity].
      unfold isB. rewrite (at_not_B l3 _ _ lf1) with (4 := A1); [reflexivity| |rewrite map_length, firstn_length; lia|lia].
      rewrite <- firstn_map. rewrite <- (firstn_skipn k1 (map freq_kHz fs)) in Q. clear -Q. revert Q. generalize (firstn k1 (map freq_kHz fs)), (skipn k1 (map freq_kHz fs)). intros a b Q. induction a as [|x a IHa]; [constructor|]. inversion Q; subst. constructor; [intros Z; apply H1, in_or_app; left; exact Z|apply IHa; assumption].
Qed.

Lemma af_whole : forall fs pre l0 c1 c2, af_wf l0 -> af_transmission fs (codes_of (pre ++ [AfCodes c1 c2])) -> c1 <> filler \/ c2 <> filler ->
  NoDup (map freq_kHz fs) \/ ~ In AfMissed pre ->
  exists l', insert_all (fold_left af_do pre l0) [c1; c2] = Ok l' /\ af_at l' (length fs) (map freq_kHz fs) false.
Proof.
  intros fs pre. induction pre as [|e pre IH]; intros l0 c1 c2 W T Nf Q.
  - cbn [fold_left]. destruct (af_received l0 fs _ (proj1 W) T) as (l' & I1 & A & _). exists l'. split; [exact I1|exact A].
  - destruct e as [h c|].
    + destruct T as (L1 & L2 & cs & E & Li).
      assert (Hh : h = 224 + N.of_nat (length fs)) by (cbn [codes_of flat_map app] in E; congruence). subst h.
      assert (P : insert_all l0 (codes_of (AfCodes (224 + N.of_nat (length fs)) c :: pre)) = Ok (fold_left af_do (AfCodes (224 + N.of_nat (length fs)) c :: pre) l0)).
      { apply (run_prefix fs cs l0 c [AfCodes c1 c2] pre Li (conj L1 L2) (proj1 W) E).
        - cbn [codes_of flat_map app]. destruct Nf; [left|right; left]; assumption.
        - destruct Q as [Q|Q]; [left; exact Q|right; intros Z; apply Q; right; exact Z]. }
      destruct (af_received l0 fs _ (proj1 W) (conj L1 (conj L2 (ex_intro _ cs (conj E Li))))) as (l' & I1 & A & _).
      rewrite codes_app, insert_all_app, P in I1. exists l'. split; [exact I1|exact A].
    + destruct Q as [Q|Q]; [|exfalso; apply Q; left; reflexivity]. cbn [fold_left]. apply IH; [apply af_do_wf, W|exact T|exact Nf|left; exact Q].
Qed.

(* ---- what is shown ---- *)
Lemma jupd_same : forall p f j j', jupd p f j = Ok j' ->
  exists x, f (match jget p j with Some x => x | None => JNull end) = Ok x /\ jget p j' = Some x.
Proof.
  intros p. induction p as [|k p IH]; intros f j j' U; cbn [jupd] in U.
  - cbn [jget]. exists j'. split; [exact U|reflexivity].
  - destruct j as [|b|z|g|s|a|m]; try discriminate U.
    + destruct (jupd p f JNull) as [v| |] eqn:E; cbn [bind] in U; try discriminate U. assert (j' = JObj [(k, v)]) as -> by congruence.
      destruct (IH f JNull v E) as (x & X & G). exists x. cbn [jget obj_find]. rewrite String.eqb_refl. split; [|exact G].
      destruct p; exact X.
    + destruct (jupd p f _) as [v| |] eqn:E; cbn [bind] in U; try discriminate U. assert (j' = JObj (obj_put k v m)) as -> by congruence.
      destruct (IH f _ v E) as (x & X & G). exists x. cbn [jget]. rewrite find_put. split; [|exact G].
      destruct (obj_find k m); [exact X|]. destruct p; exact X.
Qed.
Lemma push_same : forall p l j old j', jpush_all p l j = Ok j' ->
  match jget p j with Some (JArr a) => old = a | Some _ => False | None => old = [] end ->
  jget p j' = match l, jget p j with [], x => x | _, _ => Some (JArr (old ++ l)) end.
Proof.
  intros p l. induction l as [|v l IH]; intros j old j' U Old; cbn [jpush_all] in U; [injection U as ->; reflexivity|].
  unbind U. unfold jpush in B. destruct (jupd_same _ _ _ _ B) as (x & X & G).
  assert (Ex : x = JArr (old ++ [v])). { revert X Old. generalize (jget p j). intros q X Old. destruct q as [[]|]; cbv beta iota in X, Old; try contradiction; subst old; cbn [app]; congruence. }
  specialize (IH y (old ++ [v]) j' U). rewrite G, Ex in IH. specialize (IH eq_refl). rewrite IH.
  destruct l; [reflexivity|]. rewrite <- app_assoc. reflexivity.
Qed.
Lemma push_absent : forall p l j j', jpush_all p l j = Ok j' -> jget p j = None ->
  jget p j' = match l with [] => None | _ => Some (JArr l) end.
Proof. intros p l j j' U A. rewrite (push_same p l j [] j' U); [rewrite A; reflexivity|]. rewrite A. reflexivity. Qed.
Lemma push_other : forall p q l j j', jpush_all p l j = Ok j' -> apart p q = true -> jget q j' = jget q j.
Proof.
  intros p q l. induction l as [|v l IH]; intros j j' U A; cbn [jpush_all] in U; [injection U as ->; reflexivity|].
  unbind U. rewrite (IH _ _ U A). exact (jpush_other _ _ _ _ _ B A).
Qed.

Definition af_key (k : string) : bool := existsb (String.eqb k) ["alt_frequencies_a"; "alt_frequencies_b"; "partial_alt_frequencies"].
Lemma af_key_cases : forall k (P : string -> Prop), af_key k = true -> P "alt_frequencies_a" -> P "alt_frequencies_b" -> P "partial_alt_frequencies" -> P k.
Proof.
  intros k P K A B C. unfold af_key in K. cbn [existsb] in K.
  destruct (String.eqb_spec k "alt_frequencies_a"); [subst; exact A|]. destruct (String.eqb_spec k "alt_frequencies_b"); [subst; exact B|].
  destruct (String.eqb_spec k "partial_alt_frequencies"); [subst; exact C|discriminate].
Qed.
Ltac elsewhere := repeat first
  [ erewrite jset_other; [|eassumption|reflexivity]
  | erewrite jpush_other; [|eassumption|reflexivity] ]; reflexivity.
Lemma decodeType0_shows : forall env o st g j st' j', decodeType0 env o st g j = Ok (st', j') -> g_has g BLOCK3 = true -> gt_version (g_type g) = VA ->
  exists l j1 j2, decodeAF o (st_alt_freq_list st) (g_get g BLOCK3) j1 = Ok (l, j2) /\
    (forall k r, af_key k = true -> jget (k :: r) j1 = jget (k :: r) j) /\ (forall k r, af_key k = true -> jget (k :: r) j' = jget (k :: r) j2).
Proof.
  intros env o st g j st' j' D H3 V. unfold decodeType0 in D. cbv zeta in D. do 3 unbind D. rewrite H3, V in D. cbn [negb Version_eqb] in D.
  destruct (decodeAF o (st_alt_freq_list st) (g_get g BLOCK3) y1) as [[l2 j2]| |] eqn:E2; cbn [bind] in D; try discriminate D.
  exists l2, y1, j2. split; [exact E2|]. split.
  - intros k r K. apply (af_key_cases k (fun k => jget (k :: r) y1 = jget (k :: r) j) K); elsewhere.
  - intros k r K. destruct (g_has g BLOCK4); cbn [negb] in D; [|assert (j' = j2) as -> by congruence; reflexivity].
    apply (af_key_cases k (fun k => jget (k :: r) j' = jget (k :: r) j2) K); clear K k; unfold debug in D;
    (destruct (s_isComplete _); [unbind D; assert (j' = y2) as -> by congruence; elsewhere|]; destruct (o_show_partial o);
     [destruct (s_str _ _); unbind D; assert (j' = y2) as -> by congruence; elsewhere|assert (j' = j2) as -> by congruence; reflexivity]).
Qed.

Section Last.
  Variable env : Env.
  Variable o : Options.
  Hypothesis H : host_ok env.
  Hypothesis HT : host_text env.
  Hypothesis OJ : o_output_type o = OutJSON.
  Lemma af_new : forall w, af_inv [] (Station_new w).
  Proof. reflexivity. Qed.
  Lemma af_new_pi : forall w p, af_inv [] (Station_new_pi w p).
  Proof. reflexivity. Qed.
  Lemma af_had : forall h st g, af_inv h st -> af_inv h (had st g).
  Proof. intros h st g I. unfold af_inv. rewrite had_af. exact I. Qed.

  Lemma af_last : forall w0 gs0 gs1 now g w c out p earlier evs c1 c2 fs,
    let gs := gs1 ++ [(now, g, w)] in
    Forall received_group (gs0 ++ gs) -> p <> 0 -> three p (pis gs0) -> Forall (stays p) gs ->
    Forall (fun x => af_events (grp x) <> [] -> carried_pi x = Some p) gs ->
    af_events (g, w) <> [] ->
    flat_map af_events (groups_of gs) = earlier ++ evs ++ [AfCodes c1 c2] ->
    af_transmission fs (codes_of (evs ++ [AfCodes c1 c2])) -> c1 <> filler \/ c2 <> filler ->
    NoDup (map freq_kHz fs) \/ ~ In AfMissed evs ->
    run_groups env o (Channel_new o w0) (gs0 ++ gs) = Ok (c, out) ->
    exists out' line l l' l2 b3 j1 j2, out = out' ++ [Some line] /\
      insert_all l [getUint8 b3 8; getUint8 b3 0] = Ok l' /\ af_at l' (length fs) (map freq_kHz fs) false /\
      decodeAF o l b3 j1 = Ok (l2, j2) /\ (forall k r, af_key k = true -> jget (k :: r) j1 = None) /\
      (forall k r, af_key k = true -> line_at (k :: r) line = option_map (value_of (env_float env)) (jget (k :: r) j2)).
  Proof.
    intros w0 gs0 gs1 now g w c out p earlier evs c1 c2 fs gs F Np T3 S P Pl Sg T Nf Q E.
    pose proof P as P'. apply Forall_app in P'. destruct P' as [_ P2]. inversion P2 as [|? ? Pg _]; subst. specialize (Pg Pl).
    destruct (last_shown af_inv env o H HT OJ af_new af_new_pi af_had (fun h st now c g w st' j => af_step env o h st now c g w st' j) w0 gs0 gs1 now g w c out p F Np T3 S Pg E)
      as (old & h0 & out0 & out1 & ln & c' & st & j & D0 & -> & L0 & L1 & I & So & B & _ & Dd & Lj & _ & Ad).
    set (g' := prepared o now c' g w) in *.
    specialize (Ad _ af_events P). fold gs in Ad. rewrite Sg in Ad.
    assert (R : received_group (now, g, w)) by (apply Forall_app in F; destruct F as [_ F2]; apply Forall_app in F2; destruct F2 as [_ F2]; inversion F2; assumption).
    pose proof (af_prepared o now c' g w R) as Sp. cbv zeta in Sp. fold g' in Sp.
    unfold gs in Ad. rewrite (decoded_in_app gs1 [(now, g, w)] out1 [Some ln] L1) in Ad. rewrite flat_map_app in Ad. change (decoded_in [(now, g, w)] [Some ln]) with [(g, w)] in Ad. cbn [flat_map] in Ad. rewrite app_nil_r in Ad.
    assert (Ea : af_events (g, w) = [AfCodes c1 c2] /\ flat_map af_events (decoded_in gs1 out1) = earlier ++ evs).
    { rewrite app_assoc in Ad. rewrite Sp in Ad, Pl |- *. destruct (g_has_type g' && _ && _); [|congruence]. destruct (g_has g' BLOCK3); [|apply app_inj_tail in Ad; destruct Ad; discriminate].
      destruct (Version_eqb _ _); [|congruence]. apply app_inj_tail in Ad. destruct Ad as [-> ->]. split; reflexivity. }
    clear Ad. destruct Ea as [Ea Ad]. rewrite Sp in Ea.
    destruct (g_has_type g') eqn:Ht; cbn [andb] in Ea; [|discriminate]. destruct (gt_number (g_type g') =? 0) eqn:Hn; cbn [andb] in Ea; [|discriminate].
    destruct (gt_version (g_type g')) eqn:Hv; cbn [Version_eqb negb] in Ea; try discriminate; [|destruct (g_has g' BLOCK3); discriminate].
    destruct (g_has g' BLOCK3) eqn:H3; [|discriminate]. assert (E1 : getUint8 (g_get g' BLOCK3) 8 = c1) by congruence. assert (E2 : getUint8 (g_get g' BLOCK3) 0 = c2) by congruence.
    apply N.eqb_eq in Hn.
    destruct (type0_cases env o st g' _ j Dd) as [(_ & _ & _ & D1)|([X|[X|X]] & _)]; [|congruence|rewrite Hv in X; discriminate|contradiction].
    destruct (decodeType0_shows _ _ _ _ _ _ _ D1 H3 Hv) as (l2 & j1 & j2 & D2 & G1 & G2). rewrite had_af in D2.
    unfold af_inv in I. rewrite flat_map_app, Ad, app_assoc, fold_left_app in I.
    destruct (af_whole fs evs (fold_left af_do (flat_map af_events h0 ++ earlier) af_init) c1 c2 (af_dos_wf _ _ af_init_wf) T Nf Q) as (l' & I1 & A1).
    rewrite <- I in I1.
    exists (out0 ++ out1), ln, (st_alt_freq_list st), l', l2, (g_get g' BLOCK3), j1, j2. rewrite E1, E2.
    split; [rewrite app_assoc; reflexivity|]. split; [exact I1|]. split; [exact A1|]. split; [exact D2|]. split.
    - intros k r K. rewrite (G1 k r K). destruct (header_absent env o st g' k B) as (m & Em & _ & X).
      + apply (af_key_cases k (fun k => in_header k = false) K); reflexivity.
      + injection Em as <-. cbn [jget]. rewrite (X k (String.eqb_refl k)). reflexivity.
    - intros k r K. rewrite (Lj (or_introl (type0_raw st g' Hn))), (G2 k r K). reflexivity.
  Qed.
End Last.

Lemma numbers_shown : forall env l, numbers (value_of (env_float env) (JArr (map JN l))) l.
Proof.
  intros env l. cbn [value_of]. eexists. split; [reflexivity|]. induction l as [|n l IH]; cbn [map]; constructor; [|exact IH].
  exists (dec_string n). unfold JN. cbn [value_of]. rewrite dec_string_Z_of_N. split; [reflexivity|apply dec_string_value].
Qed.
Lemma shown_array : forall env line p l x, line_at p line = option_map (value_of (env_float env)) x ->
  x = match map JN l with [] => None | _ => Some (JArr (map JN l)) end -> shows_numbers line p l.
Proof.
  intros env line p l x E ->. unfold shows_numbers. destruct l as [|n l]; [exact E|]. cbn [map option_map] in E. eexists. split; [exact E|].
  apply (numbers_shown env (n :: l)).
Qed.

Lemma method_a : forall env o w0 gs0 gs1 now g w c out p earlier evs c1 c2 fs,
  host_ok env -> host_text env -> o_output_type o = OutJSON ->
  let gs := gs1 ++ [(now, g, w)] in
  Forall received_group (gs0 ++ gs) -> p <> 0 -> three p (pis gs0) -> Forall (stays p) gs ->
  Forall (fun x => af_events (grp x) <> [] -> carried_pi x = Some p) gs ->
  af_events (g, w) <> [] ->
  flat_map af_events (groups_of gs) = earlier ++ evs ++ [AfCodes c1 c2] ->
  af_transmission fs (codes_of (evs ++ [AfCodes c1 c2])) -> c1 <> filler \/ c2 <> filler ->
  NoDup (map freq_kHz fs) ->
  run_groups env o (Channel_new o w0) (gs0 ++ gs) = Ok (c, out) ->
  exists out' line, out = out' ++ [Some line] /\ shows_numbers line ["alt_frequencies_a"] (map freq_kHz fs) /\ lacks line "alt_frequencies_b".
Proof.
  intros env o w0 gs0 gs1 now g w c out p earlier evs c1 c2 fs H HT OJ gs F Np T3 S P Pl Sg T Nf Nd E.
  destruct (af_last env o H HT OJ w0 gs0 gs1 now g w c out p earlier evs c1 c2 fs F Np T3 S P Pl Sg T Nf (or_introl Nd) E)
    as (out' & line & l & l' & l2 & b3 & j1 & j2 & -> & I1 & A1 & D & Ab & Sh).
  exists out', line. split; [reflexivity|]. destruct T as (T1 & T2 & _).
  destruct (at_full l' _ _ T1 T2 (map_length _ _) A1) as [Cp Rw].
  assert (NB : af_isMethodB l' = Ok false) by (apply (at_not_B l' (length fs) _ false Nd); [rewrite map_length; lia|exact T2|exact A1]).
  unfold decodeAF in D. cbn [insert_all] in I1. unbind I1. cbn [bind] in D. unbind I1. cbn [bind] in D. injection I1 as ->. rewrite Cp, Rw in D. cbn [bind] in D. rewrite NB in D. cbn [bind] in D.
  unbind D. assert (y0 = j2) by congruence. subst y0. split.
  - eapply shown_array; [apply Sh; reflexivity|]. apply (push_absent _ _ _ _ B1). apply Ab. reflexivity.
  - unfold lacks. rewrite Sh by reflexivity. rewrite (push_other _ _ _ _ _ B1) by reflexivity. rewrite Ab by reflexivity. reflexivity.
Qed.

Lemma b_pairs_length : forall t es, length (flat_map (b_pair t) es) = (2 * length es)%nat.
Proof. intros t es. induction es as [|e es IH]; [reflexivity|]. cbn [flat_map]. rewrite app_length, IH. destruct e; cbn [b_pair]; destruct (_ <? _); cbn [length]; lia. Qed.
Lemma b_pair_two : forall t e, exists a b, b_pair t e = [a; b] /\ (a = t \/ b = t).
Proof. intros t [f|f]; cbn [b_pair]; destruct (f <? t); eauto 6. Qed.
Lemma B_loop : forall t a es pre rest fuel, a = pre ++ flat_map (b_pair t) es ++ rest -> (length es <= fuel)%nat ->
  methodB_loop fuel a t (N.of_nat (length pre) + 2 * N.of_nat (length es)) (N.of_nat (length pre)) = Ok true.
Proof.
  intros t a es. induction es as [|e es IH]; intros pre rest fuel Ea Hf.
  - destruct fuel; [reflexivity|]. cbn [methodB_loop length]. assert (N.of_nat (length pre) <? N.of_nat (length pre) + 2 * N.of_nat 0 = false) as -> by (apply N.ltb_ge; lia). reflexivity.
  - destruct fuel as [|fuel]; [cbn [length] in Hf; lia|]. cbn [methodB_loop]. cbn [length].
    assert (N.of_nat (length pre) <? N.of_nat (length pre) + 2 * N.of_nat (S (length es)) = true) as -> by (apply N.ltb_lt; lia).
    destruct (b_pair_two t e) as (x & y & Ep & Xy). cbn [flat_map] in Ea. rewrite Ep in Ea. cbn [app] in Ea.
    assert (G1 : arr_get a (N.of_nat (length pre)) = Ok x).
    { unfold arr_get. rewrite Nat2N.id, Ea, nth_error_app2, Nat.sub_diag by lia. reflexivity. }
    assert (G2 : arr_get a (N.of_nat (length pre) + 1) = Ok y).
    { unfold arr_get. replace (N.to_nat (N.of_nat (length pre) + 1)) with (length pre + 1)%nat by lia. rewrite Ea, nth_error_app2 by lia. replace (length pre + 1 - length pre)%nat with 1%nat by lia. reflexivity. }
    rewrite G1. cbn [bind]. rewrite G2. cbn [bind].
    assert (negb (x =? t) && negb (y =? t) = false) as ->. { destruct Xy as [Xy|Xy]; rewrite Xy, N.eqb_refl; [reflexivity|apply andb_false_r]. }
    specialize (IH (pre ++ [x; y]) rest fuel). rewrite app_length in IH. cbn [length] in IH.
    replace (N.of_nat (length pre + 2)) with (N.of_nat (length pre) + 2) in IH by lia.
    replace (N.of_nat (length pre) + 2 * N.of_nat (S (length es))) with (N.of_nat (length pre) + 2 + 2 * N.of_nat (length es)) by lia.
    apply IH; [|cbn [length] in Hf; lia]. rewrite <- app_assoc. exact Ea.
Qed.
Lemma at_B : forall l t es lf, es <> [] -> af_at l (length (b_list t es)) (b_list t es) lf -> af_isMethodB l = Ok true.
Proof.
  intros l t es lf Ne (L & En & Er & Eg & _). unfold af_isMethodB. rewrite En, Er. unfold b_list in *. cbn [length] in *. rewrite b_pairs_length in *.
  assert (O : N.of_nat (S (2 * length es)) mod 2 = 1). { replace (N.of_nat (S (2 * length es))) with (1 + N.of_nat (length es) * 2) by lia. rewrite N.mod_add by discriminate. reflexivity. }
  rewrite O. cbn [N.eqb Pos.eqb negb orb]. assert (N.of_nat (S (2 * length es)) <? 3 = false) as -> by (destruct es; [contradiction|cbn [length]; apply N.ltb_ge; lia]).
  rewrite <- (firstn_skipn (S (2 * length es)) (alt_freqs l)). rewrite Eg.
  change (arr_get ((t :: flat_map (b_pair t) es) ++ skipn (S (2 * length es)) (alt_freqs l)) 0) with (@Ok N t). cbn [bind].
  replace (N.of_nat (S (2 * length es))) with (N.of_nat (length [t]) + 2 * N.of_nat (length es)) by (cbn [length]; lia).
  apply (B_loop t _ es [t] (skipn (S (2 * length es)) (alt_freqs l))); [reflexivity|]. change (length [t]) with 1%nat. clear. lia.
Qed.
Lemma B_pairs : forall t es, Forall (fun e => entry_freq e <> t) es -> methodB_pairs t (flat_map (b_pair t) es) = Ok (same_programme es, regional_variants es).
Proof.
  intros t es F. induction F as [|e es Ne F IH]; [reflexivity|]. destruct e as [f|f]; cbn [entry_freq] in Ne; cbn [flat_map b_pair same_programme regional_variants];
  destruct (f <? t) eqn:Lt; cbn [app methodB_pairs]; rewrite IH; cbn [bind].
  - rewrite Lt. assert (f =? t = false) as -> by (apply N.eqb_neq; exact Ne). reflexivity.
  - rewrite N.eqb_refl. assert (t <? f = true) as -> by (apply N.ltb_lt; apply N.ltb_ge in Lt; lia). reflexivity.
  - rewrite N.eqb_refl. assert (t <? f = false) as -> by (apply N.ltb_ge; apply N.ltb_lt in Lt; lia). reflexivity.
  - rewrite Lt. assert (f =? t = false) as -> by (apply N.eqb_neq; exact Ne). reflexivity.
Qed.
Lemma split_length : forall es, (length (same_programme es) + length (regional_variants es) = length es)%nat.
Proof. induction es as [|[f|f] es IH]; unfold same_programme, regional_variants in *; cbn [flat_map app length] in *; lia. Qed.
Lemma unique_all : forall l, NoDup l -> unique_count l = N.of_nat (length l).
Proof. intros l Nd. unfold unique_count. rewrite nodup_fixed_point by exact Nd. reflexivity. Qed.

Lemma method_b : forall env o w0 gs0 gs1 now g w c out p earlier evs c1 c2 fs tuned es,
  host_ok env -> host_text env -> o_output_type o = OutJSON ->
  let gs := gs1 ++ [(now, g, w)] in
  Forall received_group (gs0 ++ gs) -> p <> 0 -> three p (pis gs0) -> Forall (stays p) gs ->
  Forall (fun x => af_events (grp x) <> [] -> carried_pi x = Some p) gs ->
  af_events (g, w) <> [] ->
  flat_map af_events (groups_of gs) = earlier ++ evs ++ [AfCodes c1 c2] -> ~ In AfMissed evs ->
  af_transmission fs (codes_of (evs ++ [AfCodes c1 c2])) -> c1 <> filler \/ c2 <> filler ->
  map freq_kHz fs = b_list tuned es -> es <> [] -> Forall (fun e => entry_freq e <> tuned) es ->
  NoDup (same_programme es) -> NoDup (regional_variants es) ->
  run_groups env o (Channel_new o w0) (gs0 ++ gs) = Ok (c, out) ->
  exists out' line, out = out' ++ [Some line] /\
    (exists t, says line ["alt_frequencies_b"; "tuned_frequency"] (VNum t) /\ numeral 10 t = Some tuned) /\
    shows_numbers line ["alt_frequencies_b"; "same_programme"] (same_programme es) /\
    shows_numbers line ["alt_frequencies_b"; "regional_variants"] (regional_variants es) /\
    lacks line "alt_frequencies_a".
Proof.
  intros env o w0 gs0 gs1 now g w c out p earlier evs c1 c2 fs tuned es H HT OJ gs F Np T3 S P Pl Sg Nm T Nf Eb Ne Nt Nd1 Nd2 E.
  destruct (af_last env o H HT OJ w0 gs0 gs1 now g w c out p earlier evs c1 c2 fs F Np T3 S P Pl Sg T Nf (or_intror Nm) E)
    as (out' & line & l & l' & l2 & b3 & j1 & j2 & -> & I1 & A1 & D & Ab & Sh).
  exists out', line. split; [reflexivity|]. destruct T as (T1 & T2 & _).
  destruct (at_full l' _ _ T1 T2 (map_length _ _) A1) as [Cp Rw].
  assert (Hl : length fs = length (b_list tuned es)) by (rewrite <- Eb, map_length; reflexivity). rewrite Eb in A1, Rw. rewrite Hl in A1.
  pose proof (at_B l' _ _ _ Ne A1) as NB.
  unfold decodeAF in D. cbn [insert_all] in I1. unbind I1. cbn [bind] in D. unbind I1. cbn [bind] in D. injection I1 as ->. rewrite Cp, Rw in D. cbn [bind] in D. rewrite NB in D. cbn [bind] in D.
  unfold b_list at 1 in D. cbn [bind] in D. rewrite (B_pairs tuned es Nt) in D. cbn [bind] in D. rewrite (unique_all _ Nd1), (unique_all _ Nd2) in D.
  assert (N.of_nat (length (same_programme es)) + N.of_nat (length (regional_variants es)) =? N.of_nat (length (b_list tuned es)) / 2 = true) as Ec.
  { apply N.eqb_eq. unfold b_list. cbn [length]. rewrite b_pairs_length. pose proof (split_length es).
    replace (N.of_nat (Datatypes.S (2 * length es))) with (1 + N.of_nat (length es) * 2) by lia. rewrite N.div_add by discriminate. change (1 / 2) with 0. lia. }
  rewrite Ec in D. unbind D. assert (y0 = j2) by congruence. subst y0. clear D. do 2 unbind B1.
  repeat split.
  - exists (dec_string tuned). split; [|apply dec_string_value]. unfold says. rewrite Sh by reflexivity.
    rewrite (push_other _ _ _ _ _ B1) by reflexivity. rewrite (push_other _ _ _ _ _ B3) by reflexivity. rewrite (jset_same _ _ _ _ B2). unfold JN. cbn [option_map value_of]. rewrite dec_string_Z_of_N. reflexivity.
  - eapply shown_array; [apply Sh; reflexivity|]. rewrite (push_other _ _ _ _ _ B1) by reflexivity. apply (push_absent _ _ _ _ B3). rewrite (jset_other _ _ _ _ _ B2) by reflexivity. apply Ab. reflexivity.
  - eapply shown_array; [apply Sh; reflexivity|]. apply (push_absent _ _ _ _ B1). rewrite (push_other _ _ _ _ _ B3) by reflexivity. rewrite (jset_other _ _ _ _ _ B2) by reflexivity. apply Ab. reflexivity.
  - unfold lacks. rewrite Sh by reflexivity. rewrite (push_other _ _ _ _ _ B1) by reflexivity. rewrite (push_other _ _ _ _ _ B3) by reflexivity. rewrite (jset_other _ _ _ _ _ B2) by reflexivity. rewrite Ab by reflexivity. reflexivity.
Qed.
