(* Alternative frequencies shown are those received since the count code. *)
From Verif.Model Require Import Util Group Options Tables Json Freq RdsString Tmc Station Channel.
From Verif.Spec Require Import Numerals Frequencies Unicode JsonText Session Identity History Quality Texts.
From Verif.Proofs Require Import Tac Numerals FreqP JsonP Schema StationP TextP CleanP UpdateP SessionP LineP FrameP ChannelP LinesP HistoryP ShowP TraceP KeysP GetP FieldsP StringP PsP EndP AfP.

Local Open Scope string_scope.
Local Open Scope N_scope.
Local Open Scope list_scope.

Definition kept (l : AltFreqList) (codes : list N) : Prop :=
  af_wf l /\ (0 < num_expected l -> exists pre after, codes = pre ++ (224 + num_expected l) :: after /\
    fold_left read_code after (Some (false, [])) = Some (lf_mf_follows l, firstn (N.to_nat (num_received l)) (alt_freqs l))).

Lemma kept_init : kept af_init [].
Proof. split; [apply af_init_wf|]. intros H. cbn in H. lia. Qed.

Lemma clear_kept : forall l codes, af_wf l -> kept (af_clear l) codes.
Proof. intros l codes W. split; [apply af_clear_wf, W|]. cbn [af_clear num_expected]. lia. Qed.

Lemma lf_kHz : forall c (b : bool), 1 <= c -> c <= (if b then 135 else 204) -> cf_kHz (mkFreq c (if b then LF_MF else FM)) = freq_kHz (if b then TxLFMF c else TxFM c).
Proof. intros c [] H1 H2; [apply (kHz_of (TxLFMF c))|apply (kHz_of (TxFM c))]; cbn [tx_freq_ok]; lia. Qed.
Lemma kept_insert : forall l codes c l', kept l codes -> af_insert l c = Ok l' -> kept l' (codes ++ [c]).
Proof.
  intros l codes c l' [W K] I. destruct (af_insert_wf l c W) as (l1 & I1 & W1). assert (l1 = l') by congruence. subst l1. split; [exact W1|].
  destruct l as [a ne nr lf]. unfold af_insert in I. cbn [alt_freqs num_expected num_received lf_mf_follows] in *. destruct W as (Wa & Wb & Wc). cbn [alt_freqs num_expected num_received] in Wa, Wb, Wc.
  set (f := mkFreq c (if lf then LF_MF else FM)) in *.
  assert (Vf : cf_isValid f = (1 <=? c) && (c <=? (if lf then 135 else 204))) by (unfold f; destruct lf; reflexivity).
  destruct (cf_isValid f && (0 <? ne)) eqn:V.
  - apply andb_prop in V. destruct V as [V Ne]. rewrite V in Vf. symmetry in Vf. pose proof Vf as Vf'. apply andb_prop in Vf'. destruct Vf' as [V1 V2]. apply N.leb_le in V1, V2. apply N.ltb_lt in Ne.
    destruct (nr <? ne) eqn:Lt.
    + apply N.ltb_lt in Lt. unbind I. assert (l' = mkAF y ne (nr + 1) false) as -> by congruence. cbn [num_expected num_received alt_freqs lf_mf_follows]. intros _.
      destruct (K Ne) as (pre & after & -> & R). exists pre, (after ++ [c]). split; [rewrite <- app_assoc; reflexivity|]. rewrite fold_left_app, R. cbn [fold_left read_code].
      assert (c =? 250 = false) as -> by (apply N.eqb_neq; destruct lf; lia).
      assert ((c =? filler) || (c =? 224) = false) as -> by (apply orb_false_iff; unfold filler; split; apply N.eqb_neq; destruct lf; lia). rewrite Vf. do 2 f_equal.
      unfold arr_set in B. destruct (nr <? N.of_nat (length a)); [|discriminate B]. assert (y = list_set a (N.to_nat nr) (cf_kHz f)) as -> by congruence.
      replace (N.to_nat (nr + 1)) with (S (N.to_nat nr)) by lia. rewrite firstn_list_set_snoc by lia. f_equal. f_equal. unfold f. rewrite (lf_kHz c lf V1 V2). reflexivity.
    + assert (l' = af_clear (mkAF a ne nr false)) as -> by congruence. cbn [af_clear num_expected]. lia.
  - assert (R0 : 0 < ne -> (1 <=? c) && (c <=? (if lf then 135 else 204)) = false).
    { intros P. apply N.ltb_lt in P. rewrite P, andb_true_r, Vf in V. exact V. }
    destruct ((c =? 205) || (c =? 224)) eqn:F0.
    + assert (l' = mkAF a ne nr false) as -> by congruence. cbn [num_expected num_received alt_freqs lf_mf_follows]. intros P. destruct (K P) as (pre & after & -> & R).
      exists pre, (after ++ [c]). split; [rewrite <- app_assoc; reflexivity|]. rewrite fold_left_app, R. cbn [fold_left read_code].
      assert (c =? 250 = false) as -> by (apply N.eqb_neq; apply orb_prop in F0; destruct F0 as [F0|F0]; apply N.eqb_eq in F0; lia). unfold filler. rewrite F0. reflexivity.
    + destruct ((225 <=? c) && (c <=? 249)) eqn:Hd.
      * assert (l' = mkAF a (c - 224) 0 false) as -> by congruence. cbn [num_expected num_received alt_freqs lf_mf_follows]. intros _. exists codes, []. apply andb_prop in Hd. destruct Hd as [H1 H2]. apply N.leb_le in H1, H2.
        split; [f_equal; f_equal; lia|]. reflexivity.
      * destruct (c =? 250) eqn:F5.
        -- assert (l' = mkAF a ne nr true) as -> by congruence. cbn [num_expected num_received alt_freqs lf_mf_follows]. intros P. destruct (K P) as (pre & after & -> & R).
           exists pre, (after ++ [c]). split; [rewrite <- app_assoc; reflexivity|]. rewrite fold_left_app, R. cbn [fold_left read_code]. rewrite F5. reflexivity.
        -- assert (l' = af_clear (mkAF a ne nr false)) as -> by congruence. cbn [af_clear num_expected]. lia.
Qed.
Lemma kept_do : forall l codes e, kept l codes -> kept (af_do l e) (codes ++ codes_of [e]).
Proof.
  intros l codes [c1 c2|] K; cbn [af_do codes_of flat_map app].
  - destruct (insert_all_wf [c1; c2] l (proj1 K)) as (l2 & E & W2). rewrite E. cbn [insert_all] in E. unbind E. unbind E. injection E as ->.
    pose proof (kept_insert _ _ _ _ (kept_insert _ _ _ _ K B) B0) as K2. rewrite <- app_assoc in K2. destruct (af_isComplete l2); [apply clear_kept, W2|exact K2].
  - rewrite app_nil_r. destruct (isB l); [apply clear_kept, K|exact K].
Qed.
Lemma kept_dos : forall evs l codes, kept l codes -> kept (fold_left af_do evs l) (codes ++ codes_of evs).
Proof.
  induction evs as [|e evs IH]; intros l codes K; cbn [fold_left]; [rewrite app_nil_r; exact K|].
  change (e :: evs) with ([e] ++ evs). rewrite codes_app, app_assoc. apply IH, kept_do, K.
Qed.
Lemma kept_since : forall l codes, kept l codes -> 0 < num_received l ->
  exists raw, af_getRawList l = Ok raw /\ since_count codes (num_expected l) raw /\ N.of_nat (length raw) = num_received l /\ num_received l <= num_expected l.
Proof.
  intros l codes [(Wa & Wb & Wc) K] Pr. destruct K as (pre & after & -> & R); [lia|].
  exists (firstn (N.to_nat (num_received l)) (alt_freqs l)). unfold af_getRawList. assert (num_received l <=? N.of_nat (length (alt_freqs l)) = true) as -> by (apply N.leb_le; lia).
  split; [reflexivity|]. split; [exists pre, after, (lf_mf_follows l); split; [reflexivity|]; split; [lia|exact R]|]. split; [rewrite firstn_length; lia|exact Wb].
Qed.

Definition entry_of (t x y : N) : b_entry :=
  let f := if x =? t then y else x in if x <? y then SameProgramme f else RegionalVariant f.
Lemma entry_pair : forall t x y, x = t \/ y = t -> b_pair t (entry_of t x y) = [x; y].
Proof.
  intros t x y D. unfold entry_of. cbv zeta. destruct (N.ltb_spec x y) as [L|L]; cbn [b_pair]; destruct (N.eqb_spec x t) as [->|Nx].
  - assert (y <? t = false) as -> by (apply N.ltb_ge; lia). reflexivity.
  - destruct D as [D|D]; [contradiction|]. subst y. assert (x <? t = true) as -> by (apply N.ltb_lt; lia). reflexivity.
  - destruct (N.ltb_spec y t); [reflexivity|]. assert (y = t) as -> by lia. reflexivity.
  - destruct D as [D|D]; [contradiction|]. subst y. assert (x <? t = false) as -> by (apply N.ltb_ge; lia). reflexivity.
Qed.
Lemma loop_entries : forall k t a fuel pre rest tl, a = pre ++ rest ++ tl -> length rest = (2 * k)%nat -> (k <= fuel)%nat ->
  methodB_loop fuel a t (N.of_nat (length pre) + 2 * N.of_nat k) (N.of_nat (length pre)) = Ok true ->
  exists es, rest = flat_map (b_pair t) es /\ methodB_pairs t rest = Ok (same_programme es, regional_variants es).
Proof.
  induction k as [|k IH]; intros t a fuel pre rest tl Ea Hl Hf L.
  - destruct rest; [|discriminate]. exists []. split; reflexivity.
  - destruct rest as [|x [|y rest]]; cbn [length] in Hl; try lia. destruct fuel as [|fuel]; [lia|]. cbn [methodB_loop] in L.
    assert (N.of_nat (length pre) <? N.of_nat (length pre) + 2 * N.of_nat (S k) = true) as Lt by (apply N.ltb_lt; lia). rewrite Lt in L.
    assert (G1 : arr_get a (N.of_nat (length pre)) = Ok x).
    { unfold arr_get. rewrite Nat2N.id, Ea, nth_error_app2, Nat.sub_diag by lia. reflexivity. }
    assert (G2 : arr_get a (N.of_nat (length pre) + 1) = Ok y).
    { unfold arr_get. replace (N.to_nat (N.of_nat (length pre) + 1)) with (length pre + 1)%nat by lia. rewrite Ea, nth_error_app2 by lia. replace (length pre + 1 - length pre)%nat with 1%nat by lia. reflexivity. }
    rewrite G1 in L. cbn [bind] in L. rewrite G2 in L. cbn [bind] in L.
    destruct (negb (x =? t) && negb (y =? t)) eqn:Xy; [discriminate|].
    assert (D : x = t \/ y = t). { apply andb_false_iff in Xy. destruct Xy as [X|X]; apply negb_false_iff, N.eqb_eq in X; [left|right]; exact X. }
    destruct (IH t a fuel (pre ++ [x; y]) rest tl) as (es & Er & Ep).
    + rewrite <- app_assoc. exact Ea.
    + lia.
    + lia.
    + rewrite app_length. cbn [length]. replace (N.of_nat (length pre + 2)) with (N.of_nat (length pre) + 2) by lia.
      replace (N.of_nat (length pre) + 2 + 2 * N.of_nat k) with (N.of_nat (length pre) + 2 * N.of_nat (S k)) by lia. exact L.
    + exists (entry_of t x y :: es). split; [cbn [flat_map]; rewrite (entry_pair t x y D), Er; reflexivity|].
      cbn [methodB_pairs]. rewrite Ep. cbn [bind]. unfold entry_of. cbv zeta. destruct (x <? y); reflexivity.
Qed.
Lemma B_raw : forall l raw, af_wf l -> af_isComplete l = true -> af_getRawList l = Ok raw -> af_isMethodB l = Ok true ->
  exists t es, raw = b_list t es /\ methodB_pairs t (flat_map (b_pair t) es) = Ok (same_programme es, regional_variants es).
Proof.
  intros l raw (Wa & Wb & Wc) Cp Rw Mb. unfold af_getRawList in Rw. destruct (num_received l <=? _) eqn:Lr; [|discriminate]. assert (raw = firstn (N.to_nat (num_received l)) (alt_freqs l)) as -> by congruence. clear Rw.
  apply andb_prop in Cp. destruct Cp as [Ce Cz]. apply N.eqb_eq in Ce. apply N.ltb_lt in Cz.
  unfold af_isMethodB in Mb. destruct (num_expected l mod 2 =? 1) eqn:Od; cbn [negb orb] in Mb; [|discriminate]. destruct (num_received l <? 3); [discriminate|].
  apply N.eqb_eq in Od. rewrite Ce in Od. unbind Mb. rename y into t.
  assert (Hk : exists k, num_received l = N.of_nat (length [t]) + 2 * N.of_nat k).
  { exists (N.to_nat (num_received l / 2)). rewrite N2Nat.id. pose proof (N.div_mod (num_received l) 2 ltac:(discriminate)). cbn [length]. lia. }
  destruct Hk as (k & Hk). cbn [length] in Hk.
  destruct (alt_freqs l) as [|t' r] eqn:Ea; [discriminate B|]. assert (t' = t) by (cbn in B; congruence). subst t'.
  replace (N.to_nat (num_received l)) with (S (2 * k)) in Mb |- * by lia. cbn [firstn].
  change 1 with (N.of_nat (length [t])) in Mb. rewrite Hk in Mb.
  destruct (loop_entries k t (t :: r) (S (2 * k)) [t] (firstn (2 * k) r) (skipn (2 * k) r)) as (es & Er & Ep).
  - cbn [app]. rewrite firstn_skipn. reflexivity.
  - rewrite firstn_length. cbn [length] in Wa. lia.
  - lia.
  - exact Mb.
  - exists t, es. split; [unfold b_list; rewrite Er; reflexivity|]. rewrite <- Er. exact Ep.
Qed.

(* What the frequency list of a group shows *)
Definition shown_since (codes : list N) (get : string -> list string -> option json) : Prop :=
  (get "alt_frequencies_a" [] = None \/ exists raw, get "alt_frequencies_a" [] = Some (JArr (map JN raw)) /\ since_count codes (N.of_nat (length raw)) raw) /\
  (get "partial_alt_frequencies" [] = None \/ exists raw n, get "partial_alt_frequencies" [] = Some (JArr (map JN raw)) /\ since_count codes n raw /\ N.of_nat (length raw) < n) /\
  (get "alt_frequencies_b" [] = None \/ exists t es, since_count codes (N.of_nat (length (b_list t es))) (b_list t es) /\
     get "alt_frequencies_b" ["tuned_frequency"] = Some (JN t) /\
     (forall k l, (k, l) = ("same_programme", same_programme es) \/ (k, l) = ("regional_variants", regional_variants es) ->
        get "alt_frequencies_b" [k] = match map JN l with [] => None | _ => Some (JArr (map JN l)) end)).
Lemma decodeAF_shown : forall o l codes b j l' j', kept l codes -> decodeAF o l b j = Ok (l', j') ->
  (forall k r, af_key k = true -> jget (k :: r) j = None) ->
  shown_since (codes ++ [getUint8 b 8; getUint8 b 0]) (fun k r => jget (k :: r) j').
Proof.
  intros o l codes b j l' j' K D Ab. unfold decodeAF in D. unbind D. unbind D.
  pose proof (kept_insert _ _ _ _ (kept_insert _ _ _ _ K B) B0) as K2. rewrite <- app_assoc in K2. cbn [app] in K2. unfold shown_since.
  destruct (af_isComplete y0) eqn:Cp.
  - unbind D. unbind D. pose proof Cp as Cp'. apply andb_prop in Cp'. destruct Cp' as [Ce Cz]. apply N.eqb_eq in Ce. apply N.ltb_lt in Cz.
    destruct (kept_since _ _ K2 Cz) as (raw & Rw & Sc & Ln & _). assert (y1 = raw) by congruence. subst y1. rewrite Ce, <- Ln in Sc.
    destruct y2.
    + destruct (B_raw y0 raw (proj1 K2) Cp Rw B2) as (t & es & -> & Ep). unfold b_list at 1 in D. rewrite Ep in D. cbn [bind] in D. unbind D. assert (y1 = j') by congruence. subst y1.
      destruct (_ =? _).
      * do 2 unbind B3.
        assert (Ot : forall q, match q with [] => False | k :: _ => k <> "alt_frequencies_b" end -> jget q j' = jget q j).
        { intros q Hq. destruct q as [|k q]; [destruct Hq|]. assert (Ap : forall x, apart ["alt_frequencies_b"; x] (k :: q) = true) by (intros x; cbn [apart]; destruct (String.eqb_spec "alt_frequencies_b" k); [congruence|reflexivity]).
          rewrite (push_other _ _ _ _ _ B3 (Ap _)), (push_other _ _ _ _ _ B5 (Ap _)), (jset_other _ _ _ _ _ B4 (Ap _)). reflexivity. }
        split; [left; rewrite Ot by discriminate; apply Ab; reflexivity|]. split; [left; rewrite Ot by discriminate; apply Ab; reflexivity|].
        right. exists t, es. split; [exact Sc|]. split; [rewrite (push_other _ _ _ _ _ B3), (push_other _ _ _ _ _ B5) by reflexivity; exact (jset_same _ _ _ _ B4)|].
        intros k l0 [X|X]; injection X as -> ->.
        -- rewrite (push_other _ _ _ _ _ B3) by reflexivity. apply (push_absent _ _ _ _ B5). rewrite (jset_other _ _ _ _ _ B4) by reflexivity. apply Ab. reflexivity.
        -- apply (push_absent _ _ _ _ B3). rewrite (push_other _ _ _ _ _ B5) by reflexivity. rewrite (jset_other _ _ _ _ _ B4) by reflexivity. apply Ab. reflexivity.
      * assert (j' = j) as -> by congruence. repeat split; left; apply Ab; reflexivity.
    + unbind D. assert (y1 = j') by congruence. subst y1.
      split; [|split; left; rewrite (push_other _ _ _ _ _ B3) by reflexivity; apply Ab; reflexivity].
      right. exists raw. split; [|exact Sc]. rewrite (push_absent _ _ _ _ B3 (Ab "alt_frequencies_a" [] eq_refl)). destruct raw; [cbn [length] in Ln; lia|reflexivity].
  - destruct (o_show_partial o).
    + unbind D. unbind D. assert (y2 = j') by congruence. subst y2.
      split; [left; rewrite (push_other _ _ _ _ _ B2) by reflexivity; apply Ab; reflexivity|].
      split; [|left; rewrite (push_other _ _ _ _ _ B2) by reflexivity; apply Ab; reflexivity].
      destruct (N.eq_dec (num_received y0) 0) as [Z|Z].
      * left. unfold af_getRawList in B1. destruct (_ <=? _); [|discriminate B1]. rewrite Z in B1. cbn [N.to_nat firstn] in B1. assert (y1 = []) as -> by congruence.
        cbn [map jpush_all] in B2. assert (j' = j) as -> by congruence. apply Ab. reflexivity.
      * right. destruct (kept_since _ _ K2 ltac:(lia)) as (raw & Rw & Sc & Ln & Le). assert (y1 = raw) by congruence. subst y1. exists raw, (num_expected y0).
        split; [rewrite (push_absent _ _ _ _ B2 (Ab "partial_alt_frequencies" [] eq_refl)); destruct raw; [cbn [length] in Ln; lia|reflexivity]|]. split; [exact Sc|].
        rewrite Ln. unfold af_isComplete in Cp. apply andb_false_iff in Cp. destruct Cp as [Cp|Cp]; [apply N.eqb_neq in Cp; lia|apply N.ltb_ge in Cp; lia].
    + assert (j' = j) as -> by congruence. repeat split; left; apply Ab; reflexivity.
Qed.

Lemma decodeType0_quiet : forall env o st g j st' j', decodeType0 env o st g j = Ok (st', j') ->
  g_has g BLOCK3 = false \/ Version_eqb (gt_version (g_type g)) VA = false -> forall k r, af_key k = true -> jget (k :: r) j' = jget (k :: r) j.
Proof.
  intros env o st g j st' j' D Q k r K. unfold decodeType0 in D. cbv zeta in D. do 3 unbind D.
  apply (af_key_cases k (fun k => jget (k :: r) j' = jget (k :: r) j) K); clear K k; unfold debug in D;
  (destruct (g_has g BLOCK3); cbn [negb] in D; [|unbind D; assert (j' = y1) as -> by congruence; elsewhere];
   destruct Q as [Q|Q]; [discriminate|]; rewrite Q in D; cbn [bind] in D;
   destruct (g_has g BLOCK4); cbn [negb] in D; [|assert (j' = y1) as -> by congruence; elsewhere];
   destruct (s_isComplete _); [unbind D; assert (j' = y2) as -> by congruence; elsewhere|]; destruct (o_show_partial o);
     [destruct (s_str _ _); unbind D; assert (j' = y2) as -> by congruence; elsewhere|assert (j' = y1) as -> by congruence; elsewhere]).
Qed.
Lemma type0_only : forall o st g, g_has_type g = true -> Version_eqb (gt_version (g_type g)) VC = true \/ gt_number (g_type g) <> 0 ->
  forall k, af_key k = true -> existsb (String.eqb k) (type_keys o st g) = false.
Proof.
  intros o st g Ht No k K. apply (af_key_cases k (fun k => existsb (String.eqb k) (type_keys o st g) = false) K); clear K k.
  all: destruct No as [No|No]; [unfold type_keys; cbv zeta; rewrite No; reflexivity|].
  all: apply N.eqb_neq in No; unfold type_keys, app_keys; cbv zeta; rewrite No; by_cases.
Qed.

Lemma af_sound : forall env o w0 gs now g w c out line, host_ok env -> o_output_type o = OutJSON -> Forall received_group (gs ++ [(now, g, w)]) ->
  run_groups env o (Channel_new o w0) (gs ++ [(now, g, w)]) = Ok (c, out ++ [Some line]) ->
  let codes := codes_of (flat_map af_events (decoded_in (gs ++ [(now, g, w)]) (out ++ [Some line]))) in
  (forall v, says line ["alt_frequencies_a"] v -> exists freqs, numbers v freqs /\ since_count codes (N.of_nat (length freqs)) freqs) /\
  (forall v, says line ["partial_alt_frequencies"] v -> exists freqs n, numbers v freqs /\ since_count codes n freqs /\ N.of_nat (length freqs) < n) /\
  (forall v, says line ["alt_frequencies_b"] v -> exists tuned es, since_count codes (N.of_nat (length (b_list tuned es))) (b_list tuned es) /\
     (exists t, says line ["alt_frequencies_b"; "tuned_frequency"] (VNum t) /\ numeral 10 t = Some tuned) /\
     shows_numbers line ["alt_frequencies_b"; "same_programme"] (same_programme es) /\
     shows_numbers line ["alt_frequencies_b"; "regional_variants"] (regional_variants es)).
Proof.
  intros env o w0 gs now g w c out line H OJ F E codes. destruct (host_env env H) as [Ee FL].
  destruct (last_group af_inv env o H OJ af_new af_new_pi af_had (fun h st now c g w st' j => af_step env o h st now c g w st' j) gs now g w w0 c out line F E)
    as (old & h & st & c1 & j & D & I & So & Dd & Pj & B & Hc & _).
  set (g' := prepared o now c1 g w) in *.
  assert (R : received_group (now, g, w)) by (apply Forall_app in F; destruct F as [_ F2]; inversion F2; assumption).
  assert (Ln : (forall q, line_at q line = option_map (value_of (env_float env)) (jget q j)) \/ (forall k r, k <> "debug" -> line_at (k :: r) line = None)).
  { destruct (print_good env j Ee) as (j' & Pj' & _ & X). rewrite Pj' in Pj. injection Pj as <-. destruct X as [->|[_ ->]]; [left|right].
    - intros q. apply line_at_dump, FL.
    - intros k r Nk. rewrite line_at_dump by exact FL. cbn [jget obj_find]. destruct (String.eqb_spec k "debug"); [contradiction|reflexivity]. }
  destruct Ln as [Ln|No]. 2: { unfold says. repeat split; intros v X; rewrite No in X by discriminate; discriminate. }
  assert (Sh : shown_since codes (fun k r => jget (k :: r) j)).
  { assert (None_ : (forall k, af_key k = true -> jget [k] j = None) -> shown_since codes (fun k r => jget (k :: r) j)).
    { intros X. unfold shown_since. repeat split; left; apply X; reflexivity. }
    destruct (type0_cases env o st g' _ j Dd) as [(Ht & Hv & Hn & D1)|(No & _ & _)].
    - pose proof (af_prepared o now c1 g w R) as Ev. cbv zeta in Ev. fold g' in Ev. rewrite Ht, Hv, Hn in Ev. cbn [andb negb N.eqb] in Ev.
      assert (Hd : forall k r, af_key k = true -> jget (k :: r) (JObj (header env o st g')) = None).
      { intros k r K. destruct (header_absent env o st g' k B) as (m & Em & _ & X).
        + apply (af_key_cases k (fun k => in_header k = false) K); reflexivity.
        + injection Em as <-. cbn [jget]. rewrite (X k (String.eqb_refl k)). reflexivity. }
      destruct (g_has g' BLOCK3) eqn:H3.
      + destruct (Version_eqb (gt_version (g_type g')) VA) eqn:Va.
        * assert (Va' : gt_version (g_type g') = VA) by (destruct (gt_version (g_type g')); [reflexivity|discriminate|discriminate]).
          destruct (decodeType0_shows _ _ _ _ _ _ _ D1 H3 Va') as (l2 & j1 & j2 & D2 & G1 & G2). rewrite had_af in D2.
          assert (K : kept (st_alt_freq_list st) (codes_of (flat_map af_events old) ++ codes_of (flat_map af_events h))).
          { unfold af_inv in I. rewrite I. apply kept_dos. split; [apply af_init_wf|]. cbn [af_init num_expected]. lia. }
          assert (Ab : forall k r, af_key k = true -> jget (k :: r) j1 = None) by (intros k r Kk; rewrite (G1 k r Kk); apply Hd, Kk).
          pose proof (decodeAF_shown _ _ _ _ _ _ _ K D2 Ab) as S2. unfold codes. rewrite D, !flat_map_app. cbn [flat_map]. rewrite Ev, app_nil_r, !codes_app. cbn [codes_of flat_map app]. rewrite app_assoc. cbn [codes_of flat_map app] in S2.
          unfold shown_since in *. rewrite !G2 by reflexivity. destruct S2 as (S2 & S3 & S4). split; [exact S2|]. split; [exact S3|]. destruct S4 as [S4|(t & es & Sc & S4 & S5)]; [left; exact S4|right].
          exists t, es. split; [exact Sc|]. split; [exact S4|]. intros k l X. rewrite (G2 _ [k]) by reflexivity. exact (S5 k l X).
        * apply None_. intros k K. pose proof (decodeType0_quiet _ _ _ _ _ _ _ D1) as Q. rewrite (Q (or_intror Va) k [] K). apply Hd, K.
      + apply None_. intros k K. pose proof (decodeType0_quiet _ _ _ _ _ _ _ D1) as Q. rewrite (Q (or_introl H3) k [] K). apply Hd, K.
    - apply None_. intros k K. apply (decoded_absent env o st g' _ j k Ee So B Dd).
      + apply (af_key_cases k (fun k => in_header k = false) K); reflexivity.
      + intros Ht. destruct No as [No|No]; [congruence|]. apply (type0_only o st g' Ht No k K). }
  destruct Sh as (S1 & S2 & S3). unfold says. split; [|split].
  - intros v X. rewrite Ln in X. destruct S1 as [S1|(raw & S1 & Sc)]; rewrite S1 in X; [discriminate|]. cbn [option_map] in X. assert (v = value_of (env_float env) (JArr (map JN raw))) as -> by congruence.
    exists raw. split; [apply numbers_shown|exact Sc].
  - intros v X. rewrite Ln in X. destruct S2 as [S2|(raw & n & S2 & Sc & Lt)]; rewrite S2 in X; [discriminate|]. cbn [option_map] in X. assert (v = value_of (env_float env) (JArr (map JN raw))) as -> by congruence.
    exists raw, n. split; [apply numbers_shown|]. split; assumption.
  - intros v X. rewrite Ln in X. destruct S3 as [S3|(t & es & Sc & S3 & S4)]; [rewrite S3 in X; discriminate|].
    exists t, es. split; [exact Sc|]. split; [|split].
    + exists (dec_string t). split; [|apply dec_string_value]. rewrite Ln, S3. unfold JN. cbn [option_map value_of]. rewrite dec_string_Z_of_N. reflexivity.
    + eapply shown_array; [apply Ln|]. apply (S4 "same_programme"). left. reflexivity.
    + eapply shown_array; [apply Ln|]. apply (S4 "regional_variants"). right. reflexivity.
Qed.

(* ---- lists of which frequencies were lost ---- *)
Lemma some_of_len : forall (A : Type) (p w : list A), some_of p w -> (length p <= length w)%nat /\ (length p = length w -> p = w).
Proof.
  intros A p w S. induction S as [|x p w S [L E]|x p w S [L E]]; cbn [length].
  - split; [lia|reflexivity].
  - split; [lia|]. intros X. rewrite E by lia. reflexivity.
  - split; [lia|]. intros X. lia.
Qed.
Lemma read_listed : forall fs cs, listed fs cs -> forall l, fold_left read_code cs (Some (false, l)) = Some (false, l ++ map freq_kHz fs).
Proof.
  intros fs cs Li. induction Li as [|fs cs Li IH|f fs cs Ok Li IH]; intros l; cbn [fold_left map].
  - rewrite app_nil_r. reflexivity.
  - change (read_code (Some (false, l)) filler) with (Some (false, l)). apply IH.
  - replace (l ++ freq_kHz f :: map freq_kHz fs) with ((l ++ [freq_kHz f]) ++ map freq_kHz fs) by (rewrite <- app_assoc; reflexivity). rewrite <- IH, fold_left_app. f_equal.
    destruct f as [c|c]; cbn [tx_freq_ok] in Ok; cbn [freq_codes fold_left read_code].
    + unfold filler. replace (c =? 250) with false by lia. replace (c =? 205) with false by lia. replace (c =? 224) with false by lia. replace (1 <=? c) with true by lia. replace (c <=? 204) with true by lia. reflexivity.
    + change (250 =? 250) with true. cbn [read_code]. unfold filler. replace (c =? 250) with false by lia. replace (c =? 205) with false by lia. replace (c =? 224) with false by lia. replace (1 <=? c) with true by lia. replace (c <=? 135) with true by lia. reflexivity.
Qed.
Lemma read_none : forall cs, fold_left read_code cs None = None.
Proof. induction cs as [|c cs IH]; [reflexivity|exact IH]. Qed.
Lemma read_no_count : forall cs r x, fold_left read_code cs r = Some x -> Forall (fun c => ~ (225 <= c <= 249)) cs.
Proof.
  induction cs as [|c cs IH]; intros r x E; [constructor|]. cbn [fold_left] in E. constructor; [|exact (IH _ _ E)].
  intros R. assert (N0 : read_code r c = None).
  { destruct r as [[lf l]|]; [|reflexivity]. cbn [read_code]. unfold filler. replace (c =? 250) with false by lia. replace (c =? 205) with false by lia. replace (c =? 224) with false by lia.
    replace (c <=? (if lf then 135 else 204)) with false by (destruct lf; lia). rewrite andb_false_r. reflexivity. }
  rewrite N0, read_none in E. discriminate E.
Qed.
Lemma last_count : forall (a b a' b' : list N) x x', 225 <= x <= 249 -> 225 <= x' <= 249 -> Forall (fun c => ~ (225 <= c <= 249)) b -> Forall (fun c => ~ (225 <= c <= 249)) b' ->
  a ++ x :: b = a' ++ x' :: b' -> x = x' /\ b = b'.
Proof.
  induction a as [|y a IH]; intros b a' b' x x' R R' F F' E; destruct a' as [|y' a']; cbn [app] in E.
  - injection E as -> ->. split; reflexivity.
  - exfalso. injection E as -> E. rewrite E in F. apply Forall_app in F. destruct F as [_ F]. inversion F; subst. contradiction.
  - exfalso. injection E as -> E. rewrite <- E in F'. apply Forall_app in F'. destruct F' as [_ F']. inversion F'; subst. contradiction.
  - injection E as -> E. exact (IH b a' b' x x' R R' F F' E).
Qed.
Lemma since_whole : forall codes pre fs got kept freqs, codes = pre ++ (224 + N.of_nat (length fs)) :: kept -> (1 <= length fs <= 25)%nat -> listed got kept -> some_of got fs ->
  since_count codes (N.of_nat (length freqs)) freqs -> freqs = map freq_kHz fs.
Proof.
  intros codes pre fs got kept freqs E L Li S (pre' & after & lf & E' & R & Rd). pose proof (read_listed got kept Li []) as K. cbn [app] in K.
  rewrite E in E'. assert (X1 : 225 <= 224 + N.of_nat (length fs) <= 249) by lia. assert (X2 : 225 <= 224 + N.of_nat (length freqs) <= 249) by lia.
  destruct (last_count _ _ _ _ _ _ X1 X2 (read_no_count _ _ _ K) (read_no_count _ _ _ Rd) E') as [N0 <-].
  rewrite K in Rd. assert (freqs = map freq_kHz got) as -> by congruence. rewrite map_length in N0. f_equal. apply (some_of_len _ _ _ S). lia.
Qed.
