(* Fields of groups of types 0, 1, 14 and 15B (C70, C71, C72). *)
From Verif.Model Require Import Base Util Group Options Tables Freq RdsString Json Tmc Station Channel.
From Verif.Spec Require Import Numerals JsonText Calendar Session Identity Quality Frequencies Fields Labels.
From Verif.Proofs Require Import Tac Numerals FreqP JsonP Schema TextP CleanP UpdateP SessionP LineP FrameP ChannelP HistoryP LinesP ShowP GetP AfP TraceP FieldsP.

Local Open Scope string_scope.
Local Open Scope N_scope.
Local Open Scope list_scope.

(* Types that are never given to applications *)
Definition fixed_type (n : N) (v : Version) : bool :=
  negb (Version_eqb v VC) &&
  ((n =? 0) || (n =? 1) || (n =? 2) || (n =? 14) || (Version_eqb v VA && ((n =? 3) || (n =? 4) || (n =? 10))) || (Version_eqb v VB && (n =? 15))).

Lemma fixed_raw : forall st g n v, g_type g = mkGroupType n v -> fixed_type n v = true -> raw_group st g = false.
Proof.
  intros st g n v T F. unfold raw_group. rewrite T. cbn [gt_number gt_version]. unfold fixed_type in F.
  destruct (find_type _ _) as [a|].
  - destruct v; cbn [Version_eqb negb andb orb] in *; rewrite ?andb_true_r, ?andb_false_r; [| |discriminate F];
      destruct (raw_app a); cbn [andb]; try reflexivity;
      repeat match goal with H : context [?x =? ?y] |- _ => destruct (x =? y); cbn [negb andb orb] in *; try reflexivity; try discriminate end.
  - destruct v; cbn [Version_eqb negb andb orb] in *; try reflexivity. destruct (N.eqb_spec n 15) as [->|]; [discriminate F|reflexivity].
Qed.

Lemma type_decoded : forall env o now c g n v c' line, host_ok env -> host_text env -> o_output_type o = OutJSON -> reachable env o c -> g_has_bler g = false ->
  is_type g n v -> fixed_type n v = true -> processGroup env o now c g 0 = Ok (c', Some line) ->
  exists st m j, decodeByType env o st (prepared o now c g 0) (JObj m) = Ok (ch_station c', j) /\
    (forall k, in_header k = false -> obj_find k m = None) /\
    (forall p, line_at p line = option_map (value_of (env_float env)) (jget p j)).
Proof.
  intros env o now c g n v c' line H T OJ Re Hb Ty V P.
  pose proof (host_text_txt env T) as E. pose proof (reachable_fine env o c H E Re) as Fc.
  destruct (prepared_is o now c g n v Ty) as [T1 T2].
  destruct (process_shows _ _ _ _ _ _ _ _ H E OJ Fc Hb P) as (j & D & L); [left; apply (fixed_raw _ _ n v); assumption|].
  unfold decoded in D. rewrite T1 in D. do 3 eexists. split; [exact D|]. split; [|exact L]. intros k K. apply header_no; [|exact K].
  destruct (prepared_bler o now c g 0 (proj1 Fc) Hb) as [_ X]. exact X.
Qed.

Lemma says_n_JN : forall env line p n, line_at p line = Some (value_of (env_float env) (JN n)) -> says_n line p n.
Proof.
  intros env line p n L. exists (dec_string n). split; [|apply dec_string_value]. unfold says. rewrite L. unfold JN. cbn [value_of]. rewrite dec_string_Z_of_N. reflexivity.
Qed.
Lemma prefixed_hex : forall a, a < 2 ^ 16 -> hex_number 4 (getPrefixedHexString 4 a) a.
Proof. intros a A. exists (getHexString 4 a). split; [reflexivity|]. apply getHexString_ok; [exact A|lia]. Qed.
Lemma language_same : forall code, code < 256 -> getLanguageString code = language_name code.
Proof.
  intros code H. assert (X : In code (nseq 0 256)) by (apply nseq_In; lia).
  assert (S : forallb (fun c => bytes_eqb (getLanguageString c) (language_name c)) (nseq 0 256) = true) by (vm_compute; reflexivity).
  rewrite forallb_forall in S. apply bytes_eqb_eq. exact (S code X).
Qed.
Lemma code_found : forall (A : Type) k (l : list (N * A)) v, find_code k l = Some v -> In (k, v) l.
Proof.
  induction l as [|[k' v'] l IH]; intros v; cbn [find_code]; [discriminate|]. destruct (N.eqb_spec k k') as [->|_].
  - intros H. left. congruence.
  - intros H. right. exact (IH v H).
Qed.
Lemma no_country : forall cc ecc, find_code ecc country_codes = None -> country_name cc ecc = bs "--".
Proof.
  intros cc ecc H. unfold country_name. destruct (find _ countries) as [x|] eqn:E; [|reflexivity]. exfalso.
  destruct (find_some _ _ E) as [I X]. apply existsb_exists in X. destruct X as (y & Iy & Y).
  apply andb_true_iff in Y. destruct Y as [Y _]. apply N.eqb_eq in Y. subst ecc.
  assert (S : forallb (fun x => forallb (fun y => match find_code (fst y) country_codes with Some _ => true | None => false end) (snd x)) countries = true)
    by (vm_compute; reflexivity).
  rewrite forallb_forall in S. specialize (S x I). rewrite forallb_forall in S. specialize (S y Iy). cbn beta in S.
  rewrite H in S. discriminate.
Qed.
Lemma country_same : forall cc ecc t, getCountryString cc ecc = Ok t -> t = country_name cc ecc.
Proof.
  intros cc ecc t. destruct (find_code ecc country_codes) as [row|] eqn:F.
  2: { rewrite (no_country cc ecc F). unfold getCountryString. rewrite F. congruence. }
  assert (L : cc < 16 \/ getCountryString cc ecc = Throw "out_of_range").
  { destruct (N.lt_ge_cases cc 16) as [L|L]; [left; exact L|right]. unfold getCountryString. rewrite F. replace (0 <? cc) with true by lia.
    assert (R : forallb (fun x => Nat.leb (length (snd x)) 15) country_codes = true) by (vm_compute; reflexivity).
    rewrite forallb_forall in R. specialize (R (ecc, row) (code_found _ _ _ _ F)). apply Nat.leb_le in R. cbn [snd] in R.
    replace (nth_error row (N.to_nat (cc - 1))) with (@None string); [reflexivity|]. symmetry. apply nth_error_None. lia. }
  destruct L as [L|L]; [|rewrite L; discriminate].
  assert (S : forallb (fun e => forallb (fun c => match getCountryString c e with Ok u => bytes_eqb u (country_name c e) | _ => true end) (nseq 0 16)) (map fst country_codes) = true)
    by (vm_compute; reflexivity).
  rewrite forallb_forall in S. specialize (S ecc (in_map fst _ _ (code_found _ _ _ _ F))). rewrite forallb_forall in S.
  specialize (S cc ltac:(apply nseq_In; lia)). cbn beta in S. intros E. rewrite E in S. apply bytes_eqb_eq. exact S.
Qed.

(* Nothing but the named members changes *)
Lemma decodeAF_other : forall o l b j l' j' k q, decodeAF o l b j = Ok (l', j') ->
  existsb (String.eqb k) ["alt_frequencies_a"; "alt_frequencies_b"; "partial_alt_frequencies"] = false -> jget (k :: q) j' = jget (k :: q) j.
Proof.
  intros o l b j l' j' k q D K. cbn [existsb] in K. rewrite !orb_false_iff, !String.eqb_neq in K. destruct K as (K1 & K2 & K3 & _).
  assert (Ap : forall x p, x <> k -> apart (x :: p) (k :: q) = true) by (intros x p Ne; cbn [apart]; destruct (String.eqb_spec x k); [congruence|reflexivity]).
  unfold decodeAF in D. unbind D. unbind D. destruct (af_isComplete y0).
  - unbind D. unbind D. destruct y2.
    + destruct y1 as [|tn rest]; [discriminate D|]. destruct (methodB_pairs tn rest) as [[afs regs]| |]; cbn [bind] in D; try discriminate D. unbind D. injection D as _ <-.
      destruct (_ =? _); [|congruence]. unbind B3. unbind B3.
      rewrite (push_other _ (k :: q) _ _ _ B3), (push_other _ (k :: q) _ _ _ B5), (jset_other _ (k :: q) _ _ _ B4) by (apply Ap; congruence). reflexivity.
    + unbind D. injection D as _ <-. apply (push_other _ _ _ _ _ B3). apply Ap. congruence.
  - destruct (o_show_partial o); [|congruence]. unbind D. unbind D. injection D as _ <-. apply (push_other _ _ _ _ _ B2). apply Ap. congruence.
Qed.

Lemma jget_deeper : forall k q j, jget [k] j = None -> jget (k :: q) j = None.
Proof. intros k q [|b|z|f|t|a|m] J; try reflexivity. cbn [jget] in *. destruct (obj_find k m); [discriminate|reflexivity]. Qed.
Lemma system_fields : forall s b3 j0 t j, b3 < 2 ^ 16 -> receiveSystemGroup s b3 j0 = Ok (t, j) -> jget ["tmc"] j0 = None ->
  let variant := b3 / 2 ^ 14 in let ltn := (b3 / 2 ^ 6) mod 2 ^ 6 in let has (b : bool) v := if b then Some v else None in
  jget (sysinfo "is_encrypted") j = has (variant =? 0) (JBool (ltn =? 0)) /\
  jget (sysinfo "location_table") j = has ((variant =? 0) && negb (ltn =? 0)) (JN ltn) /\
  jget (sysinfo "is_on_alt_freqs") j = has (variant =? 0) (JBool (N.testbit b3 5)) /\
  jget (sysinfo "scope") j = has ((variant =? 0) && negb (b3 mod 16 =? 0)) (JArr (map JStr (getScopeStrings (b3 mod 16)))) /\
  jget (sysinfo "service_id") j = has (variant =? 1) (JN ltn) /\
  jget (sysinfo "gap") j = has (variant =? 1) (JN (nth (N.to_nat ((b3 / 2 ^ 12) mod 4)) [3; 5; 8; 11] 0)) /\
  jget (sysinfo "ltcc") j = has ((variant =? 1) && negb (b3 mod 16 =? 0)) (JN (b3 mod 16)) /\
  jget (sysinfo "ltecc") j = has ((variant =? 2) && negb (b3 mod 256 =? 0)) (JN (b3 mod 256)) /\
  forall k q, k <> "tmc" -> jget (k :: q) j = jget (k :: q) j0.
Proof.
  intros s b3 j0 t j Hb D A variant ltn has.
  assert (Ap : forall x k q, k <> "tmc" -> apart (sysinfo x) (k :: q) = true).
  { intros x k q Nk. unfold sysinfo. cbn [apart]. destruct (String.eqb_spec "tmc" k); [congruence|reflexivity]. }
  assert (Z : forall k, jget (sysinfo k) j0 = None) by (intros k; apply jget_deeper; exact A).
  assert (V : getBits 2 b3 14 = variant) by (rewrite getBits_arith; change (2 ^ 2) with 4; change (2 ^ 16) with 65536 in Hb; unfold variant; change (2 ^ 14) with 16384; lia).
  unfold receiveSystemGroup in D. rewrite V in D. cbv zeta in D. unfold getUint8 in D. rewrite getBool_testbit, !getBits_arith in D. change (2 ^ 0) with 1 in D. rewrite !N.div_1_r in D.
  fold ltn in D. change (2 ^ 4) with 16 in D. change (2 ^ 2) with 4 in D. change (2 ^ 8) with 256 in D. unfold has.
  Ltac sys Z := repeat first
    [ erewrite jset_same; [|eassumption]; reflexivity
    | erewrite jset_other; [|eassumption|reflexivity]
    | erewrite push_other; [|eassumption|reflexivity] ]; try (rewrite Z; reflexivity); try reflexivity.
  Ltac rest Ap := intros k q Nk; repeat first [ erewrite (jset_other _ (k :: q)); [|eassumption|apply Ap; exact Nk] | erewrite (push_other _ (k :: q)); [|eassumption|apply Ap; exact Nk]]; reflexivity.
  destruct (N.eqb_spec variant 0) as [E0|E0].
  { replace (variant =? 1) with false by lia. replace (variant =? 2) with false by lia. cbn [andb]. unbind D. unbind D. unbind D. unbind D. assert (y2 = j) as -> by congruence. clear D.
    assert (Sc : jget (sysinfo "scope") j = if negb (b3 mod 16 =? 0) then Some (JArr (map JStr (getScopeStrings (b3 mod 16)))) else None).
    { assert (Sn : jget (sysinfo "scope") y1 = None) by (destruct (ltn =? 0); [assert (y = y0) as -> by congruence|]; sys Z).
      rewrite (push_absent _ _ _ _ B2 Sn). assert (M : b3 mod 16 < 16) by (apply N.mod_lt; lia). revert M. generalize (b3 mod 16). intros n M.
      assert (X : In n (nseq 0 16)) by (apply nseq_In; lia). cbn in X. repeat (destruct X as [<-|X]; [reflexivity|]). destruct X. }
    rewrite Sc. destruct (ltn =? 0); cbn [negb]; [assert (y = y0) as -> by congruence; clear B0|]; repeat (split; [sys Z|]); rest Ap. }
  destruct (N.eqb_spec variant 1) as [E1|E1].
  { replace (variant =? 2) with false by lia. cbn [andb]. unbind D. unbind D. unbind D. assert (y1 = j) as -> by congruence. clear D.
    replace (0 <? b3 mod 16) with (negb (b3 mod 16 =? 0)) in B1 by lia.
    destruct (b3 mod 16 =? 0); cbn [negb] in *; [assert (y0 = j) as -> by congruence; clear B1|]; repeat (split; [sys Z|]); rest Ap. }
  destruct (N.eqb_spec variant 2) as [E2|E2]; [|assert (j0 = j) as -> by congruence; cbn [andb]; repeat (split; [sys Z|]); rest Ap].
  replace (0 <? b3 mod 256) with (negb (b3 mod 256 =? 0)) in D by lia. cbn [andb].
  destruct (b3 mod 256 =? 0); cbn [negb] in *; [assert (j0 = j) as -> by congruence; repeat (split; [sys Z|]); rest Ap|]. unbind D.
  destruct (0 <? t_ltcc s); [|assert (y = j) as -> by congruence; clear D; repeat (split; [sys Z|]); rest Ap].
  unbind D. unbind D. assert (y1 = j) as -> by congruence. clear D. repeat (split; [sys Z|]); rest Ap.
Qed.

Section One.
Variables (env : Env) (o : Options) (now : Z) (c : Channel) (g : Group) (c' : Channel) (line : bytes).
Hypotheses (H : host_ok env) (T : host_text env) (OJ : o_output_type o = OutJSON) (Re : reachable env o c) (Rg : received_group (now, g, 0)).
Hypothesis P : processGroup env o now c g 0 = Ok (c', Some line).

Lemma shown : forall n v, is_type g n v -> fixed_type n v = true ->
  exists st m j, decodeByType env o st (prepared o now c g 0) (JObj m) = Ok (ch_station c', j) /\
    (forall k, in_header k = false -> obj_find k m = None) /\
    (forall p, line_at p line = option_map (value_of (env_float env)) (jget p j)).
Proof. intros n v Ty F. exact (type_decoded _ _ _ _ _ _ _ _ _ H T OJ Re (proj1 Rg) Ty F P). Qed.

Lemma flags_0 : forall v, v <> VC -> is_type g 0 v -> let b2 := blk_data (g_b2 g) in
  says line ["ta"] (VBool (N.testbit b2 4)) /\ says line ["is_music"] (VBool (N.testbit b2 3)) /\
  says line ["di"; nth (N.to_nat (b2 mod 4)) di_names EmptyString] (VBool (N.testbit b2 2)).
Proof.
  intros v V Ty b2. destruct (shown _ _ Ty) as (st & m & j & D & N0 & L); [destruct v; [reflexivity|reflexivity|contradiction]|].
  destruct (prepared_is o now c g 0 v Ty) as [T1 T2]. unfold decodeByType in D. rewrite T2 in D. cbn [gt_number gt_version] in D.
  replace (Version_eqb v VC) with false in D by (destruct v; [reflexivity|reflexivity|contradiction]). change (0 =? 0) with true in D. cbv zeta iota in D.
  unfold decodeType0 in D. rewrite !prepared_get in D. unfold g_get in D. cbn [g_block] in D. fold b2 in D. rewrite !getBool_testbit in D. cbv zeta in D.
  unbind D. unbind D. unbind D.
  assert (Di : getDICodeString (getBits 2 b2 0) = nth (N.to_nat (b2 mod 4)) di_names EmptyString).
  { rewrite getBits_arith. change (2 ^ 0) with 1. rewrite N.div_1_r. change (2 ^ 2) with 4. unfold getDICodeString. replace (b2 mod 4 <? 4) with true by (symmetry; apply N.ltb_lt, N.mod_lt; lia). reflexivity. }
  rewrite Di in B.
  assert (J : forall k q, existsb (String.eqb k) ["alt_frequencies_a"; "alt_frequencies_b"; "partial_alt_frequencies"; "ps"; "partial_ps"; "debug"] = false -> jget (k :: q) j = jget (k :: q) y1).
  { intros k q K. assert (Ap : forall x, In x ["ps"; "partial_ps"; "debug"] -> apart [x] (k :: q) = true).
    { intros x Ix. cbn [apart]. destruct (String.eqb_spec x k) as [->|]; [|reflexivity]. exfalso. cbn [existsb] in K. rewrite !orb_false_iff, !String.eqb_neq in K. cbn [In] in Ix. intuition congruence. }
    destruct (negb _) in D; [unbind D; congruence|].
    destruct (if Version_eqb (gt_version (g_type (prepared o now c g 0))) VA then _ else _) as [[st1 j1]| |] eqn:E1; cbn [bind] in D; try discriminate D.
    assert (J1 : jget (k :: q) j1 = jget (k :: q) y1).
    { destruct (Version_eqb _ _) in E1; [|congruence].
      destruct (decodeAF _ _ _ _) as [[l2 j2]| |] eqn:E2; cbn [bind] in E1; try discriminate E1. injection E1 as _ <-. eapply decodeAF_other; [exact E2|].
      cbn [existsb] in *. rewrite !orb_false_iff in *. tauto. }
    destruct (negb _) in D; [congruence|]. destruct (s_isComplete _); [unbind D; injection D as _ <-; rewrite (jset_other _ (k :: q) _ _ _ B2), J1; [reflexivity|apply Ap; cbn [In]; tauto]|].
    destruct (o_show_partial o); [|congruence].
    destruct (s_str _ _); unbind D; injection D as _ <-; [rewrite (jset_other _ (k :: q) _ _ _ B2)|rewrite (jpush_other _ (k :: q) _ _ _ B2)]; try exact J1; apply Ap; cbn [In]; tauto. }
  unfold says. rewrite !L, !J by reflexivity. split; [|split]; got.
Qed.

Lemma flags_15 : is_type g 15 VB -> blk_is_received (g_b2 g) = true -> let b2 := blk_data (g_b2 g) in
  says line ["ta"] (VBool (N.testbit b2 4)) /\ says line ["is_music"] (VBool (N.testbit b2 3)) /\
  says line ["di"; nth (N.to_nat (b2 mod 4)) di_names EmptyString] (VBool (N.testbit b2 2)).
Proof.
  intros Ty R2 b2. destruct (shown _ _ Ty eq_refl) as (st & m & j & D & N0 & L).
  destruct (prepared_is o now c g 15 VB Ty) as [T1 T2]. unfold decodeByType in D. rewrite T2 in D. cbn [gt_number gt_version Version_eqb N.eqb Pos.eqb andb] in D. cbv zeta iota in D.
  unbind D. assert (y = j) as -> by congruence. clear D. unfold decodeType15B, g_has in B. rewrite prepared_block in B. cbn [g_block] in B. rewrite R2 in B. cbv zeta in B.
  rewrite !prepared_get in B. unfold g_get in B. cbn [g_block] in B. fold b2 in B. rewrite !getBool_testbit in B.
  assert (Di : getDICodeString (getBits 2 b2 0) = nth (N.to_nat (b2 mod 4)) di_names EmptyString).
  { rewrite getBits_arith. change (2 ^ 0) with 1. rewrite N.div_1_r. change (2 ^ 2) with 4. unfold getDICodeString. replace (b2 mod 4 <? 4) with true by (symmetry; apply N.ltb_lt, N.mod_lt; lia). reflexivity. }
  rewrite Di in B. unbind B. unbind B. unfold says. rewrite !L. split; [|split]; got.
Qed.

(* Slow labelling codes *)
Lemma pin_other : forall pin j j1 k q, (if pin =? 0 then Ok j else '(ok, j) <- decodePIN pin [] j ;; if ok : bool then Ok j else debug (bs "invalid PIN") j) = Ok j1 ->
  existsb (String.eqb k) ["prog_item_number"; "prog_item_started"; "debug"] = false -> jget (k :: q) j1 = jget (k :: q) j.
Proof.
  intros pin j j1 k q D K. cbn [existsb] in K. rewrite !orb_false_iff, !String.eqb_neq in K. destruct K as (K1 & K2 & K3 & _).
  assert (Ap : forall x p, x <> k -> apart (x :: p) (k :: q) = true) by (intros x p Ne; cbn [apart]; destruct (String.eqb_spec x k); [congruence|reflexivity]).
  destruct (pin =? 0); [congruence|]. unfold decodePIN in D. cbn [app] in D. destruct (_ && _).
  - destruct (jset ["prog_item_number"] _ _) as [ja| |] eqn:Ja; cbn [bind] in D; try discriminate D.
    destruct (jset ["prog_item_started"; "day"] _ _) as [jb| |] eqn:Jb; cbn [bind] in D; try discriminate D.
    destruct (jset ["prog_item_started"; "time"] _ _) as [jc| |] eqn:Jc; cbn [bind] in D; try discriminate D. injection D as <-.
    rewrite (jset_other _ (k :: q) _ _ _ Jc), (jset_other _ (k :: q) _ _ _ Jb), (jset_other _ (k :: q) _ _ _ Ja) by (apply Ap; congruence). reflexivity.
  - cbn [bind] in D. apply (jpush_other _ _ _ _ _ D). apply Ap. congruence.
Qed.

Lemma labels : forall p, is_type g 1 VA -> blk_is_received (g_b3 g) = true -> blk_is_received (g_b4 g) = true -> station_of c' = Some p ->
  let b3 := blk_data (g_b3 g) in let variant := (b3 / 2 ^ 12) mod 2 ^ 3 in
  says line ["has_linkage"] (VBool (N.testbit b3 15)) /\
  if_value ((variant =? 0) && negb (b3 mod 256 =? 0)) line ["country"] (VStr (country_name (p / 2 ^ 12 mod 2 ^ 4) (b3 mod 256))) /\
  if_n (variant =? 1) line ["tmc_id"] (b3 mod 2 ^ 12) /\
  if_value (variant =? 3) line ["language"] (VStr (language_name (b3 mod 256))) /\
  if_x (variant =? 6) 3 line ["slc_broadcaster_bits"] (b3 mod 2 ^ 11) /\
  if_n (variant =? 7) line ["ews"] (b3 mod 2 ^ 12).
Proof.
  intros p Ty R3 R4 S b3 variant. destruct (shown _ _ Ty eq_refl) as (st & m & j & D & N0 & L).
  destruct (prepared_is o now c g 1 VA Ty) as [T1 T2]. unfold decodeByType in D. rewrite T2 in D. cbn [gt_number gt_version Version_eqb N.eqb Pos.eqb andb] in D. cbv zeta iota in D.
  unbind D. assert (y = j /\ st = ch_station c') as [-> ->] by (split; congruence). clear D.
  assert (Pi : st_pi (ch_station c') = p) by (unfold station_of in S; destruct (st_has_pi _); congruence).
  unfold decodeType1, g_has in B. rewrite !prepared_block, T2, Pi in B. cbn [g_block gt_version Version_eqb] in B. rewrite R3, R4 in B. cbn [andb negb] in B. cbv zeta in B.
  rewrite !prepared_get in B. unfold g_get in B. cbn [g_block] in B. fold b3 in B. unfold getUint8 in B. rewrite getBool_testbit, !getBits_arith in B.
  change (2 ^ 0) with 1 in B. rewrite !N.div_1_r in B. fold variant in B. change (2 ^ 8) with 256 in B.
  unbind B. unbind B.
  assert (Z : forall k, existsb (String.eqb k) ["prog_item_number"; "prog_item_started"; "debug"; "has_linkage"] = false -> in_header k = false -> jget [k] y0 = None).
  { intros k K Kh. cbn [existsb] in K. rewrite !orb_false_iff, !String.eqb_neq in K.
    rewrite (jset_other _ [k] _ _ _ B1) by (cbn [apart]; destruct (String.eqb_spec "has_linkage" k); [intuition congruence|reflexivity]).
    rewrite (pin_other _ _ _ _ _ B0) by (cbn [existsb]; rewrite !orb_false_iff, !String.eqb_neq; tauto). cbn [jget]. rewrite N0 by exact Kh. reflexivity. }
  assert (V8 : variant < 8) by (apply N.mod_lt; lia).
  unfold if_value, if_n, if_x, says.
  assert (Cases : variant = 0 \/ variant = 1 \/ variant = 2 \/ variant = 3 \/ variant = 4 \/ variant = 5 \/ variant = 6 \/ variant = 7) by lia.
  assert (Hex : getHexString 3 (b3 mod 2 ^ 11) = getHexString 3 (b3 mod 2 ^ 11) /\ length (getHexString 3 (b3 mod 2 ^ 11)) = 3%nat /\ numeral 16 (getHexString 3 (b3 mod 2 ^ 11)) = Some (b3 mod 2 ^ 11)).
  { split; [reflexivity|]. apply getHexString_ok; [|lia]. change (16 ^ N.of_nat 3) with 4096. apply N.lt_trans with 2048; [apply N.mod_lt|]; lia. }
  destruct Cases as [E|[E|[E|[E|[E|[E|[E|E]]]]]]]; rewrite E in *; cbn [N.eqb Pos.eqb andb negb].
  1: destruct (N.eqb_spec (b3 mod 256) 0) as [Ez|Ez]; cbn [negb]; [assert (y0 = j) as -> by congruence|unbind B; apply country_same in B2; subst y1].
  all: try (assert (y0 = j) as -> by congruence).
  all: split; [|split; [|split; [|split; [|split]]]].
  all: try (apply (says_n_JN env)).
  all: try (eexists; split; [unfold says|eexists; split; [reflexivity|exact (proj2 Hex)]]).
  all: rewrite L.
  all: try (rewrite Z by reflexivity; reflexivity).
  all: try (erewrite jset_same; [|eassumption]; try reflexivity).
  all: try (erewrite jset_other; [|exact B|reflexivity]; first [rewrite Z by reflexivity; reflexivity|erewrite jset_same; [|eassumption]; reflexivity]).
  all: try (erewrite jpush_other; [|exact B|reflexivity]; first [rewrite Z by reflexivity; reflexivity|erewrite jset_same; [|eassumption]; reflexivity]).
  - rewrite language_same by (apply N.mod_lt; lia). reflexivity.
Qed.

(* Enhanced other networks *)
Lemma apart_on : forall x k, x <> k -> apart (on x) (on k) = true.
Proof. intros x k Ne. unfold on, apart. rewrite String.eqb_refl. destruct (String.eqb_spec x k); [congruence|reflexivity]. Qed.
Lemma eon_start : forall v, v <> VC -> is_type g 14 v -> blk_is_received (g_b4 g) = true ->
  says_x 4 line ["other_network"; "pi"] (blk_data (g_b4 g)) /\ says line ["other_network"; "tp"] (VBool (N.testbit (blk_data (g_b2 g)) 4)) /\
  (v = VB -> says line ["other_network"; "ta"] (VBool (N.testbit (blk_data (g_b2 g)) 3))).
Proof.
  intros v V Ty R4. destruct (shown _ _ Ty) as (st & m & j & D & N0 & L); [destruct v; [reflexivity|reflexivity|contradiction]|].
  destruct (prepared_is o now c g 14 v Ty) as [T1 T2]. unfold decodeByType in D. rewrite T2 in D. cbn [gt_number gt_version] in D.
  replace (Version_eqb v VC) with false in D by (destruct v; [reflexivity|reflexivity|contradiction]). cbn [N.eqb Pos.eqb andb] in D. cbv zeta iota in D.
  unfold decodeType14, g_has in D. rewrite !prepared_block, T2 in D. cbn [g_block gt_version] in D. rewrite R4 in D. cbn [negb] in D. cbv zeta in D.
  rewrite !prepared_get in D. unfold g_get in D. cbn [g_block] in D. rewrite !getBool_testbit in D. unbind D. unbind D.
  assert (Same : (forall k, In k ["pi"; "tp"] -> jget ["other_network"; k] j = jget ["other_network"; k] y0) /\ (v = VB -> jget ["other_network"; "ta"] j = Some (JBool (N.testbit (blk_data (g_b2 g)) 3)))).
  { destruct v; cbn [Version_eqb] in D; [|unbind D; assert (y1 = j) as -> by congruence|contradiction].
    - split; [|discriminate]. intros k K.
      assert (Js : forall x w a b, x <> k -> jset (on x) w a = Ok b -> jget ["other_network"; k] b = jget ["other_network"; k] a).
      { intros x w a b Ne U. eapply jset_other; [exact U|]. exact (apart_on _ _ Ne). }
      assert (Ne : forall x, existsb (String.eqb x) ["pi"; "tp"] = false -> x <> k).
      { intros x X ->. cbn [existsb] in X. rewrite !orb_false_iff, !String.eqb_neq in X. cbn [In] in K. intuition congruence. }
      destruct (negb _) in D; [congruence|]. destruct (_ <=? 3).
      { destruct (s_isComplete _); [unbind D|congruence]. assert (y1 = j) as -> by congruence. eapply Js; [|exact B1]. apply Ne. reflexivity. }
      destruct (_ =? 4).
      { unbind D. unbind D. destruct (af_isComplete _); [|congruence]. unbind D. unbind D. assert (y4 = j) as -> by congruence.
        eapply push_other; [exact B4|]. apply (apart_on "alt_frequencies" k). apply Ne. reflexivity. }
      destruct (_ <=? 9).
      { destruct (cf_isValid _); [|congruence]. unbind D. assert (y1 = j) as -> by congruence. eapply Js; [|exact B1]. apply Ne. reflexivity. }
      destruct (_ =? 12).
      { unbind D. transitivity (jget ["other_network"; k] y1); [|eapply Js; [|exact B1]; apply Ne; reflexivity].
        destruct (_ && _); [|congruence]. unbind D. assert (y2 = j) as -> by congruence. eapply Js; [|exact B2]. apply Ne. reflexivity. }
      destruct (_ =? 13).
      { unbind D. unbind D. assert (y2 = j) as -> by congruence. transitivity (jget ["other_network"; k] y1); eapply Js; try eassumption; apply Ne; reflexivity. }
      destruct (_ =? 14).
      { destruct (_ =? 0); [congruence|]. destruct (decodePIN _ _ _) as [[ok j1]| |] eqn:Dp; cbn [bind] in D; try discriminate D. assert (j1 = j) as -> by congruence.
        unfold decodePIN in Dp. cbn [app] in Dp. destruct (_ && _); [|congruence].
        destruct (jset ["other_network"; "prog_item_number"] _ _) as [ja| |] eqn:Ja; cbn [bind] in Dp; try discriminate Dp.
        destruct (jset ["other_network"; "prog_item_started"; "day"] _ _) as [jb| |] eqn:Jb; cbn [bind] in Dp; try discriminate Dp.
        destruct (jset ["other_network"; "prog_item_started"; "time"] _ _) as [jc| |] eqn:Jc; cbn [bind] in Dp; try discriminate Dp. assert (jc = j) as -> by congruence.
        destruct K as [<-|[<-|[]]]; got; reflexivity. }
      destruct (_ =? 15).
      { unbind D. assert (y1 = j) as -> by congruence. eapply Js; [|exact B1]. apply Ne. reflexivity. }
      unbind D. assert (y1 = j) as -> by congruence. eapply jpush_other; [exact B1|reflexivity].
    - split; [intros k K; destruct K as [<-|[<-|[]]]; got; reflexivity|]. intros _. got. }
  destruct Same as [S1 S2]. unfold says_x, says. rewrite !L. split; [|split].
  - eexists. rewrite S1 by (cbn [In]; tauto). split; [|apply prefixed_hex; apply Rg]. erewrite jset_other; [|exact B0|reflexivity]. erewrite jset_same; [|exact B]. reflexivity.
  - rewrite S1 by (cbn [In]; tauto). erewrite jset_same; [|exact B0]. reflexivity.
  - intros E. rewrite (S2 E). reflexivity.
Qed.

Lemma eon_A : is_type g 14 VA -> blk_is_received (g_b3 g) = true -> blk_is_received (g_b4 g) = true ->
  let b3 := blk_data (g_b3 g) in let variant := blk_data (g_b2 g) mod 2 ^ 4 in let on k := ["other_network"; k] in
  if_n ((5 <=? variant) && (variant <=? 9) && (1 <=? b3 mod 256) && (b3 mod 256 <=? 204)) line (on "kilohertz") (freq_kHz (TxFM (b3 mod 256))) /\
  if_value (variant =? 12) line (on "has_linkage") (VBool (N.testbit b3 15)) /\
  if_n ((variant =? 12) && N.testbit b3 15 && negb (b3 mod 2 ^ 12 =? 0)) line (on "linkage_set") (b3 mod 2 ^ 12) /\
  if_value (variant =? 13) line (on "prog_type") (VStr (programme_type (o_rbds o) ((b3 / 2 ^ 11) mod 2 ^ 5))) /\
  if_value (variant =? 13) line (on "ta") (VBool (N.testbit b3 0)) /\
  (if variant =? 15 then exists t, says line (on "broadcaster_data") (VStr t) /\ length t = 4%nat /\ numeral 16 t = Some b3
   else line_at (on "broadcaster_data") line = None).
Proof.
  intros Ty R3 R4 b3 variant onp. destruct (shown _ _ Ty eq_refl) as (st & m & j & D & N0 & L).
  destruct (prepared_is o now c g 14 VA Ty) as [T1 T2]. unfold decodeByType in D. rewrite T2 in D. cbn [gt_number gt_version Version_eqb N.eqb Pos.eqb andb] in D. cbv zeta iota in D.
  unfold decodeType14, g_has in D. rewrite !prepared_block, T2 in D. cbn [g_block gt_version Version_eqb] in D. rewrite R3, R4 in D. cbn [negb] in D. cbv zeta in D.
  rewrite !prepared_get in D. unfold g_get in D. cbn [g_block] in D. rewrite !getBool_testbit in D. fold b3 in D. unfold getUint8 in D. rewrite !getBits_arith in D.
  change (2 ^ 0) with 1 in D. rewrite !N.div_1_r in D. fold variant in D. change (2 ^ 8) with 256 in D. unbind D. unbind D.
  assert (Z : forall k, existsb (String.eqb k) ["pi"; "tp"] = false -> jget (on k) y0 = None).
  { intros k K. cbn [existsb] in K. rewrite !orb_false_iff, !String.eqb_neq in K.
    rewrite (jset_other _ (on k) _ _ _ B0), (jset_other _ (on k) _ _ _ B) by (apply apart_on; intuition congruence).
    cbn [on jget]. rewrite N0 by reflexivity. reflexivity. }
  change (onp "kilohertz") with (on "kilohertz"). change (onp "has_linkage") with (on "has_linkage"). change (onp "linkage_set") with (on "linkage_set").
  change (onp "prog_type") with (on "prog_type"). change (onp "ta") with (on "ta"). change (onp "broadcaster_data") with (on "broadcaster_data"). clear onp.
  assert (Kept : forall x, jget (on x) j = jget (on x) y0 -> existsb (String.eqb x) ["pi"; "tp"] = false -> line_at (on x) line = None).
  { intros x E K. rewrite L, E, Z by exact K. reflexivity. }
  assert (V16 : variant < 16) by (apply N.mod_lt; lia).
  assert (Js : forall x k w a b, jset (on x) w a = Ok b -> (x =? k)%string = false -> jget (on k) b = jget (on k) a).
  { intros x k w a b U Ne. eapply jset_other; [exact U|]. apply apart_on. apply String.eqb_neq. exact Ne. }
  assert (Hex : length (getHexString 4 b3) = 4%nat /\ numeral 16 (getHexString 4 b3) = Some b3) by (apply getHexString_ok; [apply Rg|lia]).
  assert (Pt : pty_string o ((b3 / 2 ^ 11) mod 2 ^ 5) = programme_type (o_rbds o) ((b3 / 2 ^ 11) mod 2 ^ 5)) by (apply pty_table, N.mod_lt; lia).
  unfold if_value, if_n.
  destruct (N.leb_spec variant 3).
  { replace (5 <=? variant) with false by lia. replace (variant =? 12) with false by lia. replace (variant =? 13) with false by lia. replace (variant =? 15) with false by lia. cbn [andb].
    assert (E : forall x, (x =? "ps")%string = false -> jget (on x) j = jget (on x) y0).
    { intros x Ex. destruct (s_isComplete _); [unbind D|congruence]. assert (y1 = j) as -> by congruence. eapply Js; [exact B1|]. rewrite String.eqb_sym. exact Ex. }
    repeat split; apply Kept; try apply E; reflexivity. }
  destruct (N.eqb_spec variant 4).
  { replace (5 <=? variant) with false by lia. replace (variant =? 12) with false by lia. replace (variant =? 13) with false by lia. replace (variant =? 15) with false by lia. cbn [andb].
    assert (E : forall x, (x =? "alt_frequencies")%string = false -> jget (on x) j = jget (on x) y0).
    { intros x Ex. unbind D. unbind D. destruct (af_isComplete _); [|congruence]. unbind D. unbind D. assert (y4 = j) as -> by congruence.
      eapply push_other; [exact B4|]. apply apart_on. apply String.eqb_neq. rewrite String.eqb_sym. exact Ex. }
    repeat split; apply Kept; try apply E; reflexivity. }
  destruct (N.leb_spec variant 9).
  { replace (5 <=? variant) with true by lia. replace (variant =? 12) with false by lia. replace (variant =? 13) with false by lia. replace (variant =? 15) with false by lia. cbn [andb].
    destruct (cf_isValid (mkFreq (b3 mod 256) FM)) eqn:Va.
    - pose proof (proj1 (fm_valid _) Va) as [V1 V2]. replace (1 <=? b3 mod 256) with true by lia. replace (b3 mod 256 <=? 204) with true by lia. cbn [andb].
      unbind D. assert (y1 = j) as -> by congruence. split.
      + apply (says_n_JN env). rewrite L. erewrite jset_same; [|exact B1]. cbn [option_map]. rewrite (kHz_of (TxFM (b3 mod 256)) (conj V1 V2) : cf_kHz (mkFreq (b3 mod 256) FM) = _). reflexivity.
      + repeat split; apply Kept; try (eapply Js; [exact B1|]); reflexivity.
    - assert (Nv : (1 <=? b3 mod 256) && (b3 mod 256 <=? 204) = false) by (unfold cf_isValid in Va; cbn [cf_band cf_code] in Va; lia). rewrite Nv.
      assert (y0 = j) as -> by congruence. repeat split; apply Kept; reflexivity. }
  replace (5 <=? variant) with true by lia. cbn [andb].
  destruct (N.eqb_spec variant 12).
  { replace (variant =? 13) with false by lia. replace (variant =? 15) with false by lia. cbn [andb]. unbind D.
    assert (E : jget (on "has_linkage") j = jget (on "has_linkage") y1 /\ (forall x, (x =? "has_linkage")%string = false -> (x =? "linkage_set")%string = false -> jget (on x) j = jget (on x) y0) /\
      (if N.testbit b3 15 && negb (b3 mod 2 ^ 12 =? 0) then jget (on "linkage_set") j = Some (JN (b3 mod 2 ^ 12)) else jget (on "linkage_set") j = jget (on "linkage_set") y0)).
    { destruct (N.testbit b3 15 && negb (b3 mod 2 ^ 12 =? 0)).
      - unbind D. assert (y2 = j) as -> by congruence. split; [eapply Js; [exact B2|reflexivity]|]. split; [|eapply jset_same; exact B2].
        intros x X1 X2. transitivity (jget (on x) y1); eapply Js; try eassumption; rewrite String.eqb_sym; assumption.
      - assert (y1 = j) as -> by congruence. split; [reflexivity|]. split; [|eapply Js; [exact B1|reflexivity]].
        intros x X1 X2. eapply Js; [exact B1|]. rewrite String.eqb_sym; assumption. }
    destruct E as (E1 & E2 & E3). split; [apply Kept; [apply E2|]; reflexivity|]. split; [rewrite L, E1; erewrite jset_same; [|exact B1]; reflexivity|].
    split; [|repeat split; apply Kept; try apply E2; reflexivity].
    destruct (N.testbit b3 15 && negb (b3 mod 2 ^ 12 =? 0)); [apply (says_n_JN env); rewrite L, E3; reflexivity|apply Kept; [exact E3|reflexivity]]. }
  destruct (N.eqb_spec variant 13).
  { replace (variant =? 15) with false by lia. cbn [andb]. unbind D. unbind D. assert (y2 = j) as -> by congruence. rewrite Pt in B1.
    assert (E : forall x, (x =? "prog_type")%string = false -> (x =? "ta")%string = false -> jget (on x) j = jget (on x) y0).
    { intros x X1 X2. transitivity (jget (on x) y1); eapply Js; try eassumption; rewrite String.eqb_sym; assumption. }
    split; [apply Kept; [apply E|]; reflexivity|]. split; [apply Kept; [apply E|]; reflexivity|]. split; [apply Kept; [apply E|]; reflexivity|].
    split; [rewrite L; erewrite Js; [|exact B2|reflexivity]; erewrite jset_same; [|exact B1]; reflexivity|].
    split; [rewrite L; erewrite jset_same; [|exact B2]; reflexivity|]. apply Kept; [apply E|]; reflexivity. }
  destruct (N.eqb_spec variant 14).
  { replace (variant =? 15) with false by lia. cbn [andb].
    assert (E : forall x, (x =? "prog_item_number")%string = false -> (x =? "prog_item_started")%string = false -> jget (on x) j = jget (on x) y0).
    { intros x X1 X2. destruct (b3 =? 0); [congruence|]. destruct (decodePIN _ _ _) as [[ok j1]| |] eqn:Dp; cbn [bind] in D; try discriminate D. assert (j1 = j) as -> by congruence.
      unfold decodePIN in Dp. cbn [app] in Dp. destruct (_ && _); [|congruence].
      destruct (jset ["other_network"; "prog_item_number"] _ _) as [ja| |] eqn:Ja; cbn [bind] in Dp; try discriminate Dp.
      destruct (jset ["other_network"; "prog_item_started"; "day"] _ _) as [jb| |] eqn:Jb; cbn [bind] in Dp; try discriminate Dp.
      destruct (jset ["other_network"; "prog_item_started"; "time"] _ _) as [jc| |] eqn:Jc; cbn [bind] in Dp; try discriminate Dp. assert (jc = j) as -> by congruence.
      rewrite (jset_other _ (on x) _ _ _ Jc), (jset_other _ (on x) _ _ _ Jb), (jset_other _ (on x) _ _ _ Ja); [reflexivity|..];
        unfold on, apart; rewrite String.eqb_refl, String.eqb_sym, ?X1, ?X2; reflexivity. }
    repeat split; apply Kept; try apply E; reflexivity. }
  destruct (N.eqb_spec variant 15).
  { unbind D. assert (y1 = j) as -> by congruence. split; [apply Kept; [eapply Js; [exact B1|]|]; reflexivity|]. split; [apply Kept; [eapply Js; [exact B1|]|]; reflexivity|].
    split; [apply Kept; [eapply Js; [exact B1|]|]; reflexivity|]. split; [apply Kept; [eapply Js; [exact B1|]|]; reflexivity|]. split; [apply Kept; [eapply Js; [exact B1|]|]; reflexivity|].
    eexists. split; [|exact Hex]. unfold says. rewrite L. erewrite jset_same; [|exact B1]. reflexivity. }
  unbind D. assert (y1 = j) as -> by congruence. repeat split; apply Kept; try (eapply jpush_other; [exact B1|]); reflexivity.
Qed.

Lemma eon_pin : forall day hour minute, is_type g 14 VA -> blk_is_received (g_b3 g) = true -> blk_is_received (g_b4 g) = true ->
  blk_data (g_b2 g) mod 2 ^ 4 = 14 -> blk_data (g_b3 g) = pin_of day hour minute -> 1 <= day <= 31 -> hour <= 23 -> minute <= 59 ->
  says_n line ["other_network"; "prog_item_number"] (pin_of day hour minute) /\ says_n line ["other_network"; "prog_item_started"; "day"] day /\
  says line ["other_network"; "prog_item_started"; "time"] (VStr (time_of_day hour minute)).
Proof.
  intros day hour minute Ty R3 R4 V E3 Hd Hh Hm. destruct (shown _ _ Ty eq_refl) as (st & m & j & D & N0 & L).
  destruct (prepared_is o now c g 14 VA Ty) as [T1 T2]. unfold decodeByType in D. rewrite T2 in D. cbn [gt_number gt_version Version_eqb N.eqb Pos.eqb andb] in D. cbv zeta iota in D.
  unfold decodeType14, g_has in D. rewrite !prepared_block, T2 in D. cbn [g_block gt_version Version_eqb] in D. rewrite R3, R4 in D. cbn [negb] in D. cbv zeta in D.
  rewrite !prepared_get in D. unfold g_get in D. cbn [g_block] in D. rewrite !getBool_testbit, E3 in D.
  rewrite (getBits_arith 4 (blk_data (g_b2 g)) 0) in D. change (2 ^ 0) with 1 in D. rewrite N.div_1_r, V in D. unbind D. unbind D.
  change (14 <=? 3) with false in D. change (14 =? 4) with false in D. change (14 <=? 9) with false in D. change (14 =? 12) with false in D. change (14 =? 13) with false in D. change (14 =? 14) with true in D. cbv iota in D.
  destruct (pin_fields day hour minute) as (F1 & F2 & F3); [lia..|].
  replace (pin_of day hour minute =? 0) with false in D by (unfold pin_of; lia). unfold decodePIN in D. rewrite F1, F2, F3 in D. cbv zeta in D.
  replace ((1 <=? day) && (hour <=? 24) && (minute <=? 59)) with true in D by lia. cbn [app] in D.
  destruct (jset ["other_network"; "prog_item_number"] _ _) as [ja| |] eqn:Ja; cbn [bind] in D; try discriminate D.
  destruct (jset ["other_network"; "prog_item_started"; "day"] _ _) as [jb| |] eqn:Jb; cbn [bind] in D; try discriminate D.
  destruct (jset ["other_network"; "prog_item_started"; "time"] _ _) as [jc| |] eqn:Jc; cbn [bind] in D; try discriminate D. assert (jc = j) as -> by congruence.
  rewrite hours_minutes in Jc by lia.
  split; [apply (says_n_JN env); rewrite L; got|]. split; [apply (says_n_JN env); rewrite L; got|]. unfold says. rewrite L. got.
Qed.

(* Announcements of applications *)
Lemma announced : is_type g 3 VA -> blk_is_received (g_b3 g) = true -> blk_is_received (g_b4 g) = true ->
  let b2 := blk_data (g_b2 g) in let b3 := blk_data (g_b3 g) in let a := blk_data (g_b4 g) in
  says line ["open_data_app"; "oda_group"] (VStr (dec_string ((b2 / 2) mod 16) ++ bs (if N.testbit b2 0 then "B" else "A"))) /\
  (forall name, In (a, name) app_names -> says line ["open_data_app"; "app_name"] (VStr (bs name))) /\
  if_n (negb (existsb (fun x => a =? fst x) app_names)) line ["open_data_app"; "message"] b3 /\
  (a = 0xCD46 \/ a = 0xCD47 ->
     let variant := b3 / 2 ^ 14 in let si k := ["tmc"; "system_info"; k] in let ltn := (b3 / 2 ^ 6) mod 2 ^ 6 in
     if_value (variant =? 0) line (si "is_encrypted") (VBool (ltn =? 0)) /\
     if_n ((variant =? 0) && negb (ltn =? 0)) line (si "location_table") ltn /\
     if_value (variant =? 0) line (si "is_on_alt_freqs") (VBool (N.testbit b3 5)) /\
     if_value ((variant =? 0) && negb (b3 mod 16 =? 0)) line (si "scope") (VArr (scope_names b3)) /\
     if_n (variant =? 1) line (si "service_id") ltn /\
     if_n (variant =? 1) line (si "gap") (nth (N.to_nat ((b3 / 2 ^ 12) mod 4)) [3; 5; 8; 11] 0) /\
     if_n ((variant =? 1) && negb (b3 mod 16 =? 0)) line (si "ltcc") (b3 mod 16) /\
     if_n ((variant =? 2) && negb (b3 mod 256 =? 0)) line (si "ltecc") (b3 mod 256)).
Proof.
  intros Ty R3 R4 b2 b3 a. destruct (shown _ _ Ty eq_refl) as (st & m & j & D & N0 & L).
  destruct (prepared_is o now c g 3 VA Ty) as [T1 T2]. unfold decodeByType in D. rewrite T2 in D. cbn [gt_number gt_version Version_eqb N.eqb Pos.eqb andb] in D. cbv zeta iota in D.
  unfold decodeType3A, g_has in D. rewrite !prepared_block, T2 in D. cbn [g_block gt_version Version_eqb] in D. rewrite R3, R4 in D. cbn [andb negb] in D. cbv zeta in D.
  rewrite !prepared_get in D. unfold g_get in D. cbn [g_block] in D. fold b2 b3 a in D. unbind D. unbind D.
  assert (B3b : b3 < 2 ^ 16) by apply Rg.
  assert (Ab : jget ["tmc"] y0 = None /\ jget ["open_data_app"; "message"] y0 = None).
  { split; (erewrite jset_other; [|exact B0|reflexivity]; erewrite jset_other; [|exact B|reflexivity]); cbn [jget]; rewrite N0 by reflexivity; reflexivity. }
  assert (Gt : GroupType_str (GroupType_of (getBits 5 b2 0)) = dec_string ((b2 / 2) mod 16) ++ bs (if N.testbit b2 0 then "B" else "A")).
  { rewrite getBits_arith. change (2 ^ 0) with 1. rewrite N.div_1_r. change (2 ^ 5) with 32. unfold GroupType_str, GroupType_of. cbn [gt_version gt_number].
    assert (Z1 : N.land (b2 mod 32) 1 = b2 mod 2) by (change 1 with (N.ones 1); rewrite N.land_ones; change (2 ^ 1) with 2; lia).
    assert (Z2 : N.land (N.shiftr (b2 mod 32) 1) 15 = (b2 / 2) mod 16) by (change 15 with (N.ones 4); rewrite N.land_ones, N.shiftr_div_pow2; change (2 ^ 1) with 2; change (2 ^ 4) with 16; lia).
    rewrite Z1, Z2. pose proof (N.bit0_mod b2) as Q. rewrite <- Q. destruct (N.testbit b2 0); reflexivity. }
  assert (Nm : forall name, In (a, name) app_names -> getAppNameString a = bs name).
  { intros name I. cbn [In app_names] in I. repeat (destruct I as [I|I]; [injection I as Ea <-; rewrite <- Ea; reflexivity|]). destruct I. }
  rewrite Gt in B.
  assert (G0 : jget ["open_data_app"; "oda_group"] y0 = Some (JStr (dec_string ((b2 / 2) mod 16) ++ bs (if N.testbit b2 0 then "B" else "A")))) by got.
  assert (G1 : jget ["open_data_app"; "app_name"] y0 = Some (JStr (getAppNameString a))) by got.
  destruct Ab as [A1 A2].
  assert (Known : forall x, In x (map fst app_names) -> a = x -> existsb (fun x => a =? fst x) app_names = true).
  { intros x I ->. apply existsb_exists. apply in_map_iff in I. destruct I as (y1 & <- & I). exists y1. split; [exact I|apply N.eqb_refl]. }
  assert (Plain : forall x, In x (map fst app_names) -> a = x -> y0 = j -> ~ (a = 0xCD46 \/ a = 0xCD47) ->
    says line ["open_data_app"; "oda_group"] (VStr (dec_string ((b2 / 2) mod 16) ++ bs (if N.testbit b2 0 then "B" else "A"))) /\
    (forall name, In (a, name) app_names -> says line ["open_data_app"; "app_name"] (VStr (bs name))) /\
    if_n (negb (existsb (fun x => a =? fst x) app_names)) line ["open_data_app"; "message"] b3).
  { intros x I E -> Nt. unfold says, if_n. rewrite (Known x I E). cbn [negb]. rewrite !L, G0, G1, A2. split; [reflexivity|]. split; [|reflexivity]. intros name In1. rewrite (Nm _ In1). reflexivity. }
  destruct (N.eqb_spec a 0x0093) as [E|E1].
  { assert (Nt : ~ (a = 0xCD46 \/ a = 0xCD47)) by lia. destruct (Plain 0x0093) as (P1 & P2 & P3); [cbn; tauto|exact E|congruence|exact Nt|]. repeat (split; [assumption|]). intros X. contradiction. }
  destruct (N.eqb_spec a 0x4BD7) as [E|E2].
  { assert (Nt : ~ (a = 0xCD46 \/ a = 0xCD47)) by lia. destruct (Plain 0x4BD7) as (P1 & P2 & P3); [cbn; tauto|exact E|congruence|exact Nt|]. repeat (split; [assumption|]). intros X. contradiction. }
  destruct (N.eqb_spec a 0x4BD8) as [E|E3].
  { assert (Nt : ~ (a = 0xCD46 \/ a = 0xCD47)) by lia. destruct (Plain 0x4BD8) as (P1 & P2 & P3); [cbn; tauto|exact E|congruence|exact Nt|]. repeat (split; [assumption|]). intros X. contradiction. }
  destruct (N.eqb_spec a 0x6552) as [E|E4].
  { assert (Nt : ~ (a = 0xCD46 \/ a = 0xCD47)) by lia. destruct (Plain 0x6552) as (P1 & P2 & P3); [cbn; tauto|exact E|congruence|exact Nt|]. repeat (split; [assumption|]). intros X. contradiction. }
  destruct ((a =? 0xCD46) || (a =? 0xCD47)) eqn:E5.
  - destruct (receiveSystemGroup _ _ _) as [[t j1]| |] eqn:Rs; cbn [bind] in D; try discriminate D. assert (j1 = j) as -> by congruence. clear D.
    destruct (system_fields _ _ _ _ _ B3b Rs A1) as (S1 & S2 & S3 & S4 & S5 & S6 & S7 & S8 & Rest).
    assert (Kn : existsb (fun x => a =? fst x) app_names = true) by (cbn [existsb app_names fst]; lia). unfold says, if_n, if_value. rewrite Kn. cbn [negb].
    rewrite !L, !Rest, G0, G1, A2 by discriminate. split; [reflexivity|]. split; [intros name I; rewrite (Nm _ I); reflexivity|]. split; [reflexivity|].
    intros _. cbv zeta. change ["tmc"; "system_info"; "is_encrypted"] with (sysinfo "is_encrypted"). rewrite S1.
    assert (Nn : forall x k (b : bool) n, x = sysinfo k -> jget (sysinfo k) j = (if b then Some (JN n) else None) -> if b then says_n line x n else option_map (value_of (env_float env)) (jget x j) = None).
    { intros x k b n -> E. destruct b; [apply (says_n_JN env); rewrite L, E; reflexivity|rewrite E; reflexivity]. }
    split; [destruct (_ =? 0); reflexivity|]. split; [eapply Nn; [|exact S2]; reflexivity|].
    split; [change ["tmc"; "system_info"; "is_on_alt_freqs"] with (sysinfo "is_on_alt_freqs"); rewrite S3; destruct (_ =? 0); reflexivity|].
    split.
    { change ["tmc"; "system_info"; "scope"] with (sysinfo "scope"). rewrite S4. destruct ((b3 / 2 ^ 14 =? 0) && negb (b3 mod 16 =? 0)); [|reflexivity]. cbn [option_map value_of]. do 2 f_equal.
      unfold getScopeStrings, scope_names. rewrite !getBool_testbit. change 16 with (2 ^ 4). rewrite !N.mod_pow2_bits_low by lia.
      destruct (N.testbit b3 3), (N.testbit b3 2), (N.testbit b3 1), (N.testbit b3 0); reflexivity. }
    split; [eapply Nn; [|exact S5]; reflexivity|]. split; [eapply Nn; [|exact S6]; reflexivity|]. split; [eapply Nn; [|exact S7]; reflexivity|]. eapply Nn; [|exact S8]; reflexivity.
  - unbind D. unbind D. assert (y2 = j) as -> by congruence. assert (Nt : ~ (a = 0xCD46 \/ a = 0xCD47)) by lia.
    assert (Nk : existsb (fun x => a =? fst x) app_names = false) by (cbn [existsb app_names fst]; lia). unfold says, if_n. rewrite Nk. cbn [negb].
    split; [rewrite L; got|]. split; [|split; [apply (says_n_JN env); rewrite L; got|contradiction]].
    intros name I. exfalso. assert (X : existsb (fun x => a =? fst x) app_names = true) by (apply existsb_exists; eexists; split; [exact I|apply N.eqb_refl]). congruence.
Qed.
End One.
