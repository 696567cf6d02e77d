(* Groups of the additional data streams: what their lines show. *)
From Verif.Model Require Import Base Util Group Options Tables Json Rft Tmc Station Channel.
From Verif.Spec Require Import Numerals JsonText Session Identity History Files Labels Channels.
From Verif.Proofs Require Import Tac Numerals JsonP Schema StationP TextP CleanP UpdateP SessionP LineP FrameP ChannelP LinesP HistoryP ShowP TraceP KeysP GetP FieldsP StringP LabelsP DataP FileP PsP RtP EndP LpsP TraceLP FilesP.

Local Open Scope string_scope.
Local Open Scope N_scope.
Local Open Scope list_scope.

(* --- the first word --- *)
Lemma purpose_model : forall b1, b1 < 65536 -> forall (A : Type) (tun : A) (seg chd asg : N -> A) (oth rest : A),
  (if (getBits 2 b1 14 =? 0) && (getBits 6 b1 8 =? 0) then tun
   else if (getBits 2 b1 14 =? 0) && (N.land (getBits 6 b1 8) 0x30 =? 0x20) then seg (N.land (getBits 6 b1 8) 0xF)
   else if getBits 2 b1 14 =? 1 then chd (getBits 6 b1 8)
   else if (getBits 2 b1 14 =? 2) && (getBits 6 b1 8 =? 0) then (if getBits 2 b1 6 + 1 =? 1 then asg (getBits 6 b1 0) else oth)
   else rest) =
  match purpose_of b1 with
  | Tunnelled => tun | Segment q => seg q | Channel_data ch => chd ch | Assignment ch => asg ch | Assignment_other => oth | Other_purpose => rest
  end.
Proof.
  intros b1 L A tun seg chd asg oth rest. rewrite (seg_word b1 L), (seg_pipe b1 L), word_fid, word_fn.
  assert (E6 : getBits 6 b1 0 = b1 mod 64) by (rewrite getBits_arith; change (2 ^ 0) with 1; rewrite N.div_1_r; reflexivity).
  assert (E2 : getBits 2 b1 6 = (b1 / 64) mod 4) by (rewrite getBits_arith; reflexivity). rewrite E6, E2. unfold is_seg, purpose_of. cbv zeta.
  destruct (N.eqb_spec (b1 / 256) 0) as [Z0|Z0]. { replace ((b1 / 16384) mod 4) with 0 by lia. replace ((b1 / 256) mod 64) with 0 by lia. reflexivity. }
  replace (((b1 / 16384) mod 4 =? 0) && ((b1 / 256) mod 64 =? 0)) with false by (symmetry; apply andb_false_iff; rewrite !N.eqb_neq; lia).
  destruct (N.eqb_spec (b1 / 4096) 2) as [Z1|Z1].
  { replace ((32 <=? b1 / 256) && (b1 / 256 <? 48)) with true by (symmetry; apply andb_true_iff; rewrite N.leb_le, N.ltb_lt; lia). f_equal. lia. }
  replace ((32 <=? b1 / 256) && (b1 / 256 <? 48)) with false by (symmetry; apply andb_false_iff; rewrite N.leb_gt, N.ltb_ge; lia).
  destruct (N.eqb_spec ((b1 / 16384) mod 4) 1) as [Z2|Z2].
  { replace ((64 <=? b1 / 256) && (b1 / 256 <? 128)) with true by (symmetry; apply andb_true_iff; rewrite N.leb_le, N.ltb_lt; lia). f_equal. lia. }
  replace ((64 <=? b1 / 256) && (b1 / 256 <? 128)) with false by (symmetry; apply andb_false_iff; rewrite N.leb_gt, N.ltb_ge; lia).
  destruct (N.eqb_spec (b1 / 256) 128) as [Z3|Z3].
  - replace ((b1 / 16384) mod 4 =? 2) with true by (symmetry; apply N.eqb_eq; lia). replace ((b1 / 256) mod 64 =? 0) with true by (symmetry; apply N.eqb_eq; lia). cbn [andb].
    destruct (N.ltb_spec (b1 mod 256) 64).
    + replace ((b1 / 64) mod 4 + 1 =? 1) with true by (symmetry; apply N.eqb_eq; lia). reflexivity.
    + replace ((b1 / 64) mod 4 + 1 =? 1) with false by (symmetry; apply N.eqb_neq; lia). reflexivity.
  - replace (((b1 / 16384) mod 4 =? 2) && ((b1 / 256) mod 64 =? 0)) with false by (symmetry; apply andb_false_iff; rewrite !N.eqb_neq; lia). reflexivity.
Qed.

Lemma says_jnums : forall env line p l, line_at p line = option_map (value_of (env_float env)) (Some (jnums l)) -> says_list line p l.
Proof.
  intros env line p l E. exists (map dec_string l). split.
  - unfold says. rewrite E. unfold jnums. cbn [option_map]. f_equal. rewrite (proj1 (push_list l [] env)). reflexivity.
  - clear. induction l as [|a r IH]; constructor; [apply dec_string_value|exact IH].
Qed.
Lemma low_byte : forall a, getBits 8 a 0 = a mod 256.
Proof. intros a. rewrite getBits_arith. change (2 ^ 0) with 1. rewrite N.div_1_r. reflexivity. Qed.
Lemma high_byte : forall a, a < 65536 -> getBits 8 a 8 = a / 256.
Proof. intros a L. rewrite getBits_arith. change (2 ^ 8) with 256. lia. Qed.
Lemma app_named : forall a name, In (a, name) app_names -> getAppNameString a = bs name.
Proof. intros a name I. cbn [In app_names] in I. repeat (destruct I as [I|I]; [injection I as Ea <-; rewrite <- Ea; reflexivity|]). destruct I. Qed.

(* --- the line of a group --- *)
Section OneC.
Variables (env : Env) (o : Options) (now : Z) (c : Channel) (g : Group) (w : N) (c' : Channel) (line : bytes).
Hypotheses (H : host_ok env) (T : host_text env) (OJ : o_output_type o = OutJSON) (Hc : ch_fine c) (Rg : received_group (now, g, w)).
Hypothesis P : processGroup env o now c g w = Ok (c', Some line).

Lemma decoded_c : type_c g w = true ->
  exists m j, decodeC (had (tuned c (prepared o now c g w)) (prepared o now c g w)) (prepared o now c g w) (JObj m) = Ok (ch_station c', j) /\
    (forall k, in_header k = false -> obj_find k m = None) /\
    (forall p, line_at p line = option_map (value_of (env_float env)) (jget p j)).
Proof.
  intros Tc.
  destruct (process_shows env o now c g w c' line H (host_text_txt env T) OJ Hc (proj1 Rg) P (or_introl (raw_type_c _ _ _ _ _ _ Tc))) as (j & D & L).
  assert (Ht : g_has_type (prepared o now c g w) = true).
  { rewrite prepared_has_type. unfold type_c in Tc. destruct (w =? 0); [|reflexivity]. cbn [negb orb] in Tc. apply andb_prop in Tc. apply Tc. }
  assert (Vc : Version_eqb (gt_version (g_type (prepared o now c g w))) VC = true).
  { rewrite prepared_type. unfold type_c in Tc. destruct (w =? 0); [|reflexivity]. cbn [negb orb] in Tc. apply andb_prop in Tc. apply Tc. }
  unfold decoded in D. rewrite Ht in D. unfold decodeByType in D. cbv zeta in D. rewrite Vc in D.
  eexists _, j. split; [exact D|]. split; [|exact L]. intros k K. apply header_no; [|exact K]. apply (prepared_bler o now c g w (proj1 Hc) (proj1 Rg)).
Qed.

Let hd (m : list (string * json)) := forall k, in_header k = false -> obj_find k m = None.
Lemma none_of : forall m k q, hd m -> in_header k = false -> jget (k :: q) (JObj m) = None.
Proof. intros m k q N0 K. cbn [jget]. rewrite (N0 k K). reflexivity. Qed.

Lemma assignment_line : forall st g' st' m j ch, words g' -> hd m -> decodeC_assign st g' ch (JObj m) = Ok (st', j) ->
  (forall p, line_at p line = option_map (value_of (env_float env)) (jget p j)) ->
  shows_assignment line ch (g_get g' BLOCK2) (g_get g' BLOCK3) (g_get g' BLOCK4) /\ line_at ["rft"; "data"] line = None.
Proof.
  intros st g' st' m j ch (W1 & W2 & W3 & W4) N0 D L. unfold decodeC_assign in D. cbv zeta in D.
  set (b2 := g_get g' BLOCK2) in *. set (b3 := g_get g' BLOCK3) in *. set (b4 := g_get g' BLOCK4) in *.
  unbind D. unbind D. unbind D.
  assert (Ek : getBits 4 b3 12 = b3 / 4096) by (rewrite getBits_arith; change (2 ^ 12) with 4096; change (2 ^ 4) with 16; lia).
  assert (Em : getBits 3 b3 9 = (b3 / 512) mod 8) by (rewrite getBits_arith; reflexivity).
  assert (Ea : getBits 9 b3 0 = b3 mod 512) by (rewrite getBits_arith; change (2 ^ 0) with 1; rewrite N.div_1_r; reflexivity).
  assert (Ev : getBits 3 b3 8 = (b3 / 256) mod 8) by (rewrite getBits_arith; reflexivity).
  assert (Ei : getBits 6 b3 2 = (b3 / 4) mod 64) by (rewrite getBits_arith; reflexivity).
  assert (Es : getBits2 18 b3 b4 0 = (b3 mod 4) * 65536 + b4) by (rewrite getBits2_arith by assumption; change (2 ^ 0) with 1; change (2 ^ 16) with 65536; change (2 ^ 18) with 262144; rewrite N.div_1_r; lia).
  assert (Eo : getBits2 28 b3 b4 0 = (b3 mod 4096) * 65536 + b4) by (rewrite getBits2_arith by assumption; change (2 ^ 0) with 1; change (2 ^ 16) with 65536; change (2 ^ 28) with 268435456; rewrite N.div_1_r; lia).
  rewrite Ek, Em, Ea, Ev, Ei, Es, Eo, getBool_testbit in D.
  assert (Hx : forall p v, v = (b3 mod 4096) * 65536 + b4 -> jget p j = Some (JStr (getHexString 7 v)) -> exists t, says line p (VStr t) /\ hex_digits 7 t v).
  { intros p v Ev' J. eexists. unfold says. rewrite L, J. split; [reflexivity|]. apply getHexString_ok; [|lia]. rewrite Ev'. change (16 ^ N.of_nat 7) with 268435456. lia. }
  assert (Nn : forall p n, jget p j = Some (JN n) -> says_n line p n) by (intros p n J; apply (says_n_JN env); rewrite L, J; reflexivity).
  assert (Ab : forall p, jget p j = None -> line_at p line = None) by (intros p J; rewrite L, J; reflexivity).
  assert (Nm : forall (p : list string) name, In (b2, name) app_names -> jget p j = Some (JStr (getAppNameString b2)) -> says line p (VStr (bs name))).
  { intros p name I J. unfold says. rewrite L, J, (app_named _ _ I). reflexivity. }
  assert (Base : forall k q, in_header k = false -> k <> "open_data_app" -> jget (k :: q) y1 = None).
  { intros k q K Nk. assert (Ap : forall x, apart ["open_data_app"; x] (k :: q) = true) by (intros x; cbn [apart]; destruct (String.eqb_spec "open_data_app" k); [congruence|reflexivity]).
    rewrite (jset_other _ _ _ _ _ B1 (Ap _)), (jset_other _ _ _ _ _ B0 (Ap _)), (jset_other _ _ _ _ _ B (Ap _)). apply none_of; assumption. }
  assert (Base2 : forall x, existsb (String.eqb x) ["channel"; "oda_aid"; "app_name"] = false -> jget ["open_data_app"; x] y1 = None).
  { intros x K. cbn [existsb] in K. rewrite !orb_false_iff, !String.eqb_neq in K. destruct K as (K1 & K2 & K3 & _).
    assert (Ap : forall z, x <> z -> apart ["open_data_app"; z] ["open_data_app"; x] = true) by (intros z Nz; cbn [apart]; rewrite String.eqb_refl; destruct (String.eqb_spec z x); [congruence|reflexivity]).
    rewrite (jset_other _ _ _ _ _ B1 (Ap _ K3)), (jset_other _ _ _ _ _ B0 (Ap _ K2)), (jset_other _ _ _ _ _ B (Ap _ K1)). apply none_of; [assumption|reflexivity]. }
  assert (X1 : jget ["open_data_app"; "channel"] y1 = Some (JN ch)) by got.
  assert (X2 : jget ["open_data_app"; "oda_aid"] y1 = Some (JN b2)) by got.
  assert (X3 : jget ["open_data_app"; "app_name"] y1 = Some (JStr (getAppNameString b2))) by got.
  clear B B0 B1. unfold shows_assignment. cbv zeta.
  assert (Base0 : jget ["rft"; "data"] y1 = None) by (apply Base; [reflexivity|discriminate]).
  assert (BaseR : forall q, jget ("rft" :: q) y1 = None) by (intros q; apply Base; [reflexivity|discriminate]).
  assert (Hd : forall v, v = (b3 mod 4096) * 65536 + b4 -> hex_digits 7 (getHexString 7 v) v) by (intros v ->; apply getHexString_ok; [change (16 ^ N.of_nat 7) with 268435456; lia|lia]).
  Ltac fin Nm Nn Ab L X1 X2 X3 BaseR Base2 :=
    unfold if_n, if_value, if_digits, if_list;
    repeat match goal with |- _ /\ _ => split end;
    try (intros ? ?; eapply Nm; [eassumption|]); try apply Nn; try apply Ab; try rewrite L;
    try solve [got; first [exact X1|exact X2|exact X3|apply BaseR|apply Base2; reflexivity|reflexivity]];
    try solve [erewrite jset_same; [|eassumption]; reflexivity].
  destruct (N.ltb_spec ch 16) as [Lc|Lc]; cbn [andb negb].
  - destruct (N.eqb_spec (b3 / 4096) 0) as [K0|K0]; [|destruct (N.eqb_spec (b3 / 4096) 1) as [K1|K1]].
    + rewrite K0. cbn [N.eqb N.leb N.ltb N.compare Pos.eqb Pos.compare Pos.compare_cont andb negb]. do 6 unbind D. assert (y7 = j) as -> by congruence. fin Nm Nn Ab L X1 X2 X3 BaseR Base2.
    + rewrite K1. cbn [N.eqb N.leb N.ltb N.compare Pos.eqb Pos.compare Pos.compare_cont andb negb]. do 3 unbind D.
      destruct (N.eqb_spec ((b3 / 512) mod 8) 0) as [M0|M0]; cbn [andb negb].
      * unbind D. assert (y5 = j) as -> by congruence. fin Nm Nn Ab L X1 X2 X3 BaseR Base2.
      * destruct (N.eqb_spec ((b3 / 512) mod 8) 6) as [M6|M6]; cbn [andb negb].
        -- rewrite M6 in D. cbn [N.eqb N.leb N.ltb N.compare Pos.eqb Pos.compare Pos.compare_cont orb] in D. unfold debug in D. unbind D. assert (y5 = j) as -> by congruence. fin Nm Nn Ab L X1 X2 X3 BaseR Base2.
        -- replace (((b3 / 512) mod 8 <=? 5) || ((b3 / 512) mod 8 =? 7)) with true in D by (symmetry; apply orb_true_iff; rewrite N.leb_le, N.eqb_eq; lia).
           do 3 unbind D. assert (y7 = j) as -> by congruence. fin Nm Nn Ab L X1 X2 X3 BaseR Base2.
    + destruct (N.leb_spec 8 (b3 / 4096)) as [K8|K8].
      * unbind D. assert (y2 = j) as -> by congruence.
        replace ((2 <=? b3 / 4096) && (b3 / 4096 <? 8)) with false by (symmetry; apply andb_false_iff; rewrite N.leb_gt, N.ltb_ge; lia). fin Nm Nn Ab L X1 X2 X3 BaseR Base2.
        eexists. unfold says. rewrite L. split; [erewrite jset_same; [|eassumption]; reflexivity|]. apply Hd. reflexivity.
      * unbind D. assert (y2 = j) as -> by congruence.
        replace ((2 <=? b3 / 4096) && (b3 / 4096 <? 8)) with true by (symmetry; apply andb_true_iff; rewrite N.leb_le, N.ltb_lt; lia). fin Nm Nn Ab L X1 X2 X3 BaseR Base2.
        eexists. unfold says. rewrite L. split; [erewrite jset_same; [|eassumption]; reflexivity|]. apply Hd. reflexivity.
  - unbind D. assert (y2 = j) as -> by congruence. fin Nm Nn Ab L X1 X2 X3 BaseR Base2.
    apply (says_jnums env). rewrite L. f_equal. erewrite jset_same; [|eassumption]. rewrite !low_byte, !high_byte by assumption. reflexivity.
Qed.

Lemma segment_line : forall st g' st' m j q, words g' -> hd m -> decodeC_rft st g' q (JObj m) = Ok (st', j) ->
  (forall p, line_at p line = option_map (value_of (env_float env)) (jget p j)) ->
  (says_n line ["rft"; "data"; "pipe"] q /\
   says_n line ["rft"; "data"; "toggle"] ((g_get g' BLOCK1 / 128) mod 2) /\
   says_n line ["rft"; "data"; "byte_address"] (5 * ((g_get g' BLOCK1 mod 128) * 256 + g_get g' BLOCK2 / 256)) /\
   says_list line ["rft"; "data"; "segment_data"] (g_get g' BLOCK2 mod 256 :: bytes_of [g_get g' BLOCK3; g_get g' BLOCK4]) /\
   line_at ["rft"; "file_info"] line = None /\ line_at ["rft"; "crc_info"] line = None) /\
  match find_code q (st_oda_app_for_pipe st) with
  | Some app => line_at ["open_data_app"; "app_name"] line = Some (VStr (getAppNameString app))
  | None => line_at ["open_data_app"] line = None
  end.
Proof.
  intros st g' st' m j q (W1 & W2 & W3 & W4) N0 D L. unfold decodeC_rft in D. cbv zeta in D.
  set (b1 := g_get g' BLOCK1) in *. set (b2 := g_get g' BLOCK2) in *. set (b3 := g_get g' BLOCK3) in *. set (b4 := g_get g' BLOCK4) in *.
  assert (Et : getBits 1 b1 7 = (b1 / 128) mod 2) by (rewrite getBits_arith; reflexivity).
  assert (Ea : getBits2 15 b1 b2 8 = (b1 mod 128) * 256 + b2 / 256).
  { rewrite getBits2_arith by assumption. change (2 ^ 8) with 256. change (2 ^ 16) with 65536. change (2 ^ 15) with 32768. lia. }
  rewrite Et, Ea in D.
  unbind D. unbind D. unbind D. unbind D. unbind D. unbind D.
  match type of D with bind ?x _ = _ => destruct x as [[f jj]| |] eqn:F0; cbn [bind] in D; try discriminate D end. unbind D. assert (jj = j) as -> by congruence.
  assert (J : forall p, apart ["rft"; "data"; "file_contents"] p = true -> jget p j = jget p y4).
  { intros p Ap. destruct (rft_hasNewCompleteFile _) in F0.
    - destruct (rft_getBase64Data _) in F0. unbind F0. assert (y6 = j) as <- by congruence. erewrite jset_other; [reflexivity|eassumption|exact Ap].
    - congruence. }
  assert (Y : forall p, jget ("rft" :: p) y = None).
  { intros p. destruct (find_code _ _) in B; [erewrite jset_other; [|eassumption|reflexivity]|assert (y = JObj m) as -> by congruence]; apply none_of; auto. }
  rewrite !L, !J by reflexivity. split.
  - split; [apply (says_n_JN env); rewrite L, J by reflexivity; got|]. split; [apply (says_n_JN env); rewrite L, J by reflexivity; got|].
    split; [apply (says_n_JN env); rewrite L, J by reflexivity; rewrite (N.mul_comm 5); got|]. split; [|split; got; rewrite Y; reflexivity].
    apply (says_jnums env). rewrite L, J by reflexivity. f_equal. erewrite jset_same; [|eassumption]. rewrite !low_byte, !high_byte by assumption. reflexivity.
  - destruct (find_code q (st_oda_app_for_pipe st)); [got|]. got. assert (y = JObj m) as -> by congruence. rewrite none_of by auto. reflexivity.
Qed.
End OneC.

(* --- by purpose --- *)
Lemma decodeC_purpose : forall st g j, words g -> g_has g BLOCK1 && g_has g BLOCK2 && g_has g BLOCK3 && g_has g BLOCK4 = true ->
  let b1 := g_get g BLOCK1 in let b2 := g_get g BLOCK2 in let b3 := g_get g BLOCK3 in let b4 := g_get g BLOCK4 in
  exists note other, decodeC st g j =
    match purpose_of b1 with
    | Segment q => decodeC_rft st g q j
    | Assignment ch => decodeC_assign st g ch j
    | Channel_data ch =>
      j <- jset (oda "channel") (JN ch) j ;;
      j <- jset (oda "app_data") (jnums (b1 mod 256 :: bytes_of [b2; b3; b4])) j ;; Ok (st, j)
    | Tunnelled => j <- debug note j ;; Ok (st, j)
    | Assignment_other => j <- debug note j ;; Ok (st, j)
    | Other_purpose => j <- debug other j ;; j <- jset (oda "data") (jnums (bytes_of [b2; b3; b4])) j ;; Ok (st, j)
    end.
Proof.
  intros st g j (W1 & W2 & W3 & W4) R b1 b2 b3 b4. unfold decodeC. rewrite <- !negb_andb, R. cbn [negb]. cbv zeta. fold b1 b2 b3 b4 in W1, W2, W3, W4 |- *.
  pose proof (purpose_model b1 W1 (res (Station * json)) (j0 <- debug (bs "TODO: Tunnelling A & B over type C") j ;; Ok (st, j0)) (fun q => decodeC_rft st g q j)
    (fun ch => j0 <- jset (oda "channel") (JN ch) j ;; j1 <- jset (oda "app_data") (jnums (b1 mod 256 :: bytes_of [b2; b3; b4])) j0 ;; Ok (st, j1))
    (fun ch => decodeC_assign st g ch j) (j0 <- debug (bs "TODO: assignment method " ++ dec_string (getBits 2 b1 6 + 1)) j ;; Ok (st, j0))
    (j0 <- debug (bs "TODO: FID " ++ dec_string (getBits 2 b1 14) ++ bs " FN " ++ dec_string (getBits 6 b1 8)) j ;; j1 <- jset (oda "data") (jnums (bytes_of [b2; b3; b4])) j0 ;; Ok (st, j1))) as Pm.
  exists (match purpose_of b1 with Tunnelled => bs "TODO: Tunnelling A & B over type C" | _ => bs "TODO: assignment method " ++ dec_string (getBits 2 b1 6 + 1) end), (bs "TODO: FID " ++ dec_string (getBits 2 b1 14) ++ bs " FN " ++ dec_string (getBits 6 b1 8)).
  rewrite !low_byte, !high_byte by assumption. cbn [bytes_of flat_map app] in Pm |- *. fold b1. rewrite Pm.
  destruct (purpose_of b1); reflexivity.
Qed.

Lemma words_prepared : forall o now c g w b1 b2 b3 b4, received_group (now, g, w) -> words_c (g, w) = Some (b1, b2, b3, b4) ->
  let g' := prepared o now c g w in
  type_c g w = true /\ words g' /\ g_has g' BLOCK1 && g_has g' BLOCK2 && g_has g' BLOCK3 && g_has g' BLOCK4 = true /\
  g_get g' BLOCK1 = b1 /\ g_get g' BLOCK2 = b2 /\ g_get g' BLOCK3 = b3 /\ g_get g' BLOCK4 = b4.
Proof.
  intros o now c g w b1 b2 b3 b4 (_ & L1 & L2 & L3 & L4) E g'. unfold words_c in E. destruct (type_c g w && all_received g) eqn:A; [|discriminate]. apply andb_prop in A. destruct A as [A1 A2].
  assert (G1 : g_get g' BLOCK1 = blk_data (g_b1 g)) by apply prepared_get.
  assert (G2 : g_get g' BLOCK2 = blk_data (g_b2 g)) by apply prepared_get.
  assert (G3 : g_get g' BLOCK3 = blk_data (g_b3 g)) by apply prepared_get.
  assert (G4 : g_get g' BLOCK4 = blk_data (g_b4 g)) by apply prepared_get.
  split; [exact A1|]. split; [unfold words; rewrite G1, G2, G3, G4; auto|]. split.
  - unfold g_has. unfold g'. rewrite !prepared_block. exact A2.
  - rewrite G1, G2, G3, G4. repeat split; congruence.
Qed.

Lemma line_c : forall env o now c g w c' line b1 b2 b3 b4, host_ok env -> host_text env -> o_output_type o = OutJSON -> ch_fine c -> received_group (now, g, w) ->
  processGroup env o now c g w = Ok (c', Some line) -> words_c (g, w) = Some (b1, b2, b3, b4) ->
  shows_c line b1 b2 b3 b4 /\
  forall q, purpose_of b1 = Segment q ->
    match find_code q (st_oda_app_for_pipe (tuned c (prepared o now c g w))) with
    | Some app => line_at ["open_data_app"; "app_name"] line = Some (VStr (getAppNameString app))
    | None => line_at ["open_data_app"] line = None
    end.
Proof.
  intros env o now c g w c' line b1 b2 b3 b4 H T OJ Hc R P E.
  destruct (words_prepared o now c g w _ _ _ _ R E) as (Tc & W & Rc & G1 & G2 & G3 & G4).
  destruct (decoded_c env o now c g w c' line H T OJ Hc R P Tc) as (m & j & D & N0 & L).
  set (g' := prepared o now c g w) in *. set (st := tuned c g') in *.
  assert (Op : st_oda_app_for_pipe (had st g') = st_oda_app_for_pipe st) by (unfold had; destruct (_ || _); reflexivity).
  destruct (decodeC_purpose (had st g') g' (JObj m) W Rc) as (note & other & Ep). rewrite D, G1, G2, G3, G4 in Ep. clear D. symmetry in Ep.
  assert (Nr : forall k q, in_header k = false -> jget (k :: q) (JObj m) = None) by (intros k q K; cbn [jget]; rewrite (N0 k K); reflexivity).
  unfold shows_c. destruct (purpose_of b1) as [q|ch|ch| | |] eqn:Eb.
  - destruct (segment_line env line _ _ _ _ _ _ W N0 Ep L) as [S1 S2]. rewrite Op, ?G1, ?G2, ?G3, ?G4 in *. split; [exact S1|]. intros q' Eq. injection Eq as <-. exact S2.
  - split; [|discriminate]. unbind Ep. unbind Ep. assert (y0 = j) as -> by congruence.
    split; [apply (says_n_JN env); rewrite L; got|]. split; [apply (says_jnums env); rewrite L; f_equal; got|]. rewrite L. got. rewrite Nr by reflexivity. reflexivity.
  - split; [|discriminate]. rewrite <- G2, <- G3, <- G4. exact (assignment_line env line _ _ _ _ _ _ W N0 Ep L).
  - split; [|discriminate]. unfold debug in Ep. unbind Ep. assert (y = j) as -> by congruence. rewrite !L. split; got; rewrite Nr by reflexivity; reflexivity.
  - split; [|discriminate]. unfold debug in Ep. unbind Ep. assert (y = j) as -> by congruence. rewrite !L. split; got; rewrite Nr by reflexivity; reflexivity.
  - split; [|discriminate]. unfold debug in Ep. unbind Ep. unbind Ep. assert (y0 = j) as -> by congruence.
    split; [apply (says_jnums env); rewrite L; f_equal; got|]. rewrite L. got. rewrite Nr by reflexivity. reflexivity.
Qed.

(* A group of which a block was not received shows nothing of its contents *)
Lemma line_c_lost : forall env o now c g w c' line, host_ok env -> host_text env -> o_output_type o = OutJSON -> ch_fine c -> received_group (now, g, w) ->
  processGroup env o now c g w = Ok (c', Some line) -> type_c g w = true -> all_received g = false ->
  line_at ["rft"] line = None /\ line_at ["open_data_app"] line = None.
Proof.
  intros env o now c g w c' line H T OJ Hc R P Tc Ar.
  destruct (decoded_c env o now c g w c' line H T OJ Hc R P Tc) as (m & j & D & N0 & L).
  unfold decodeC in D. rewrite <- !negb_andb in D. replace (g_has _ BLOCK1 && _ && _ && _) with false in D.
  - cbn [negb] in D. assert (j = JObj m) as -> by congruence. rewrite !L. cbn [jget]. rewrite !N0 by reflexivity. split; reflexivity.
  - symmetry. unfold g_has. rewrite !prepared_block. exact Ar.
Qed.

(* --- the applications of the pipes --- *)
Definition pipes_inv (h : list (Group * N)) (st : Station) : Prop := forall q, find_code q (st_oda_app_for_pipe st) = last_assigned q (rev h).
Lemma pipes_had : forall h st g, pipes_inv h st -> pipes_inv h (had st g).
Proof. intros h st g I q. specialize (I q). unfold had. destruct (_ || _); exact I. Qed.
Lemma pipes_none : forall h st x, assigned_in x = None -> pipes_inv h st -> pipes_inv (h ++ [x]) st.
Proof. intros h st x E I q. rewrite rev_app_distr. cbn [rev app last_assigned]. rewrite E. apply I. Qed.
Lemma pipes_eq : forall h st st', st_oda_app_for_pipe st' = st_oda_app_for_pipe st -> pipes_inv h st -> pipes_inv h st'.
Proof. intros h st st' E I q. rewrite E. apply I. Qed.
Lemma pipes_step : forall env o h st now c g w st' j, pipes_inv h st -> st_ok st -> received_group (now, g, w) -> bler_ok (prepared o now c g w) ->
  decoded env o st (prepared o now c g w) = Ok (st', j) -> pipes_inv (h ++ [(g, w)]) st'.
Proof.
  intros env o h st now c g w st' j I So R Bl D.
  destruct (type_c g w) eqn:T.
  2:{ apply pipes_none; [unfold assigned_in, words_c; rewrite T; reflexivity|].
      assert (Cv : g_has_type (prepared o now c g w) = true -> Version_eqb (gt_version (g_type (prepared o now c g w))) VC = false).
      { rewrite prepared_has_type, prepared_type. unfold type_c in T. destruct (w =? 0); [|discriminate]. cbn [negb orb] in T. intros Ht. rewrite Ht in T. exact T. }
      pose proof (decoded_frame env o st _ _ D) as Fr. cbn [fst] in Fr. eapply pipes_eq; [|exact I].
      unfold frame in Fr. do 9 destruct Fr as [_ Fr]. destruct Fr as [Fr _].
      assert (Op : st_oda_app_for_pipe (had st (prepared o now c g w)) = st_oda_app_for_pipe st) by (unfold had; destruct (_ || _); reflexivity).
      rewrite <- Op. apply Fr. destruct (g_has_type (prepared o now c g w)) eqn:Ht; [|reflexivity]. specialize (Cv eq_refl). unfold group_fields. rewrite Cv.
      unfold off, app_fields. repeat match goal with |- context [if ?b then _ else _] => destruct b; try reflexivity | |- context [find_type ?u ?v] => destruct (find_type u v); try reflexivity end. }
  assert (Ht : g_has_type (prepared o now c g w) = true).
  { rewrite prepared_has_type. unfold type_c in T. destruct (w =? 0); [|reflexivity]. cbn [negb orb] in T. apply andb_prop in T. apply T. }
  assert (Vc : Version_eqb (gt_version (g_type (prepared o now c g w))) VC = true).
  { rewrite prepared_type. unfold type_c in T. destruct (w =? 0); [|reflexivity]. cbn [negb orb] in T. apply andb_prop in T. apply T. }
  unfold decoded in D. rewrite Ht in D. unfold decodeByType in D. cbv zeta in D. rewrite Vc in D.
  apply (pipes_had h st (prepared o now c g w)) in I. remember (had st (prepared o now c g w)) as s eqn:Es. clear Es.
  destruct (all_received g) eqn:Ar.
  2:{ unfold decodeC in D. rewrite <- !negb_andb in D. replace (g_has _ BLOCK1 && _ && _ && _) with false in D by (symmetry; unfold g_has; rewrite !prepared_block; exact Ar).
      cbn [negb] in D. assert (s = st') as <- by congruence. apply pipes_none; [|exact I]. unfold assigned_in, words_c. rewrite T, Ar. reflexivity. }
  assert (Wc : words_c (g, w) = Some (blk_data (g_b1 g), blk_data (g_b2 g), blk_data (g_b3 g), blk_data (g_b4 g))) by (unfold words_c; rewrite T, Ar; reflexivity).
  destruct (words_prepared o now c g w _ _ _ _ R Wc) as (_ & W & Rc & G1 & G2 & G3 & G4).
  match type of D with decodeC ?s ?g' ?j0 = _ => destruct (decodeC_purpose s g' j0 W Rc) as (note & other & Ep) end. rewrite D, G1 in Ep. symmetry in Ep.
  assert (Ai : assigned_in (g, w) = match purpose_of (blk_data (g_b1 g)) with Assignment ch => Some (ch, blk_data (g_b2 g)) | _ => None end) by (unfold assigned_in; rewrite Wc; reflexivity).
  destruct (purpose_of (blk_data (g_b1 g))) as [q|ch|ch| | |] eqn:Eb.
  - apply pipes_none; [exact Ai|]. eapply pipes_eq; [|exact I]. unfold decodeC_rft in Ep. cbv zeta in Ep. do 6 unbind Ep.
    match type of Ep with bind ?x _ = _ => destruct x as [[f jj]| |] eqn:F0; cbn [bind] in Ep; try discriminate Ep end. unbind Ep. assert (set_rft s y5 = st') as <- by congruence. reflexivity.
  - apply pipes_none; [exact Ai|]. unbind Ep. unbind Ep. assert (s = st') as <- by congruence. exact I.
  - assert (Op : st_oda_app_for_pipe st' = (ch, blk_data (g_b2 g)) :: st_oda_app_for_pipe s).
    { rewrite <- G2. unfold decodeC_assign in Ep. cbv zeta in Ep. do 3 unbind Ep. unfold debug in Ep.
      repeat match type of Ep with (if ?b then _ else _) = _ => destruct b end;
      repeat unbind Ep; repeat match type of Ep with (if ?b then _ else _) = _ => destruct b end; repeat unbind Ep; match type of Ep with Ok (?x, _) = Ok (?y, _) => assert (x = y) as <- by congruence end; reflexivity. }
    intros q. rewrite Op, rev_app_distr. cbn [find_code rev app last_assigned]. rewrite Ai. destruct (N.eqb_spec q ch), (N.eqb_spec ch q); try congruence.
  - apply pipes_none; [exact Ai|]. unbind Ep. assert (s = st') as <- by congruence. exact I.
  - apply pipes_none; [exact Ai|]. unbind Ep. assert (s = st') as <- by congruence. exact I.
  - apply pipes_none; [exact Ai|]. unbind Ep. unbind Ep. assert (s = st') as <- by congruence. exact I.
Qed.

Lemma last_assigned_app : forall q a b, last_assigned q (a ++ b) = match last_assigned q a with Some x => Some x | None => last_assigned q b end.
Proof. intros q a b. induction a as [|x a IH]; [reflexivity|]. cbn [app last_assigned]. destruct (assigned_in x) as [[ch app]|]; [destruct (ch =? q); [reflexivity|exact IH]|exact IH]. Qed.
Lemma last_assigned_in : forall q h a, last_assigned q h = Some a -> exists x, In x h /\ assigned_in x = Some (q, a).
Proof.
  intros q h a. induction h as [|x h IH]; cbn [last_assigned]; [discriminate|]. intros E.
  assert (Later : last_assigned q h = Some a -> exists y, In y (x :: h) /\ assigned_in y = Some (q, a)).
  { intros X. destruct (IH X) as (y & Y1 & Y2). exists y. split; [right; exact Y1|exact Y2]. }
  destruct (assigned_in x) as [[ch app]|] eqn:Ex; [|exact (Later E)]. destruct (N.eqb_spec ch q) as [->|]; [|exact (Later E)].
  exists x. split; [left; reflexivity|]. congruence.
Qed.

Lemma pipe_app : forall env o w0 p gs0 gs1 now g w c out0 out1 line b1 b2 b3 b4 q,
  host_ok env -> host_text env -> o_output_type o = OutJSON ->
  Forall received_group (gs0 ++ gs1 ++ [(now, g, w)]) -> p <> 0 -> three p (pis gs0) -> Forall (stays p) (gs1 ++ [(now, g, w)]) ->
  length out0 = length gs0 -> run_groups env o (Channel_new o w0) (gs0 ++ gs1 ++ [(now, g, w)]) = Ok (c, out0 ++ out1 ++ [Some line]) ->
  words_c (g, w) = Some (b1, b2, b3, b4) -> purpose_of b1 = Segment q ->
  match last_assigned q (rev (decoded_in gs1 out1)) with
  | Some a => line_at ["open_data_app"; "app_name"] line = Some (VStr (getAppNameString a))
  | None => (forall x a, In x (groups_of gs0) -> assigned_in x <> Some (q, a)) -> line_at ["open_data_app"] line = None
  end.
Proof.
  intros env o w0 p gs0 gs1 now g w c out0 out1 line b1 b2 b3 b4 q H HT OJ F Np Th St L0 E Wc Eb.
  apply Forall_app in F. destruct F as [F0 F]. apply Forall_app in F. destruct F as [F1 F2]. inversion F2 as [|? ? R _]; subst. apply Forall_app in St. destruct St as [S1 S2]. inversion S2 as [|? ? Sg _]; subst.
  rewrite run_groups_app in E. destruct (run_groups env o (Channel_new o w0) gs0) as [[c0 o0]| |] eqn:E0; cbn [bind] in E; try discriminate.
  destruct (run_groups env o c0 (gs1 ++ [(now, g, w)])) as [[c2 o2]| |] eqn:E1; cbn [bind] in E; try discriminate.
  destruct (run_snoc _ _ _ _ _ _ _ _ _ E1) as (c1 & o1 & l & Ea & Eb' & ->).
  assert (Eo : o0 ++ o1 ++ [l] = out0 ++ out1 ++ [Some line]) by congruence. rewrite !app_assoc in Eo. apply app_inj_tail in Eo. destruct Eo as [Eo ->].
  assert (Sm : forall (A : Type) (a b x y : list A), length a = length x -> a ++ b = x ++ y -> a = x /\ b = y).
  { intros A a. induction a as [|u a IH]; intros b [|v x] y Ln Ex; try discriminate; [split; [reflexivity|exact Ex]|]. cbn [app] in Ex. injection Ex as -> Ex. injection Ln as Ln. destruct (IH _ _ _ Ln Ex) as [-> ->]. split; reflexivity. }
  destruct (Sm _ _ _ _ _ (eq_trans (eq_sym (run_length _ _ _ _ _ _ E0)) (eq_sym L0)) Eo) as [-> ->].
  destruct (station_history pipes_inv env o H OJ (fun _ _ => eq_refl) (fun _ _ _ => eq_refl) pipes_had (pipes_step env o) gs0 w0 c0 out0 F0 E0) as (old & h0 & D0 & I0).
  pose proof (three_locked _ _ _ _ _ _ _ OJ E0 Np Th) as Lk.
  pose proof (host_text_txt env HT) as Et.
  pose proof (run_fine env o gs0 _ _ _ H Et (created_fine o _ (or_introl (ex_intro _ w0 eq_refl))) F0 E0) as Fc0.
  destruct (steady_history pipes_inv env o p H OJ pipes_had (pipes_step env o) gs1 h0 c0 c1 out1 (proj1 Fc0) Lk I0 F1 S1 Ea) as (L1 & Hc1 & I1).
  pose proof (run_fine env o gs1 _ _ _ H Et Fc0 F1 Ea) as Fc1.
  destruct (line_c env o now c1 g w c2 line b1 b2 b3 b4 H HT OJ Fc1 R Eb' Wc) as [_ Sq]. specialize (Sq q Eb).
  rewrite (locked_tuned p c1 o now g w L1 Sg), (I1 q), rev_app_distr, last_assigned_app in Sq.
  destruct (last_assigned q (rev (decoded_in gs1 out1))); [exact Sq|]. intros Na.
  destruct (last_assigned q (rev h0)) as [a|] eqn:La; [|exact Sq]. exfalso. destruct (last_assigned_in _ _ _ La) as (x & X1 & X2). apply (Na x a); [|exact X2].
  apply in_rev in X1. apply (decoded_sub gs0 out0). rewrite D0. apply in_or_app. right. exact X1.
Qed.
