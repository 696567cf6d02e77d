(* The line printed for a group: its header fields, and the decoder's result it shows. *)
From Verif.Proofs Require Import Tac Numerals FreqP Utf8P JsonP Schema StationP TextP CleanP ClockP BlerP UpdateP SessionP.
From Verif.Model Require Import Util Float Group BlockSync Options Tables Json Tmc Station Channel.
From Verif.Spec Require Import Unicode JsonText Calendar Session.

Local Open Scope string_scope.
Local Open Scope N_scope.

Definition basics_of (o : Options) (g : Group) (b : blockNumber) (w : bool) : list (string * json) :=
  (if w then [("group", JStr (GroupType_str (g_type g)))] else []) ++
  [("tp", JBool (getBool (g_get g b) 10)); ("prog_type", JStr (pty_string o (getBits 5 (g_get g b) 5)))].

Definition basics (o : Options) (g : Group) : list (string * json) :=
  if is_C g then [("group", JS "C")]
  else if g_has g BLOCK2 then basics_of o g BLOCK2 (g_has_type g)
  else if (gt_number (g_type g) =? 15) && Version_eqb (gt_version (g_type g)) VB && g_has g BLOCK4
  then basics_of o g BLOCK4 true else [].

Definition call_member (o : Options) (st : Station) : list (string * json) :=
  if o_rbds o then
    match getCallsignFromPI (st_pi st) with
    | [] => []
    | s => [(if N.land (st_pi st) 0xF000 =? 0x1000 then "callsign_uncertain" else "callsign", JStr s)]
    end
  else [].

Definition bler_value (g : Group) : json := match sf_lround (g_bler g) with Ok z => JInt z | _ => JNull end.

Definition header (env : Env) (o : Options) (st : Station) (g : Group) : list (string * json) :=
  (if o_streams o then [("stream", JN (g_data_stream g))] else []) ++
  (if is_C g then [] else [("pi", JStr (getPrefixedHexString 4 (st_pi st)))]) ++
  (if is_C g then [] else call_member o st) ++
  (if o_timestamp o then [("rx_time", JStr (getTimePointString env (g_time_received g) (o_time_format o)))] else []) ++
  (if g_has_bler g then [("bler", bler_value g)] else []) ++
  (if 1 <? o_num_channels o then [("channel", JN (st_which_channel st))] else []) ++
  (if o_show_raw o then [("raw_data", JStr (g_printHex g))] else []) ++
  basics o g.

Definition header_names : list string :=
  ["stream"; "pi"; "callsign"; "callsign_uncertain"; "rx_time"; "bler"; "channel"; "raw_data"; "group"; "tp"; "prog_type"].

Lemma obj_put_new : forall k v m, obj_find k m = None -> obj_put k v m = (m ++ [(k, v)])%list.
Proof.
  intros k v. induction m as [|[k0 v0] m IH]; intros H; [reflexivity|]. cbn [obj_find obj_put] in *.
  destruct (String.eqb k k0); [discriminate|]. rewrite IH by exact H. reflexivity.
Qed.
Lemma jset_new : forall k v m, obj_find k m = None -> jset [k] v (JObj m) = Ok (JObj (m ++ [(k, v)])).
Proof. intros k v m H. unfold jset. cbn [jupd bind]. rewrite obj_put_new by exact H. reflexivity. Qed.
Lemma obj_find_app : forall k a b, obj_find k (a ++ b) = match obj_find k a with Some v => Some v | None => obj_find k b end.
Proof.
  intros k. induction a as [|[k0 v0] a IH]; intros b; [reflexivity|]. cbn [app obj_find].
  destruct (String.eqb k k0); [reflexivity|apply IH].
Qed.

(* a step that adds a member if a condition holds *)
Lemma jset_if : forall (b : bool) k v m, obj_find k m = None ->
  (if b then jset [k] v (JObj m) else Ok (JObj m)) = Ok (JObj (m ++ if b then [(k, v)] else [])).
Proof. intros [|] k v m H; [apply jset_new; exact H|rewrite app_nil_r; reflexivity]. Qed.

Ltac nokey := rewrite ?obj_find_app;
  repeat match goal with |- context [obj_find _ (if ?b then _ else _)] => destruct b end; try reflexivity.

Lemma call_find : forall o st k, k <> "callsign" -> k <> "callsign_uncertain" -> obj_find k (call_member o st) = None.
Proof.
  intros o st k N1 N2. unfold call_member. destruct (o_rbds o); [|reflexivity].
  destruct (getCallsignFromPI (st_pi st)); [reflexivity|]. cbn [obj_find].
  destruct (_ =? _).
  - destruct (String.eqb_spec k "callsign_uncertain"); [contradiction|reflexivity].
  - destruct (String.eqb_spec k "callsign"); [contradiction|reflexivity].
Qed.

Lemma callsign_eq : forall o st m, obj_find "callsign" m = None -> obj_find "callsign_uncertain" m = None ->
  decodeCallsign o st (JObj m) = Ok (JObj (m ++ call_member o st)).
Proof.
  intros o st m H1 H2. unfold decodeCallsign, call_member. destruct (o_rbds o); [|rewrite app_nil_r; reflexivity].
  destruct (getCallsignFromPI (st_pi st)); [rewrite app_nil_r; reflexivity|].
  destruct (_ =? _); apply jset_new; assumption.
Qed.

Lemma basics_eq : forall o g m, obj_find "group" m = None -> obj_find "tp" m = None -> obj_find "prog_type" m = None ->
  decodeBasics o g (JObj m) = Ok (JObj (m ++ basics o g)).
Proof.
  intros o g m H1 H2 H3. unfold decodeBasics, basics, is_C.
  destruct (Version_eqb _ VC); [apply jset_new; exact H1|]. cbv zeta.
  assert (B : forall b (w : bool),
    (j0 <- (if w then jset ["group"] (JStr (GroupType_str (g_type g))) (JObj m) else Ok (JObj m)) ;;
     j1 <- jset ["tp"] (JBool (getBool (g_get g b) 10)) j0 ;;
     jset ["prog_type"] (JStr (pty_string o (getBits 5 (g_get g b) 5))) j1) = Ok (JObj (m ++ basics_of o g b w))).
  { intros b w. rewrite jset_if by exact H1. cbn [bind].
    rewrite jset_new by (rewrite obj_find_app, H2; destruct w; reflexivity). cbn [bind].
    rewrite jset_new by (rewrite !obj_find_app, H3; destruct w; reflexivity).
    unfold basics_of. rewrite <- !app_assoc. reflexivity. }
  destruct (g_has g BLOCK2); [apply B|]. destruct (_ && _ && _); [apply (B BLOCK4 true)|rewrite app_nil_r; reflexivity].
Qed.

Lemma prelude_eq : forall env o st g, bler_ok g -> prelude env o st g = Ok (JObj (header env o st g)).
Proof.
  intros env o st g B. unfold prelude.
  rewrite jset_if by reflexivity. cbn [bind app]. set (m1 := if o_streams o then _ else _).
  assert (E2 : (if is_C g then Ok (JObj m1) else
     j <- jset ["pi"] (JStr (getPrefixedHexString 4 (st_pi st))) (JObj m1) ;; decodeCallsign o st j) =
     Ok (JObj ((m1 ++ (if is_C g then [] else [("pi", JStr (getPrefixedHexString 4 (st_pi st)))])) ++
         (if is_C g then [] else call_member o st)))).
  { destruct (is_C g); [rewrite !app_nil_r; reflexivity|].
    rewrite jset_new by (subst m1; nokey). cbn [bind]. apply callsign_eq; subst m1; nokey. }
  rewrite E2. cbn [bind]. clear E2.
  set (m3 := ((m1 ++ _) ++ _)%list).
  assert (N3 : forall k, k <> "callsign" -> k <> "callsign_uncertain" -> k <> "pi" -> k <> "stream" -> obj_find k m3 = None).
  { intros k K1 K2 K3 K4. subst m3 m1. rewrite !obj_find_app. destruct (o_streams o), (is_C g); cbn [obj_find];
      repeat match goal with |- context [String.eqb k ?x] => destruct (String.eqb_spec k x); [contradiction|] end;
      rewrite ?call_find by assumption; reflexivity. }
  unfold decodeHeader. rewrite jset_if by (apply N3; discriminate). cbn [bind].
  set (t4 := if o_timestamp o then _ else _).
  assert (E5 : (if g_has_bler g then b <- sf_lround (g_bler g) ;; jset ["bler"] (JInt b) (JObj (m3 ++ t4)) else Ok (JObj (m3 ++ t4))) =
               Ok (JObj ((m3 ++ t4) ++ if g_has_bler g then [("bler", bler_value g)] else []))).
  { unfold bler_ok, bler_value in *. destruct (g_has_bler g); [|rewrite app_nil_r; reflexivity].
    destruct (B eq_refl) as (z & ->). cbn [bind]. apply jset_new. rewrite obj_find_app, N3 by discriminate. subst t4. nokey. }
  rewrite E5. cbn [bind]. clear E5.
  rewrite jset_if by (rewrite !obj_find_app, N3 by discriminate; subst t4; nokey). cbn [bind].
  rewrite jset_if by (rewrite !obj_find_app, N3 by discriminate; subst t4; nokey). cbn [bind].
  rewrite basics_eq by (rewrite !obj_find_app, N3 by discriminate; subst t4; nokey).
  unfold header. subst m3 t4 m1. rewrite <- !app_assoc. reflexivity.
Qed.

Definition in_header (k : string) : bool := existsb (String.eqb k) header_names.

Lemma header_conf : forall env o st g, bler_ok g ->
  conf in_header (fun k => obj_find k (header env o st g)) (JObj (header env o st g)) /\
  (forall k, in_header k = false -> obj_find k (header env o st g) = None).
Proof.
  intros env o st g B.
  assert (W : writes (fun k => negb (in_header k)) (header_keys o g)).
  { unfold header_keys. rewrite !writes_app. repeat split;
      repeat match goal with |- writes _ (if ?b then _ else _) => destruct b end; repeat constructor. }
  destruct (prelude_good _ env o st g B W) as (j & E & C). rewrite prelude_eq in E by exact B. injection E as <-.
  split.
  - pose proof (conf_now _ _ in_header _ C) as N. eapply conf_weaken; [exact N|]. intros k Hk. split; [exact Hk|].
    cbn [jget]. destruct (obj_find k _); reflexivity.
  - intros k Hk. pose proof (conf_get _ _ _ k C) as G. cbn [jget] in G. rewrite Hk in G. specialize (G eq_refl).
    destruct (obj_find k _); [discriminate|reflexivity].
Qed.

Lemma decoder_not_header : forall o, writes in_header (decoder_keys o).
Proof.
  intros o. unfold decoder_keys. apply writes_app. split; [|destruct (o_show_partial o)]; repeat constructor.
Qed.

(* What the decoder makes of the group *)
Definition decoded (env : Env) (o : Options) (st : Station) (g : Group) : res (Station * json) :=
  if g_has_type g then decodeByType env o (had st g) g (JObj (header env o st g))
  else Ok (had st g, JObj (header env o st g)).

Lemma update_line : forall env o st g, env_ok env -> st_ok st -> bler_ok g -> silent st g = false ->
  exists st' j line, decoded env o st g = Ok (st', j) /\ updateAndPrint env o st g = Ok (st', Some line) /\ st_ok st' /\
    print_json env j = Ok line /\ (forall k, in_header k = true -> jget [k] j = obj_find k (header env o st g)).
Proof.
  intros env o st g E So B Si. rewrite update_eq, Si, prelude_eq by exact B. cbn [bind]. fold (decoded env o st g).
  assert (D : good (gets in_header (fun k => obj_find k (header env o st g))) (decoded env o st g)).
  { unfold decoded. destruct (header_conf env o st g B) as [C _]. destruct (g_has_type g).
    - apply decodeByType_good; try assumption; [apply mjd_total_holds|apply E|apply had_ok; exact So|apply decoder_not_header].
    - apply good_ok. split; [apply had_ok; exact So|exact C]. }
  destruct D as ([st' j] & -> & [S' C']). cbn [bind fst snd] in *.
  destruct (print_good env j E) as (j' & Pj & _). rewrite Pj. cbn [bind].
  exists st', j, (dump (env_float env) j'). do 3 (split; [first [reflexivity|assumption]|]). split; [exact Pj|].
  intros k Hk. apply (conf_get _ _ _ k C' Hk).
Qed.

(* ---- no error report instead of the line ---- *)
Lemma time_txt : forall env t f, env_txt env -> txt (getTimePointString env t f).
Proof.
  intros env t f (_ & H & _). unfold getTimePointString. destruct (env_strftime env _ _) eqn:E; [|reflexivity].
  apply (H _ _ _ E).
Qed.

Lemma header_clean : forall env o st g, env_txt env -> clean (JObj (header env o st g)).
Proof.
  intros env o st g E. apply clean_obj.
  assert (One : forall k t, txt (bs k) -> txt t -> Forall (fun kv => txt (bs (fst kv)) /\ clean (snd kv)) [(k, JStr t)]).
  { intros k t K V. repeat constructor; assumption. }
  assert (B : forall b w, Forall (fun kv => txt (bs (fst kv)) /\ clean (snd kv)) (basics_of o g b w)).
  { intros b w. apply Forall_app. split; [destruct w; [apply One; [reflexivity|apply txt_group_type]|constructor]|].
    constructor; [split; reflexivity|]. apply One; [reflexivity|apply txt_pty]. }
  unfold header. repeat (apply Forall_app; split).
  - destruct (o_streams o); repeat constructor.
  - destruct (is_C g); [constructor|]. apply One; [reflexivity|apply txt_phex].
  - destruct (is_C g); [constructor|]. unfold call_member. destruct (o_rbds o); [|constructor].
    pose proof (txt_callsign (st_pi st)) as T. destruct (getCallsignFromPI (st_pi st)); [constructor|].
    apply One; [destruct (_ =? _); reflexivity|exact T].
  - destruct (o_timestamp o); [|constructor]. apply One; [reflexivity|apply time_txt; exact E].
  - destruct (g_has_bler g); [|constructor]. constructor; [|constructor]. split; [reflexivity|].
    unfold bler_value. destruct (sf_lround _); reflexivity.
  - destruct (1 <? o_num_channels o); repeat constructor.
  - destruct (o_show_raw o); [|constructor]. apply One; [reflexivity|apply txt_printHex].
  - unfold basics. destruct (is_C g); [repeat constructor|]. destruct (g_has g BLOCK2); [apply B|].
    destruct (_ && _ && _); [apply B|constructor].
Qed.

Lemma had_clean : forall st g, st_clean st -> st_clean (had st g).
Proof. intros st g H. unfold had. destruct (_ || _); exact H. Qed.
Lemma had_raw : forall st g, raw_group (had st g) g = raw_group st g.
Proof. intros st g. unfold had. destruct (_ || _); reflexivity. Qed.

Lemma decoded_st_clean : forall env o st g, env_txt env -> st_clean st -> keeps (fun sj => st_clean (fst sj)) (decoded env o st g).
Proof.
  intros env o st g E S. unfold decoded. destruct (g_has_type g).
  - apply decodeByType_st; [exact E|apply header_clean; exact E|apply had_clean; exact S].
  - apply keeps_ok. apply had_clean. exact S.
Qed.

Lemma decoded_clean : forall env o st g, env_txt env -> st_clean st -> raw_group st g = false \/ g_has_type g = false ->
  keeps sc (decoded env o st g).
Proof.
  intros env o st g E S R. unfold decoded. destruct (g_has_type g).
  - destruct R as [R|R]; [|discriminate].
    apply decodeByType_clean; [exact E|apply header_clean; exact E|apply had_clean; exact S|rewrite had_raw; exact R].
  - apply keeps_ok. split; [apply had_clean; exact S|apply header_clean; exact E].
Qed.

(* The line of a group whose text is all UTF-8 shows the decoder's result *)
Lemma update_shows : forall env o st g, host_ok env -> env_txt env -> st_ok st -> st_clean st -> bler_ok g ->
  silent st g = false -> raw_group st g = false \/ g_has_type g = false ->
  exists st' j line, decoded env o st g = Ok (st', j) /\ updateAndPrint env o st g = Ok (st', Some line) /\
    st_ok st' /\ st_clean st' /\
    (forall k, in_header k = true -> jget [k] j = obj_find k (header env o st g)) /\
    (forall p, line_at p line = option_map (value_of (env_float env)) (jget p j)).
Proof.
  intros env o st g H E So Sc B Si R. destruct (host_env env H) as [E1 FL].
  destruct (update_line env o st g E1 So B Si) as (st' & j & line & D & U & S' & Pr & Hd).
  exists st', j, line. destruct (decoded_clean env o st g E Sc R _ D) as [C1 C2]. cbn [fst snd] in *.
  do 5 (split; [assumption|]).
  intros p. unfold print_json, json_print in Pr. unfold clean in C2. rewrite C2 in Pr. injection Pr as <-.
  rewrite line_at_dump by exact FL. destruct (jget p j); reflexivity.
Qed.
