(* One group through the station and the channel: nothing fails, and what the line is made of. *)
From Verif.Proofs Require Import Tac Numerals FreqP Schema StationP FloatP ClockP BlerP JsonP.
From Verif.Model Require Import Util Float Group BlockSync Options Tables Freq RdsString Rft Json Tmc Station Channel.

(* What the operating system and the tables must supply for the program not to fail: service keys
   with a defined shift, and error texts that can be printed. *)
Definition env_ok (env : Env) : Prop :=
  keys_ok (env_tmc env) /\ forall j, utf8_valid (env_what_json env j) = true.

Definition is_C (g : Group) : bool := Version_eqb (gt_version (g_type g)) VC.

(* The part of the line that does not depend on the group type *)
Definition prelude (env : Env) (o : Options) (st : Station) (g : Group) : res json :=
  j <- (if o_streams o then jset ["stream"%string] (JN (g_data_stream g)) (JObj []) else Ok (JObj [])) ;;
  j <- (if is_C g then Ok j
        else j <- jset ["pi"%string] (JStr (getPrefixedHexString 4 (st_pi st))) j ;; decodeCallsign o st j) ;;
  j <- decodeHeader env o st g j ;;
  decodeBasics o g j.

(* Groups for which nothing is printed *)
Definition silent (st : Station) (g : Group) : bool :=
  negb (st_has_pi st) ||
  (negb (is_C g) && ((negb (g_hasPI g) && negb (st_last_group_had_pi st)) || g_isEmpty g)).

(* The state in which the type-specific decoder runs (and the next state of a silent group) *)
Definition had (st : Station) (g : Group) : Station :=
  if negb (st_has_pi st) || is_C g || (negb (g_hasPI g) && negb (st_last_group_had_pi st)) then st
  else set_had_pi st (g_hasPI g).

Lemma bind_assoc : forall (A B C : Type) (m : res A) (f : A -> res B) (h : B -> res C),
  bind (bind m f) h = bind m (fun a => bind (f a) h).
Proof. intros A B C [a| |] f h; reflexivity. Qed.

Lemma bind_ext : forall (A B : Type) (m : res A) (f h : A -> res B),
  (forall a, f a = h a) -> bind m f = bind m h.
Proof. intros A B [a| |] f h E; [apply E|reflexivity|reflexivity]. Qed.

Lemma header_had : forall env o st b g j, decodeHeader env o (set_had_pi st b) g j = decodeHeader env o st g j.
Proof. reflexivity. Qed.
Lemma callsign_had : forall o st b j, decodeCallsign o (set_had_pi st b) j = decodeCallsign o st j.
Proof. reflexivity. Qed.

Lemma update_eq : forall env o st g, updateAndPrint env o st g =
  if silent st g then
    if st_has_pi st && o_streams o
    then (_ <- jset ["stream"%string] (JN (g_data_stream g)) (JObj []) ;; Ok (had st g, None))
    else Ok (had st g, None)
  else
    j <- prelude env o st g ;;
    '(st, j) <- (if g_has_type g then decodeByType env o (had st g) g j else Ok (had st g, j)) ;;
    text <- print_json env j ;;
    Ok (st, Some text).
Proof.
  intros env o st g. unfold updateAndPrint, silent, had, prelude, is_C. cbv zeta.
  destruct (st_has_pi st); cbn [negb orb andb]; [|reflexivity].
  destruct (Version_eqb (gt_version (g_type g)) VC); cbn [negb orb andb].
  - rewrite !bind_assoc. apply bind_ext. intros j0. cbn [bind]. rewrite bind_assoc. reflexivity.
  - destruct (negb (g_hasPI g) && negb (st_last_group_had_pi st)); cbn [orb].
    + destruct (o_streams o); [|reflexivity]. reflexivity.
    + destruct (g_isEmpty g).
      * destruct (o_streams o); reflexivity.
      * rewrite !bind_assoc. apply bind_ext. intros j0. cbn [bind]. rewrite !bind_assoc.
        change (st_pi (set_had_pi st (g_hasPI g))) with (st_pi st).
        apply bind_ext. intros j1. apply bind_ext. intros j2. rewrite !bind_assoc. reflexivity.
Qed.

(* The keys the prelude writes *)
Definition header_keys (o : Options) (g : Group) : list string :=
  (if o_streams o then ["stream"]%string else []) ++ (if is_C g then [] else ["pi"]%string) ++
  (if o_rbds o then ["callsign"; "callsign_uncertain"]%string else []) ++
  (if o_timestamp o then ["rx_time"]%string else []) ++
  (if g_has_bler g then ["bler"]%string else []) ++
  (if 1 <? o_num_channels o then ["channel"]%string else []) ++
  (if o_show_raw o then ["raw_data"]%string else []) ++ ["group"; "tp"; "prog_type"]%string.

Definition bler_ok (g : Group) : Prop := g_has_bler g = true -> exists z, sf_lround (g_bler g) = Ok z.

Lemma writes_app : forall F a b, writes F (a ++ b) <-> writes F a /\ writes F b.
Proof. intros. unfold writes. apply Forall_app. Qed.

Lemma decodeHeader_good : forall F R env o st g j, conf F R j -> bler_ok g ->
  writes F ((if o_timestamp o then ["rx_time"]%string else []) ++
  (if g_has_bler g then ["bler"]%string else []) ++
  (if 1 <? o_num_channels o then ["channel"]%string else []) ++
  (if o_show_raw o then ["raw_data"]%string else [])) -> good (conf F R) (decodeHeader env o st g j).
Proof.
  intros F R env o st g j C B W. unfold decodeHeader. rewrite !writes_app in W. destruct W as (W1 & W2 & W3 & W4).
  bindj F R; [destruct (o_timestamp o); jstep|clear C; intros j1 C].
  bindj F R; [|clear C; intros j2 C].
  { unfold bler_ok in B. destruct (g_has_bler g); [|jstep]. destruct (B eq_refl) as (z & ->). cbn [bind]. jstep. }
  bindj F R; [destruct (1 <? o_num_channels o); jstep|clear C; intros j3 C].
  destruct (o_show_raw o); jstep.
Qed.

Lemma prelude_good : forall F env o st g, bler_ok g -> writes F (header_keys o g) ->
  good (conf F absent) (prelude env o st g).
Proof.
  intros F env o st g B W. unfold prelude, header_keys in *. rewrite !writes_app in W.
  destruct W as (W1 & W2 & W3 & W4 & W5 & W6 & W7 & W8).
  pose proof (conf_empty F) as C.
  bindj F absent; [destruct (o_streams o); jstep|clear C; intros j1 C].
  bindj F absent; [|clear C; intros j2 C].
  { destruct (is_C g); [jstep|]. jstep. unfold decodeCallsign. destruct (o_rbds o); [|jstep].
    destruct (getCallsignFromPI (st_pi st)); [jstep|]. destruct (_ =? _); jstep. }
  bindj F absent; [|clear C; intros j3 C].
  { apply decodeHeader_good; [exact C|exact B|]. rewrite !writes_app. repeat split; assumption. }
  apply decodeBasics_good; [exact C|exact W8].
Qed.

Lemma had_ok : forall st g, st_ok st -> st_ok (had st g).
Proof. intros st g H. unfold had. destruct (_ || _); exact H. Qed.

Lemma print_good : forall env j, env_ok env ->
  exists j', print_json env j = Ok (dump (env_float env) j') /\ json_utf8 j' = true /\
             (j' = j \/ (json_utf8 j = false /\ j' = JObj [("debug"%string, JStr (env_what_json env j))])).
Proof.
  intros env j [_ H]. unfold print_json, json_print. destruct (json_utf8 j) eqn:E.
  - exists j. split; [reflexivity|]. split; [exact E|]. left. reflexivity.
  - exists (JObj [("debug"%string, JStr (env_what_json env j))]).
    assert (U : json_utf8 (JObj [("debug"%string, JStr (env_what_json env j))]) = true).
    { cbn [json_utf8 forallb fst snd]. rewrite H. reflexivity. }
    rewrite U. split; [reflexivity|]. split; [reflexivity|]. right. split; reflexivity.
Qed.

(* A printed line: the object that was built if its strings are UTF-8, or else the error report *)
Definition line_of (env : Env) (P : json -> Prop) (line : bytes) : Prop :=
  exists j j', P j /\ line = dump (env_float env) j' /\ json_utf8 j' = true /\
    (j' = j \/ (json_utf8 j = false /\ j' = JObj [("debug"%string, JStr (env_what_json env j))])).

Lemma update_good : forall F env o st g, env_ok env -> st_ok st -> bler_ok g ->
  writes F (header_keys o g) -> writes F (decoder_keys o) ->
  good (fun sl => st_ok (fst sl) /\ (silent st g = true <-> snd sl = None) /\
                  match snd sl with Some line => line_of env (conf F absent) line | None => True end)
       (updateAndPrint env o st g).
Proof.
  intros F env o st g E So B W W'. rewrite update_eq. destruct (silent st g).
  { destruct (st_has_pi st && o_streams o); [cbn [jset jupd bind obj_find]|];
      (apply good_ok; split; [apply had_ok; exact So|]; split; [tauto|exact I]). }
  eapply good_bind; [apply (prelude_good F); assumption|]. intros j0 C0.
  apply (good_bind _ _ (gets F absent)).
  { destruct (g_has_type g); [|apply good_ok; split; [apply had_ok; exact So|exact C0]].
    apply decodeByType_good; try assumption; [apply mjd_total_holds|apply E|apply had_ok; exact So]. }
  intros [st2 j2] [S2 C2]. cbn [fst snd] in *.
  destruct (print_good env j2 E) as (j' & Ep & Up & D). rewrite Ep. cbn [bind]. apply good_ok. cbn [fst snd].
  split; [exact S2|]. split; [split; discriminate|]. exists j2, j'. repeat split; assumption.
Qed.

(* ---- the channel ---- *)
Definition stream_ok (s : BlockStream) : Prop :=
  g_has_bler (bst_current_group s) = false /\ bst_has_group_ready s = false.
Definition ch_ok (c : Channel) : Prop :=
  st_ok (ch_station c) /\ (exists l, ra_rep (ch_bler_average c) l) /\
  length (ch_block_stream c) = 4%nat /\
  Forall stream_ok (ch_block_stream c).

Lemma channel_new_ok : forall o w, ch_ok (Channel_new o w).
Proof.
  intros o w. split; [apply station_new_ok|]. split; [exists (repeat 0 12); apply ra_init_rep|].
  split; [reflexivity|]. repeat constructor.
Qed.
Lemma channel_new_pi_ok : forall o pi, ch_ok (Channel_new_pi o pi).
Proof.
  intros o w. split; [apply station_new_pi_ok|]. split; [exists (repeat 0 12); apply ra_init_rep|].
  split; [reflexivity|]. repeat constructor.
Qed.

(* The group as it reaches the station, and the rest of the channel's next state *)
Definition stamped (o : Options) (now : Z) (c : Channel) (g : Group) : Group :=
  if o_timestamp o && negb (g_has_time g)
  then g_setTime g (if (now <? ch_last_group_rx_time c)%Z then ch_last_group_rx_time c else now) else g.
Definition stamp_time (o : Options) (now : Z) (c : Channel) (g : Group) : Z :=
  if o_timestamp o && negb (g_has_time g) then now else ch_last_group_rx_time c.
Definition next_avg (o : Options) (c : Channel) (g : Group) : RunningAverage :=
  if o_bler o then ra_push (ch_bler_average c) (q4 (g_getNumErrors g)) else ch_bler_average c.
Definition measured (o : Options) (c : Channel) (g : Group) : Group :=
  if o_bler o then g_setAverageBLER g (f32_mul (f32_of_Z 100) (ra_getAverage (next_avg o c g))) else g.
Definition streamed (g : Group) (which : N) : Group :=
  g_setDataStream (if which =? 0 then g else g_setVersionC g) which.
(* the group the station sees *)
Definition prepared (o : Options) (now : Z) (c : Channel) (g : Group) (which : N) : Group :=
  streamed (measured o c (stamped o now c g)) which.
Definition next_pi (c : Channel) (g : Group) : CachedPI :=
  if g_hasPI g then fst (pi_update (ch_cached_pi c) (g_getPI g)) else ch_cached_pi c.
Definition tuned (c : Channel) (g : Group) : Station :=
  if g_hasPI g then
    match snd (pi_update (ch_cached_pi c) (g_getPI g)) with
    | ChangeConfirmed => Station_new_pi (ch_which_channel c) (pi_confirmed (next_pi c g))
    | _ => ch_station c
    end
  else ch_station c.

Lemma stamped_errors : forall o now c g, g_getNumErrors (stamped o now c g) = g_getNumErrors g.
Proof. intros. unfold stamped. destruct (_ && _); reflexivity. Qed.

Lemma process_eq : forall env o now c g which,
  let g' := prepared o now c g which in
  let next st := mkChannel (ch_which_channel c) (next_pi c g') (ch_block_stream c) st (next_avg o c g) (stamp_time o now c g) in
  processGroup env o now c g which =
  match o_output_type o with
  | OutHex => Ok (next (tuned c g'), printAsHex env o g')
  | OutJSON => '(st, line) <- updateAndPrint env o (tuned c g') g' ;; Ok (next st, line)
  end.
Proof.
  intros env o now c g which. cbv zeta. unfold processGroup, prepared, stamp_time, stamped, measured, next_avg, q4.
  assert (T : forall g1 t avg,
    (let g2 := if which =? 0 then g1 else g_setVersionC g1 in
     let g3 := g_setDataStream g2 which in
     let '(cached, station) :=
       if g_hasPI g3 then
         let '(cached, status) := pi_update (ch_cached_pi c) (g_getPI g3) in
         (cached, match status with
                  | ChangeConfirmed => Station_new_pi (ch_which_channel c) (pi_confirmed cached)
                  | _ => ch_station c
                  end)
       else (ch_cached_pi c, ch_station c) in
     let next station := mkChannel (ch_which_channel c) cached (ch_block_stream c) station avg t in
     match o_output_type o with
     | OutHex => Ok (next station, printAsHex env o g3)
     | OutJSON => '(station, line) <- updateAndPrint env o station g3 ;; Ok (next station, line)
     end) =
    (let next st := mkChannel (ch_which_channel c) (next_pi c (streamed g1 which)) (ch_block_stream c) st avg t in
     match o_output_type o with
     | OutHex => Ok (next (tuned c (streamed g1 which)), printAsHex env o (streamed g1 which))
     | OutJSON => '(st, line) <- updateAndPrint env o (tuned c (streamed g1 which)) (streamed g1 which) ;; Ok (next st, line)
     end)).
  { intros g1 t avg. cbv zeta. fold (streamed g1 which). set (g3 := streamed g1 which).
    unfold next_pi, tuned, next_pi. destruct (g_hasPI g3); [|reflexivity].
    destruct (pi_update (ch_cached_pi c) (g_getPI g3)) as [cached status]. reflexivity. }
  destruct (o_timestamp o && negb (g_has_time g)); destruct (o_bler o); cbv beta iota zeta; apply T.
Qed.

Lemma avg_next : forall o c g l, ra_rep (ch_bler_average c) l ->
  ra_rep (next_avg o c g) (if o_bler o then tl l ++ [g_getNumErrors g] else l).
Proof.
  intros o c g l H. unfold next_avg. destruct (o_bler o); [|exact H].
  apply ra_push_rep; [exact H|apply num_errors_le].
Qed.

Lemma prepared_bler : forall o now c g which, ch_ok c -> g_has_bler g = false ->
  g_has_bler (prepared o now c g which) = o_bler o /\ bler_ok (prepared o now c g which).
Proof.
  intros o now c g which (_ & (l & Hl) & _) Hg.
  assert (E : g_has_bler (prepared o now c g which) = o_bler o).
  { unfold prepared, streamed, measured, stamped. destruct (which =? 0), (o_bler o), (_ && _); cbn; try reflexivity; exact Hg. }
  split; [exact E|]. intros Hb. rewrite E in Hb.
  assert (Eb : g_bler (prepared o now c g which) = f32_mul (f32_of_Z 100) (ra_getAverage (next_avg o c (stamped o now c g)))).
  { unfold prepared, streamed, measured. rewrite Hb. destruct (which =? 0); reflexivity. }
  rewrite Eb. eexists. apply (ra_bler _ _ (avg_next o c (stamped o now c g) l Hl)).
Qed.

Lemma tuned_ok : forall c g, ch_ok c -> st_ok (tuned c g).
Proof.
  intros c g (S & _). unfold tuned. destruct (g_hasPI g); [|exact S].
  destruct (snd _); try exact S. apply station_new_pi_ok.
Qed.

(* Keys a group's line may contain *)
Definition line_keys (o : Options) (g : Group) : list string := header_keys o g ++ decoder_keys o.
Definition not_in (keys : list string) (k : string) : bool := negb (existsb (String.eqb k) keys).
Lemma not_in_writes : forall keys, writes (not_in keys) keys.
Proof.
  intros keys. apply Forall_forall. intros k Hk. unfold not_in. apply negb_false_iff.
  apply existsb_exists. exists k. split; [exact Hk|apply String.eqb_refl].
Qed.

Definition shown (env : Env) (o : Options) (g' : Group) (line : option bytes) : Prop :=
  match line with
  | None => True
  | Some text => match o_output_type o with
                 | OutHex => Some text = printAsHex env o g'
                 | OutJSON => line_of env (conf (not_in (line_keys o g')) absent) text
                 end
  end.

Lemma process_good : forall env o now c g which, env_ok env -> ch_ok c -> g_has_bler g = false ->
  good (fun cl => ch_ok (fst cl) /\ shown env o (prepared o now c g which) (snd cl))
       (processGroup env o now c g which).
Proof.
  intros env o now c g which E Hc Hg. rewrite process_eq. cbv zeta.
  set (g' := prepared o now c g which).
  assert (Next : forall st, st_ok st -> ch_ok (mkChannel (ch_which_channel c) (next_pi c g') (ch_block_stream c) st
                                                  (next_avg o c g) (stamp_time o now c g))).
  { intros st Hs. destruct Hc as (_ & (l & Hl) & Hr). split; [exact Hs|]. split; [|exact Hr].
    eexists. apply avg_next. exact Hl. }
  unfold shown. destruct (o_output_type o).
  - apply good_ok. split; [apply Next, tuned_ok; exact Hc|]. cbn [snd]. destruct (printAsHex env o g'); [reflexivity|exact I].
  - destruct (prepared_bler o now c g which Hc Hg) as [_ B]. fold g' in B.
    assert (W := not_in_writes (line_keys o g')). unfold line_keys in W. apply writes_app in W. destruct W as [W1 W2].
    eapply good_bind; [apply (update_good _ env o (tuned c g') g' E (tuned_ok c g' Hc) B W1 W2)|].
    intros [st line] (S & _ & L). cbn [fst snd] in *. apply good_ok. split; [apply Next, S|exact L].
Qed.

Lemma run_groups_good : forall env o gs c, env_ok env -> ch_ok c ->
  Forall (fun x => g_has_bler (snd (fst x)) = false) gs ->
  good (fun cl => ch_ok (fst cl) /\ length (snd cl) = length gs) (run_groups env o c gs).
Proof.
  intros env o. induction gs as [|[[now g] which] gs IH]; intros c E Hc F.
  - apply good_ok. split; [exact Hc|reflexivity].
  - inversion F; subst. cbn [run_groups].
    eapply good_bind; [apply process_good; assumption|]. intros [c1 l1] [C1 _]. cbn [fst snd] in *.
    eapply good_bind; [apply IH; assumption|]. intros [c2 l2] [C2 L2]. cbn [fst snd] in *.
    apply good_ok. split; [exact C2|]. cbn [snd length]. rewrite L2. reflexivity.
Qed.

(* Groups coming out of the block synchroniser carry no block error rate yet *)
Lemma setBlock_bler : forall g n b, g_has_bler (g_setBlock g n b) = g_has_bler g.
Proof.
  intros g n b. unfold g_setBlock. cbv zeta.
  destruct n; cbn [g_put_block];
    repeat match goal with
           | |- g_has_bler (if ?c then _ else _) = _ => destruct c
           | |- g_has_bler (g_put_type ?x _ _) = _ => change (g_has_bler x = g_has_bler g)
           | |- g_has_bler (match ?v with VA => _ | VB => _ | VC => _ end) = _ => destruct v
           end; reflexivity.
Qed.

Lemma acquire_bler : forall s off, g_has_bler (bst_current_group s) = false ->
  g_has_bler (bst_current_group (acquireSync s off)) = false /\ bst_ready_group (acquireSync s off) = bst_ready_group s /\
  bst_has_group_ready (acquireSync s off) = bst_has_group_ready s.
Proof.
  intros s off H. unfold acquireSync. cbv zeta. destruct (bst_is_in_sync s); [auto|].
  destruct (negb _); [destruct (isSequenceFound _)|]; cbn; auto.
Qed.

Lemma find_bler : forall s, g_has_bler (bst_current_group s) = false -> bst_has_group_ready s = false ->
  let s' := findBlockInInputRegister s in
  g_has_bler (bst_current_group s') = false /\ (bst_has_group_ready s' = true -> g_has_bler (bst_ready_group s') = false).
Proof.
  intros s H Hr s'. subst s'. unfold findBlockInInputRegister. cbv zeta.
  set (off := getOffsetForSyndrome _). destruct (acquire_bler s off H) as (A1 & A2 & A3).
  set (s1 := acquireSync s off) in *. clearbody s1. rewrite Hr in A3.
  destruct (bst_is_in_sync s1); [|split; [exact A1|congruence]].
  set (s2 := if Offset_eqb (bst_expected_offset s1) OffC && Offset_eqb off OffCprime then bst_set_expected s1 OffCprime else s1).
  assert (B1 : g_has_bler (bst_current_group s2) = false) by (unfold s2; destruct (_ && _); exact A1).
  assert (B3 : bst_has_group_ready s2 = false) by (unfold s2; destruct (_ && _); exact A3).
  clearbody s2. destruct (_ <? _); [cbn; split; [exact B1|congruence]|].
  set (p := if negb (Offset_eqb off (bst_expected_offset s2)) && _ then _ else _).
  destruct p as [data off']. 
  set (s4 := if Offset_eqb off' (bst_expected_offset s2) then _ else _).
  assert (D1 : g_has_bler (bst_current_group s4) = false).
  { unfold s4. destruct (Offset_eqb off' _); [|exact B1]. cbn [bst_current_group bst_set_group]. rewrite setBlock_bler. exact B1. }
  assert (D3 : bst_has_group_ready s4 = false) by (unfold s4; destruct (Offset_eqb off' _); exact B3).
  clearbody s4. destruct (Offset_eqb (bst_expected_offset _) OffA); cbn; split; try reflexivity; try exact D1; try (intros _; exact D1); congruence.
Qed.

Lemma step_bler : forall s b, g_has_bler (bst_current_group s) = false -> bst_has_group_ready s = false ->
  g_has_bler (bst_current_group (fst (bst_step s b))) = false /\ bst_has_group_ready (fst (bst_step s b)) = false /\
  (forall g, snd (bst_step s b) = Some g -> g_has_bler g = false).
Proof.
  intros s b H Hr. unfold bst_step, pushBit. cbv zeta.
  set (s1 := mkBlockStream _ _ _ _ _ _ _ _ _ _ _ _).
  destruct (bst_num_bits_until_next_block s1 =? 0).
  - destruct (find_bler s1 H Hr) as [A B]. set (s2 := findBlockInInputRegister s1) in *.
    change (bst_has_group_ready (bst_set_until s2 (if bst_is_in_sync s2 then kBlockLength else 1))) with (bst_has_group_ready s2).
    destruct (bst_has_group_ready s2) eqn:E; cbn [fst snd].
    + split; [exact A|]. split; [reflexivity|]. intros g Hg. injection Hg as <-. exact (B eq_refl).
    + split; [exact A|]. split; [exact E|]. discriminate.
  - change (bst_has_group_ready s1) with (bst_has_group_ready s). rewrite Hr. cbn [fst snd].
    split; [exact H|]. split; [exact Hr|]. discriminate.
Qed.

Lemma age_good : forall n, n < 9007199254740992 -> exists z, bit_age_ms n = Ok z.
Proof.
  intros n H. unfold bit_age_ms.
  apply (trunc_moderate (-530) 860).
  apply (mul_moderate (-370) 510); [lia|lia| |].
  - apply div_moderate; [| |discriminate].
    + apply of_Z_moderate. change (2 ^ 53)%Z with 9007199254740992%Z. lia.
    + right. eexists _, _. split; [reflexivity|]. split; [reflexivity|]. lia.
  - apply of_Z_moderate. split; [lia|reflexivity].
Qed.

Lemma stream_get : forall c w, ch_ok c -> w < 4 ->
  exists s, arr_get (ch_block_stream c) w = Ok s /\ stream_ok s.
Proof.
  intros c w (_ & _ & L & F) H. destruct (arr_get_good _ (ch_block_stream c) w ltac:(lia)) as (s & E & N).
  exists s. split; [exact E|]. apply (proj1 (Forall_forall _ _) F). apply (nth_error_In _ _ N).
Qed.

Lemma list_set_length : forall (A : Type) (l : list A) i v, length (list_set l i v) = length l.
Proof. induction l as [|x l IH]; intros [|i] v; cbn; try reflexivity. rewrite IH. reflexivity. Qed.
Lemma list_set_forall : forall (A : Type) (P : A -> Prop) (l : list A) i v, Forall P l -> P v -> Forall P (list_set l i v).
Proof.
  induction l as [|x l IH]; intros i v F H; [destruct i; constructor|]. inversion F; subst.
  destruct i; cbn; constructor; auto.
Qed.

Lemma set_stream_ok : forall c w s, ch_ok c -> stream_ok s -> ch_ok (ch_set_stream c w s).
Proof.
  intros c w s (A & B & C & D) H. split; [exact A|]. split; [exact B|]. split.
  - cbn. rewrite list_set_length. exact C.
  - cbn. apply list_set_forall; assumption.
Qed.
Lemma set_time_ok : forall c t, ch_ok c -> ch_ok (ch_set_time c t).
Proof. intros c t H. exact H. Qed.
Lemma resetPI_ok : forall c, ch_ok c -> ch_ok (resetPI c).
Proof. intros c H. exact H. Qed.

Lemma processBit_good : forall env o now c b w, env_ok env -> ch_ok c -> w < 4 ->
  good (fun cl => ch_ok (fst cl)) (processBit env o now c b w).
Proof.
  intros env o now c b w E Hc Hw. unfold processBit.
  destruct (stream_get c w Hc Hw) as (s & -> & [S1 S2]). cbn [bind].
  destruct (step_bler s b S1 S2) as (A & B & D). destruct (bst_step s b) as [s' og]. cbn [fst snd] in *.
  assert (C1 : ch_ok (ch_set_stream c w s')) by (apply set_stream_ok; [exact Hc|split; assumption]).
  destruct og as [g|]; [|apply good_ok; exact C1].
  eapply good_imp; [apply process_good; [exact E|exact C1|apply D; reflexivity]|]. intros a Ha. apply Ha.
Qed.

Lemma run_bits_good : forall env o w bits c, env_ok env -> ch_ok c -> w < 4 ->
  good (fun cl => ch_ok (fst cl)) (run_bits env o c w bits).
Proof.
  intros env o w. induction bits as [|[now b] bits IH]; intros c E Hc Hw; [apply good_ok; exact Hc|].
  cbn [run_bits]. eapply good_bind; [apply processBit_good; assumption|]. intros [c1 l1] C1. cbn [fst] in C1.
  eapply good_bind; [apply IH; assumption|]. intros [c2 l2] C2. apply good_ok. exact C2.
Qed.

Lemma processBits_good : forall env o t now w bits c, env_ok env -> ch_ok c -> w < 4 ->
  N.of_nat (length bits) < 9007199254740992 ->
  good (fun cl => ch_ok (fst cl)) (processBits env o c t now bits w).
Proof.
  intros env o t now w. unfold processBits. induction bits as [|b bits IH]; intros c E Hc Hw L; [apply good_ok; exact Hc|].
  cbn [length] in L. cbn [processBits_loop]. destruct (stream_get c w Hc Hw) as (s & -> & [S1 S2]). cbn [bind].
  destruct (step_bler s b S1 S2) as (A & B & D). destruct (bst_step s b) as [s' og]. cbn [fst snd] in *.
  assert (C1 : ch_ok (ch_set_stream c w s')) by (apply set_stream_ok; [exact Hc|split; assumption]).
  apply (good_bind _ _ (fun cl => ch_ok (fst cl))).
  - destruct og as [g|]; [|apply good_ok; exact C1].
    destruct (age_good (N.of_nat (length bits)) ltac:(lia)) as (z & ->). cbn [bind].
    eapply good_bind; [apply process_good; [exact E|exact C1|exact (D g eq_refl)]|].
    intros [c2 l2] [C2 _]. apply good_ok. exact C2.
  - intros [c2 l2] C2. cbn [fst] in C2.
    eapply good_bind; [apply IH; try assumption; lia|]. intros [c3 l3] C3. apply good_ok. exact C3.
Qed.

Lemma flush_good : forall env o now c, env_ok env -> ch_ok c ->
  good (fun cl => ch_ok (fst cl)) (flush env o now c).
Proof.
  intros env o now c E. unfold flush.
  assert (G : forall l c, Forall (fun i => i < 4) l -> ch_ok c -> good (fun cl => ch_ok (fst cl)) (flush_loop env o now l c)).
  { induction l as [|i l IH]; intros c0 F Hc; [apply good_ok; exact Hc|]. inversion F; subst. cbn [flush_loop].
    destruct (stream_get c0 i Hc H1) as (s & -> & [S1 S2]). cbn [bind].
    apply (good_bind _ _ (fun cl => ch_ok (fst cl))).
    - destruct (g_isEmpty _); [apply good_ok; exact Hc|].
      eapply good_bind; [apply process_good; [exact E|exact Hc|exact S1]|].
      intros [c2 l2] [C2 _]. apply good_ok. exact C2.
    - intros [c2 l2] C2. cbn [fst] in C2.
      eapply good_bind; [apply IH; assumption|]. intros [c3 l3] C3. apply good_ok. exact C3. }
  apply G. repeat constructor.
Qed.
