(* Which groups produce only UTF-8 text, so that their own line is printed and not the error report. *)
From Verif.Proofs Require Import Tac Numerals FreqP Utf8P TextP Schema StationP.
From Verif.Model Require Import Util Float Group Options Tables Freq RdsString Rft Json Tmc Station.

Definition clean (j : json) : Prop := json_utf8 j = true.

(* What holds of every result *)
Definition keeps {A : Type} (P : A -> Prop) (r : res A) : Prop := forall a, r = Ok a -> P a.

Lemma keeps_ok : forall (A : Type) (P : A -> Prop) a, P a -> keeps P (Ok a).
Proof. intros A P a H b E. injection E as <-. exact H. Qed.
Lemma keeps_bind : forall (A B : Type) (P : A -> Prop) (Q : B -> Prop) m f,
  keeps P m -> (forall a, P a -> keeps Q (f a)) -> keeps Q (bind m f).
Proof. intros A B P Q m f H F b E. destruct m as [a| |]; try discriminate. exact (F a (H a eq_refl) b E). Qed.
Lemma keeps_true : forall (A : Type) (r : res A), keeps (fun _ => True) r.
Proof. intros A r a _. exact I. Qed.
Lemma keeps_imp : forall (A : Type) (P Q : A -> Prop) r, keeps P r -> (forall a, P a -> Q a) -> keeps Q r.
Proof. intros A P Q r H F a E. apply F, H, E. Qed.

Definition keys_txt (p : list string) : Prop := Forall (fun k => txt (bs k)) p.

Lemma clean_obj : forall m, clean (JObj m) <-> Forall (fun kv => txt (bs (fst kv)) /\ clean (snd kv)) m.
Proof.
  intros m. unfold clean. cbn [json_utf8]. rewrite forallb_forall, Forall_forall.
  split; intros H kv I; specialize (H kv I).
  - apply andb_prop in H. exact H.
  - apply andb_true_intro. exact H.
Qed.
Lemma clean_arr : forall l, clean (JArr l) <-> Forall clean l.
Proof. intros l. unfold clean. cbn [json_utf8]. rewrite forallb_forall, Forall_forall. tauto. Qed.

Lemma clean_find : forall k m v, Forall (fun kv => txt (bs (fst kv)) /\ clean (snd kv)) m -> obj_find k m = Some v -> clean v.
Proof.
  intros k m v F. induction F as [|[k' v'] m [_ H] F IH]; [discriminate|]. cbn [obj_find].
  destruct (String.eqb k k'); [intros E; injection E as <-; exact H|exact IH].
Qed.
Lemma clean_put : forall k v m, txt (bs k) -> clean v -> Forall (fun kv => txt (bs (fst kv)) /\ clean (snd kv)) m ->
  Forall (fun kv => txt (bs (fst kv)) /\ clean (snd kv)) (obj_put k v m).
Proof.
  intros k v m Hk Hv F. induction F as [|[k' v'] m [H1 H2] F IH]; cbn [obj_put].
  - repeat constructor; assumption.
  - cbn [fst snd] in *. destruct (String.eqb k k'); constructor; try assumption; split; assumption.
Qed.

Lemma jupd_clean : forall p f j, keys_txt p -> clean j -> (forall x, clean x -> keeps clean (f x)) -> keeps clean (jupd p f j).
Proof.
  induction p as [|k p IH]; intros f j K C F; [apply F; exact C|].
  inversion K; subst. cbn [jupd]. destruct j; try (intros a E; discriminate).
  - apply (keeps_bind _ _ clean); [apply IH; [assumption|reflexivity|exact F]|]. intros v Hv.
    apply keeps_ok. apply clean_obj. repeat constructor; assumption.
  - apply clean_obj in C. apply (keeps_bind _ _ clean).
    + apply IH; [assumption| |exact F]. destruct (obj_find k m) eqn:E; [apply (clean_find _ _ _ C E)|reflexivity].
    + intros v Hv. apply keeps_ok. apply clean_obj. apply clean_put; assumption.
Qed.

Lemma jset_clean : forall p v j, clean j -> keys_txt p -> clean v -> keeps clean (jset p v j).
Proof. intros p v j C K V. apply jupd_clean; try assumption. intros x _. apply keeps_ok. exact V. Qed.
Lemma jpush_clean : forall p v j, clean j -> keys_txt p -> clean v -> keeps clean (jpush p v j).
Proof.
  intros p v j C K V. apply jupd_clean; try assumption. intros x Hx.
  destruct x; try (intros a E; discriminate); apply keeps_ok; apply clean_arr.
  - repeat constructor. exact V.
  - apply Forall_app. split; [apply clean_arr; exact Hx|repeat constructor; exact V].
Qed.
Lemma jpush_all_clean : forall p l j, clean j -> keys_txt p -> Forall clean l -> keeps clean (jpush_all p l j).
Proof.
  intros p l. induction l as [|v l IH]; intros j C K F; [apply keeps_ok; exact C|]. inversion F; subst.
  cbn [jpush_all]. eapply keeps_bind; [apply jpush_clean; eassumption|]. intros j1 C1. apply IH; assumption.
Qed.
Lemma debug_clean : forall t j, clean j -> txt t -> keeps clean (debug t j).
Proof. intros t j C T. apply jpush_clean; [exact C|repeat constructor|exact T]. Qed.

Lemma map_JN_clean : forall l, Forall clean (map JN l).
Proof. intros l. apply Forall_forall. intros x H. apply in_map_iff in H. destruct H as (n & <- & _). reflexivity. Qed.
Lemma map_JStr_clean : forall l, Forall txt l -> Forall clean (map JStr l).
Proof. intros l F. induction F; constructor; assumption. Qed.
Lemma jnums_clean : forall l, clean (jnums l).
Proof. intros l. apply clean_arr, map_JN_clean. Qed.

#[global] Hint Resolve txt_app txt_nil txt_dec txt_decZ txt_hex txt_phex txt_hm txt_rtrim txt_language txt_app_name txt_content
  txt_pty txt_di txt_dab txt_dab_mode txt_group_type txt_callsign txt_chars txt_printHex txt_oda_raw txt_fmt txt_cf
  map_JN_clean jnums_clean : clean.
#[global] Hint Extern 1 (clean (JStr _)) => (change clean with (fun j => json_utf8 j = true); cbn beta; cbn [json_utf8]) : clean.
#[global] Hint Extern 1 (txt _) => reflexivity : clean.
#[global] Hint Extern 2 (txt (_ :: _)) => (apply txt_cons; [reflexivity|]) : clean.

Ltac cval := cbn [JN JS app]; first
  [ reflexivity
  | assumption
  | match goal with |- clean (JStr ?t) => change (txt t) | |- clean (JS ?t) => change (txt (bs t)) | _ => idtac end;
    solve [eauto with clean] ].
Ltac ckeys := solve [repeat constructor | repeat (constructor; [solve [reflexivity | auto with clean]|]); constructor].
Ltac cset :=
  first [ apply jset_clean; [assumption|ckeys|] | apply jpush_clean; [assumption|ckeys|]
        | apply jpush_all_clean; [assumption|ckeys|] | apply debug_clean; [assumption|] ]; try cval.
Ltac cstep :=
  match goal with
  | C : clean ?j |- keeps _ (bind (jset _ _ ?j) _) => apply (keeps_bind _ _ clean); [cset|clear C; intros ? C]
  | C : clean ?j |- keeps _ (bind (jpush _ _ ?j) _) => apply (keeps_bind _ _ clean); [cset|clear C; intros ? C]
  | C : clean ?j |- keeps _ (bind (jpush_all _ _ ?j) _) => apply (keeps_bind _ _ clean); [cset|clear C; intros ? C]
  | C : clean ?j |- keeps _ (bind (debug _ ?j) _) => apply (keeps_bind _ _ clean); [cset|clear C; intros ? C]
  | C : clean ?j |- keeps clean (jset _ _ ?j) => cset
  | C : clean ?j |- keeps clean (jpush _ _ ?j) => cset
  | C : clean ?j |- keeps clean (jpush_all _ _ ?j) => cset
  | C : clean ?j |- keeps clean (debug _ ?j) => cset
  | |- keeps clean (Ok _) => apply keeps_ok; assumption
  end.
Ltac kif := match goal with |- keeps _ (if ?c then _ else _) => destruct c end.
Ltac cbindj := match goal with C : clean ?j |- _ => apply (keeps_bind _ _ clean); [|clear C; intros ? C] end.

(* ---- the station's texts ---- *)
Definition eon_clean (l : list (N * RDSString)) : Prop := Forall (fun p => basic (snd p)) l.
Definition st_clean (st : Station) : Prop :=
  basic (st_ps st) /\ basic (rt_text (st_radiotext st)) /\ basic (pn_text (st_ptyname st)) /\
  basic (st_full_tdc st) /\ eon_clean (st_eon_ps_names st) /\ basic (t_ps (st_tmc st)).

Lemma station_new_clean : forall ch, st_clean (Station_new ch).
Proof. intros ch. repeat split; constructor. Qed.
Lemma station_new_pi_clean : forall ch pi, st_clean (Station_new_pi ch pi).
Proof. intros ch pi. repeat split; constructor. Qed.

Lemma eon_find : forall k l, eon_clean l -> basic (match find_code k l with Some p => p | None => RDSString_new 8 end).
Proof.
  intros k l F. induction F as [|[k' p] l H F IH]; cbn [find_code]; [apply basic_new|].
  destruct (k =? k'); assumption.
Qed.

(* The host's and the libraries' texts are UTF-8 *)
Definition env_txt (env : Env) : Prop :=
  txt (env_what_iconv env) /\ (forall f t s, env_strftime env f t = Some s -> txt s) /\
  tables_txt (env_tmc env).

Definition sc (sj : Station * json) : Prop := st_clean (fst sj) /\ clean (snd sj).

Lemma decodePIN_clean : forall pin p j, clean j -> keys_txt p -> keeps (fun bj => clean (snd bj)) (decodePIN pin p j).
Proof.
  intros pin p j C K. unfold decodePIN. cbv zeta. kif; [|apply keeps_ok; exact C].
  assert (Kp : forall q, keys_txt q -> keys_txt (p ++ q)) by (intros q Hq; apply Forall_app; split; assumption).
  apply (keeps_bind _ _ clean); [apply jset_clean; [exact C|apply Kp; ckeys|cval]|]. intros j1 C1.
  apply (keeps_bind _ _ clean); [apply jset_clean; [exact C1|apply Kp; ckeys|cval]|]. intros j2 C2.
  apply (keeps_bind _ _ clean); [apply jset_clean; [exact C2|apply Kp; ckeys|cval]|]. intros j3 C3.
  apply keeps_ok. exact C3.
Qed.

Lemma decodeBasics_clean : forall o g j, clean j -> keeps clean (decodeBasics o g j).
Proof.
  intros o g j C. unfold decodeBasics.
  assert (B : forall b (w : bool), keeps clean
    (j0 <- (if w then jset ["group"%string] (JStr (GroupType_str (g_type g))) j else Ok j) ;;
     j1 <- jset ["tp"%string] (JBool (getBool (g_get g b) 10)) j0 ;;
     jset ["prog_type"%string] (JStr (pty_string o (getBits 5 (g_get g b) 5))) j1)).
  { intros b w. cbindj; [destruct w; cstep|]. cstep. cstep. }
  kif; [cstep|]. cbv zeta. destruct (g_has g BLOCK2); [apply B|]. kif; [apply (B BLOCK4 true)|cstep].
Qed.

Lemma decodeAF_clean : forall o l b3 j, clean j -> keeps (fun lj => clean (snd lj)) (decodeAF o l b3 j).
Proof.
  intros o l b3 j C. unfold decodeAF. eapply keeps_bind; [apply keeps_true|]. intros l1 _.
  eapply keeps_bind; [apply keeps_true|]. intros l2 _. destruct (af_isComplete l2).
  - eapply keeps_bind; [apply keeps_true|]. intros raw _. eapply keeps_bind; [apply keeps_true|]. intros [|] _.
    + destruct raw as [|tuned rest]; [intros a E; discriminate|].
      eapply keeps_bind; [apply keeps_true|]. intros [afs regs] _. cbindj.
      * kif; repeat cstep.
      * apply keeps_ok. exact C.
    + cstep. apply keeps_ok. exact C.
  - kif; [|apply keeps_ok; exact C]. eapply keeps_bind; [apply keeps_true|]. intros raw _. cstep. apply keeps_ok. exact C.
Qed.

Lemma decodeType0_clean : forall env o st g j, env_txt env -> clean j -> st_clean st -> keeps sc (decodeType0 env o st g j).
Proof.
  intros env o st g j E C S. unfold decodeType0. cbv zeta.
  apply (keeps_bind _ _ clean); [apply jset_clean; [exact C|repeat constructor; apply txt_di|reflexivity]|].
  clear C. intros j1 C. cstep. cstep.
  destruct (negb (g_has g BLOCK3)).
  - eapply keeps_bind; [apply keeps_true|]. intros b _. apply keeps_ok. split; [|exact C]. destruct b; exact S.
  - apply (keeps_bind _ _ sc).
    + kif; [|apply keeps_ok; split; assumption].
      eapply keeps_bind; [apply decodeAF_clean; exact C|]. intros [l j2] C2. apply keeps_ok. split; [exact S|exact C2].
    + clear S C. intros [st2 j2] [S C]. cbn [fst snd] in *.
      kif; [apply keeps_ok; split; assumption|].
      set (ps := s_set2 _ _ _ _ _).
      assert (P : basic ps) by (apply basic_set2; apply S).
      assert (S2 : st_clean (set_ps st2 ps)) by (split; [exact P|apply S]). clearbody ps.
      kif.
      * apply (keeps_bind _ _ clean); [cset; apply P|]. intros j3 C3. apply keeps_ok. split; assumption.
      * kif; [|apply keeps_ok; split; assumption]. destruct (s_str _ ps) eqn:Es.
        -- pose proof (basic_str _ _ _ P Es). cstep. apply keeps_ok. split; assumption.
        -- apply (keeps_bind _ _ clean); [cset; apply E|]. intros j3 C3. apply keeps_ok. split; assumption.
Qed.

Lemma decodeType1_clean : forall st g j, clean j -> keeps clean (decodeType1 st g j).
Proof.
  intros st g j C. unfold decodeType1. cbv zeta. kif; [cstep|].
  cbindj.
  { kif; [cstep|]. eapply keeps_bind; [apply decodePIN_clean; [exact C|constructor]|].
    intros [ok j2] C2. cbn [snd] in C2. kif; [apply keeps_ok; exact C2|clear C; cstep]. }
  kif; [|cstep]. cstep. destruct (getBits 3 _ 12) as [|p].
  - kif; [cstep|]. apply (keeps_bind _ _ txt); [intros c; apply txt_country|]. intros c Tc. cstep.
  - do 3 (try (destruct p as [p|p|])); cstep.
Qed.

Lemma decodeType2_clean : forall env o st g j, env_txt env -> clean j -> st_clean st -> keeps sc (decodeType2 env o st g j).
Proof.
  intros env o st g j E C S. unfold decodeType2. cbv zeta. kif; [apply keeps_ok; split; assumption|].
  cbn [rt_isABChanged]. cbv beta iota zeta.
  cbindj. { kif; [cset; destruct (getBool _ _); reflexivity|cstep]. }
  set (rt0 := mkRadioText _ _ _ _).
  assert (B0 : basic (rt_text rt0)) by apply S. 
  assert (Sx : forall x, basic (rt_text x) -> st_clean (set_radiotext st x)).
  { intros x Hx. destruct S as (S1 & S2 & S3). repeat split; try apply S1; try apply Hx; apply S3. }
  assert (Cont : forall rt hm msg, basic (rt_text rt) -> (hm = true -> txt msg) ->
    keeps sc (
      (let rt := if negb (Bool.eqb (rt_ab (st_radiotext st)) (getBool (g_get g BLOCK2) 4)) then rt_set_text rt (s_clear (rt_text rt)) else rt in
       let rt := if Version_eqb (gt_version (g_type g)) VA
                then rt_update (env_ucs2 env) (rt_set_text rt (s_resize (rt_text rt) 64)) (getBits 4 (g_get g BLOCK2) 0 * (if Version_eqb (gt_version (g_type g)) VA then 4 else 2))
                       (getUint8 (g_get g BLOCK3) 8) (getUint8 (g_get g BLOCK3) 0)
                else rt_set_text rt (s_resize (rt_text rt) 32) in
      let rt := rt_update (env_ucs2 env) rt (getBits 4 (g_get g BLOCK2) 0 * (if Version_eqb (gt_version (g_type g)) VA then 4 else 2) + (if Version_eqb (gt_version (g_type g)) VA then 2 else 0)) (getUint8 (g_get g BLOCK4) 8) (getUint8 (g_get g BLOCK4) 0) in
      let st := set_radiotext st rt in
      if s_isComplete (rt_text rt) then
        j <- jset ["radiotext"%string] (JStr (rtrim (s_last_complete_string (rt_text rt)))) a ;; Ok (st, j)
      else if hm : bool then
        j <- jset ["radiotext"%string] (JStr (rtrim msg)) a ;; Ok (st, j)
      else if o_show_partial o then
        match s_str (env_ucs2 env) (rt_text rt) with
        | Some t => match rtrim t with
                    | [] => Ok (st, a)
                    | _ => j <- jset ["partial_radiotext"%string] (JStr t) a ;; Ok (st, j)
                    end
        | None => j <- debug (env_what_iconv env) a ;; Ok (st, j)
        end
      else Ok (st, a)))).
  { intros rt hm msg B T. cbv zeta.
    match goal with |- context [set_radiotext st ?x] => set (rt9 := x) end.
    assert (B9 : basic (rt_text rt9)).
    { subst rt9. cbn [rt_update rt_set_text rt_text]. apply basic_set2.
      destruct (Version_eqb _ _); cbn [rt_update rt_set_text rt_text]; [apply basic_set2|];
        apply basic_resize; destruct (negb _); try apply basic_clear; exact B. }
    clearbody rt9. specialize (Sx rt9 B9).
    kif. { apply (keeps_bind _ _ clean); [cset; apply txt_rtrim, B9|]. intros j3 C3. apply keeps_ok. split; assumption. }
    kif. { apply (keeps_bind _ _ clean); [cset; apply txt_rtrim, T; reflexivity|]. intros j3 C3. apply keeps_ok. split; assumption. }
    kif; [|apply keeps_ok; split; assumption].
    destruct (s_str _ (rt_text rt9)) eqn:Es.
    - pose proof (basic_str _ _ _ B9 Es). destruct (rtrim _); [apply keeps_ok; split; assumption|].
      cstep. apply keeps_ok. split; assumption.
    - apply (keeps_bind _ _ clean); [cset; apply E|]. intros j3 C3. apply keeps_ok. split; assumption. }
  kif.
  - destruct (s_str _ (rt_text rt0)) eqn:Es.
    + apply Cont; [exact B0|]. intros _. apply txt_rtrim. apply (basic_str _ _ _ B0 Es).
    + apply (keeps_bind _ _ clean); [cset; apply E|]. intros j3 C3. apply keeps_ok. split; [apply Sx; exact B0|exact C3].
  - apply (Cont rt0 false []); [exact B0|discriminate].
Qed.

Lemma st_clean_rt : forall st rt, st_clean st -> basic (rt_text rt) -> st_clean (set_radiotext st rt).
Proof. intros st rt (S1 & S2 & S3) B. repeat split; try apply S1; try apply B; apply S3. Qed.
Lemma st_clean_tmc : forall st t, st_clean st -> basic (t_ps t) -> st_clean (set_tmc st t).
Proof. intros st t (S1 & S2 & S3 & S4 & S5 & S6) B. repeat split; try apply B; try apply S1; try apply S2; try apply S3; try apply S4; apply S5. Qed.

Definition tc (tj : TMCService * json) : Prop := basic (t_ps (fst tj)) /\ clean (snd tj).

Lemma scope_clean : forall m, Forall clean (map JStr (getScopeStrings m)).
Proof. intros m. apply map_JStr_clean, txt_scope. Qed.
#[local] Hint Resolve scope_clean : clean.

Lemma receiveSystemGroup_clean : forall t m j, clean j -> basic (t_ps t) -> keeps tc (receiveSystemGroup t m j).
Proof.
  intros t m j C B. unfold receiveSystemGroup, sysinfo. cbv zeta. kif.
  { cstep. cbindj; [kif; cstep|]. cstep. cstep. apply keeps_ok. split; assumption. }
  kif. { cstep. cstep. cbindj; [kif; cstep|]. apply keeps_ok. split; assumption. }
  kif; [|apply keeps_ok; split; assumption].
  kif; [|apply keeps_ok; split; assumption]. cstep.
  kif; [|apply keeps_ok; split; assumption].
  apply (keeps_bind _ _ txt); [intros c; apply txt_country|]. intros c Tc. cstep. apply keeps_ok. split; assumption.
Qed.

Lemma decodeType3A_clean : forall st g j, clean j -> st_clean st -> keeps sc (decodeType3A st g j).
Proof.
  intros st g j C S. unfold decodeType3A. cbv zeta. kif; [apply keeps_ok; split; assumption|].
  kif; [apply keeps_ok; split; assumption|]. cstep. cstep.
  kif; [apply keeps_ok; split; assumption|].
  kif; [apply keeps_ok; split; [apply st_clean_rt; [exact S|apply S]|assumption]|].
  kif; [apply keeps_ok; split; assumption|].
  kif; [apply keeps_ok; split; assumption|].
  kif. { eapply keeps_bind; [apply receiveSystemGroup_clean; [exact C|apply S]|]. intros [t j1] [B C1].
         apply keeps_ok. split; [apply st_clean_tmc; assumption|exact C1]. }
  cstep. cstep. apply keeps_ok; split; assumption.
Qed.

Lemma decodeType4A_clean : forall env g j, clean j -> keeps clean (decodeType4A env g j).
Proof.
  intros env g j C. unfold decodeType4A. cbv zeta. kif; [cstep|]. kif; [cstep|].
  eapply keeps_bind; [apply keeps_true|]. intros [[y m] d] _. kif; [|cstep].
  cset. kif || idtac.
  assert (D : forall tm, txt (fmt_0d 4 (tm_year tm + 1900) ++ [45] ++ fmt_0d 2 (tm_mon tm + 1)
                    ++ [45] ++ fmt_0d 2 (tm_mday tm) ++ [84] ++ fmt_0d 2 (tm_hour tm)
                    ++ [58] ++ fmt_0d 2 (tm_min tm) ++ bs ":00")).
  { intros tm. repeat first [apply txt_fmt | apply txt_app | reflexivity]. }
  match goal with |- clean (JStr ?t) => change (txt t) end.
  destruct (_ && _)%bool; [apply txt_app; [apply D|reflexivity]|]. apply txt_app; [apply D|].
  apply txt_app; [destruct (0 <? _)%Z; reflexivity|]. repeat first [apply txt_fmt | apply txt_app | reflexivity].
Qed.

Lemma txt_join_hex : forall l, txt (join (map (getHexString 2) l) [32]).
Proof. intros l. apply txt_join; [reflexivity|]. apply Forall_forall. intros x H. apply in_map_iff in H. destruct H as (n & <- & _). apply txt_hex. Qed.
#[local] Hint Resolve txt_join_hex : clean.

Lemma decodeType5_clean : forall env st g j, clean j -> st_clean st -> keeps sc (decodeType5 env st g j).
Proof.
  intros env st g j C S. unfold decodeType5, tdata. cbv zeta. cstep. kif.
  - cstep. set (full := s_set2 _ (s_set2 _ (st_full_tdc st) _ _ _) _ _ _).
    assert (P : basic full) by (apply basic_set2, basic_set2; apply S). clearbody full.
    cbindj. { kif; [|cstep]. apply (keeps_bind _ _ txt); [intros t; apply basic_str_basic; exact P|]. intros t T. cstep. cstep. }
    apply (keeps_bind _ _ txt); [intros t; apply basic_str_basic; apply basic_set2, basic_set2, basic_new|]. intros t T. cstep.
    apply keeps_ok. split; [|exact C]. destruct S as (S1 & S2 & S3 & S4 & S5). repeat split; try apply P; try apply S1; try apply S2; try apply S3; apply S5.
  - cstep. apply (keeps_bind _ _ txt); [intros t; apply basic_str_basic; apply basic_set2, basic_new|]. intros t T. cstep.
    apply keeps_ok. split; assumption.
Qed.

Lemma decodeType6_clean : forall g j, clean j -> keeps clean (decodeType6 g j).
Proof. intros g j C. unfold decodeType6. cbv zeta. cstep. kif; [kif; [cstep; kif; cstep|cstep]|kif; cstep]. Qed.

Lemma decodeType10A_clean : forall env st g j, clean j -> st_clean st -> keeps sc (decodeType10A env st g j).
Proof.
  intros env st g j C S. unfold decodeType10A. cbv zeta. kif; [apply keeps_ok; split; assumption|].
  set (t := pn_update _ _ _ _ _ _ _).
  assert (P : basic t).
  { unfold t, pn_update. do 2 apply basic_set2. destruct (Bool.eqb _ _); [apply S|apply basic_clear, S]. }
  clearbody t.
  assert (S2 : forall b, st_clean (set_ptyname st (mkPTYName t b))).
  { intros b. destruct S as (S1 & S2 & S3 & S4 & S5 & S6). repeat split; try apply P; try apply S1; try apply S2; try apply S4; try apply S5; apply S6. }
  kif; [|apply keeps_ok; split; [apply S2|exact C]].
  apply (keeps_bind _ _ clean); [cset; apply P|]. intros j1 C1. apply keeps_ok. split; [apply S2|exact C1].
Qed.

Lemma decodeType14_clean : forall env o st g j, clean j -> st_clean st -> keeps sc (decodeType14 env o st g j).
Proof.
  intros env o st g j C S. unfold decodeType14, on. cbv zeta. kif; [apply keeps_ok; split; assumption|].
  cstep. cstep. kif; [cstep; apply keeps_ok; split; assumption|]. kif; [apply keeps_ok; split; assumption|].
  kif.
  { set (ps := s_set _ (s_set _ _ _ _) _ _).
    assert (P : basic ps) by (do 2 apply basic_set; apply eon_find; apply S). clearbody ps.
    assert (S2 : forall k, st_clean (set_eon_ps st ((k, ps) :: st_eon_ps_names st))).
    { intros k. destruct S as (S1 & S2 & S3 & S4 & S5 & S6). repeat split; try apply S1; try apply S2; try apply S3; try apply S4; try apply S6.
      constructor; [exact P|exact S5]. }
    kif; [|apply keeps_ok; split; [apply S2|exact C]].
    apply (keeps_bind _ _ clean); [cset; apply P|]. intros j1 C1. apply keeps_ok. split; [apply S2|exact C1]. }
  kif.
  { eapply keeps_bind; [apply keeps_true|]. intros l1 _. eapply keeps_bind; [apply keeps_true|]. intros l2 _.
    kif; [|apply keeps_ok; split; assumption]. eapply keeps_bind; [apply keeps_true|]. intros raw _. cstep.
    apply keeps_ok. split; assumption. }
  kif. { kif; [cstep|]; apply keeps_ok; split; assumption. }
  kif. { cstep. kif; [cstep|]; apply keeps_ok; split; assumption. }
  kif. { cstep. cstep. apply keeps_ok; split; assumption. }
  kif. { kif; [apply keeps_ok; split; assumption|].
         eapply keeps_bind; [apply decodePIN_clean; [exact C|ckeys]|]. intros [ok j2] C2. apply keeps_ok. split; assumption. }
  kif; cstep; apply keeps_ok; split; assumption.
Qed.

Lemma decodeType15A_st : forall env o st g j, st_clean st -> keeps (fun sj => st_clean (fst sj)) (decodeType15A env o st g j).
Proof.
  intros env o st g j S. unfold decodeType15A. cbv zeta.
  assert (S2 : forall x, st_clean (set_long_ps st x)) by (intros x; exact S).
  kif; [|kif; [destruct (s_str _ _)|]]; try (eapply keeps_bind; [apply keeps_true|]; intros ? _); apply keeps_ok; apply S2.
Qed.

Lemma decodeType15B_clean : forall g j, clean j -> keeps clean (decodeType15B g j).
Proof.
  intros g j C. unfold decodeType15B. cbv zeta.
  apply (keeps_bind _ _ clean); [apply jset_clean; [exact C|repeat constructor; apply txt_di|reflexivity]|].
  clear C. intros j1 C. cstep. cstep.
Qed.

Lemma parseDAB_clean : forall g j, clean j -> keeps clean (parseDAB g j).
Proof.
  intros g j C. unfold parseDAB. cbv zeta. kif; [cstep|]. cstep. cstep. cbindj.
  { destruct (find_code _ dab_channels) eqn:E; [|cstep]. pose proof (txt_dab _ _ E). cset. }
  cstep.
Qed.

Lemma m_json_clean : forall d m, tables_txt d -> clean (m_json d m).
Proof.
  intros d m T. unfold m_json. destruct (_ || _); [reflexivity|]. cbv zeta. apply clean_obj.
  pose proof (txt_event_sentences d (m_quantifiers m) T (m_events m) 0) as F1.
  pose proof (txt_suppl_sentences d T (m_supplementary m)) as F2.
  pose proof (proj2 (Forall_app _ _ _) (conj F1 F2)) as F. clear F1 F2.
  set (sen := event_sentences _ _ _ _ ++ _) in *. clearbody sen.
  assert (H : forall k t, txt (bs k) -> txt t -> Forall (fun kv => txt (bs (fst kv)) /\ clean (snd kv)) [(k, JStr t)]).
  { intros k t K V. repeat constructor; assumption. }
  assert (Hn : forall k l, txt (bs k) -> Forall (fun kv => txt (bs (fst kv)) /\ clean (snd kv)) [(k, jnums l)]).
  { intros k l K. constructor; [split; [exact K|apply jnums_clean]|constructor]. }
  assert (H1 : forall k (n : N), txt (bs k) -> Forall (fun kv => txt (bs (fst kv)) /\ clean (snd kv)) [(k, JN n)]).
  { intros k n K. repeat constructor; assumption. }
  repeat (apply Forall_app; split);
    repeat match goal with |- Forall _ (match ?x with _ => _ end) => destruct x eqn:? end;
    try apply Forall_nil; try (apply Hn; reflexivity); try (apply H1; reflexivity); try (apply H; [reflexivity|]).
  - apply txt_app; [|reflexivity]. apply txt_join; [reflexivity|exact F].
  - apply txt_app; [apply txt_dec|reflexivity].
  - constructor; [split; [reflexivity|destruct (m_directionality m); reflexivity]|]. apply H; [reflexivity|].
    apply txt_app; [destruct (m_direction m); reflexivity|apply txt_dec].
  - apply txt_time.
  - apply txt_time.
  - destruct (m_urgency m); reflexivity.
Qed.

Lemma walk_points : forall db s n lcd, Forall (fun p => exists c, db_points db c = Some p) (walk db s n lcd).
Proof.
  intros db s. induction n as [|n IH]; intros lcd; [constructor|]. cbn [walk].
  destruct (db_points db lcd) eqn:E; [|constructor]. constructor; [exists lcd; exact E|apply IH].
Qed.

Lemma decodeLocation_clean : forall d l has lcd neg ext j, tables_txt d -> clean j ->
  keeps clean (decodeLocation (td_locdb d l) l has lcd neg ext j).
Proof.
  intros d l has lcd neg ext j (_ & _ & TP & TR) C. unfold decodeLocation. kif; [cstep|]. cbv zeta.
  destruct (db_points _ lcd) as [pt|] eqn:Ep; [|cstep].
  set (pts := walk _ _ _ _). assert (W := walk_points (td_locdb d l) (negb neg || (ext =? 0)) (Datatypes.S (N.to_nat ext)) lcd). fold pts in W. clearbody pts.
  assert (N1 : forall p, In p pts -> txt (pt_name1 p)).
  { intros p I. rewrite Forall_forall in W. destruct (W p I) as (c & E). apply (TP _ _ _ E). }
  apply (keeps_bind _ _ clean).
  { cset. apply clean_arr. apply Forall_forall. intros x I. apply in_map_iff in I. destruct I as (p & <- & _). reflexivity. }
  clear C. intros j1 C. cbindj.
  { destruct pts as [|p0 [|p1 r]]; try cstep.
    assert (L : In (List.last (p1 :: r) p0) (p0 :: p1 :: r)).
    { right. destruct (exists_last (l := p1 :: r) ltac:(discriminate)) as (r' & q & E). rewrite E, last_last. apply in_or_app. right. left. reflexivity. }
    pose proof (N1 _ L) as T2. pose proof (N1 p0 (or_introl eq_refl)) as T1.
    destruct (pt_name1 p0); [cstep|]. destruct (pt_name1 (List.last _ _)); [cstep|]. cstep. cstep. }
  destruct (db_roads _ _) as [road|] eqn:Er; [|cstep]. destruct (TR _ _ _ Er) as [R1 R2]. destruct (TP _ _ _ Ep) as [_ P2].
  cbindj. { destruct (road_number road); cstep. }
  destruct (road_name road); [|cstep]. destruct (pt_road_name pt); cstep.
Qed.

Lemma finish_message_clean : forall d s m j, tables_txt d -> clean j -> keeps clean (finish_message d s m j).
Proof.
  intros d s m j T C. unfold finish_message. eapply keeps_bind; [apply keeps_true|]. intros m1 _. kif; [cstep|].
  apply (keeps_bind _ _ clean); [cset; apply m_json_clean; exact T|]. intros j1 C1. apply decodeLocation_clean; assumption.
Qed.

Lemma receiveTuningInfo_clean : forall u s x y z j, clean j -> basic (t_ps s) -> keeps tc (receiveTuningInfo u s x y z j).
Proof.
  intros u s x y z j C B. unfold receiveTuningInfo, othernet. cbv zeta. kif.
  { set (ps := s_set _ (s_set _ _ _ _) _ _). assert (P : basic ps) by (do 4 apply basic_set; exact B). clearbody ps.
    cbindj; [kif; [cset; apply P|cstep]|]. apply keeps_ok. split; assumption. }
  kif. { eapply keeps_bind; [apply keeps_true|]. intros l1 _. eapply keeps_bind; [apply keeps_true|]. intros l2 _. cstep.
         eapply keeps_bind; [apply keeps_true|]. intros raw _. cstep. apply keeps_ok. split; assumption. }
  kif. { kif; [cstep|cstep; cstep]; apply keeps_ok; split; assumption. }
  kif. { do 4 cstep. apply keeps_ok; split; assumption. }
  cstep. apply keeps_ok; split; assumption.
Qed.

Lemma receiveTMC_clean : forall env st g j, env_txt env -> clean j -> st_clean st -> keeps sc (receiveTMC env st g j).
Proof.
  intros env st g j (_ & _ & T) C S. unfold receiveTMC. kif; [|apply keeps_ok; split; assumption].
  apply (keeps_bind _ _ tc); [|intros [t j1] [B C1]; apply keeps_ok; split; [apply st_clean_tmc; assumption|exact C1]].
  assert (B : basic (t_ps (st_tmc st))) by apply S. unfold receiveUserGroup, sysinfo. cbv zeta.
  kif; [apply keeps_ok; split; assumption|].
  kif; [do 3 cstep; apply keeps_ok; split; assumption|].
  kif; [apply receiveTuningInfo_clean; assumption|].
  kif; [apply keeps_ok; split; assumption|].
  kif. { cbindj; [apply finish_message_clean; assumption|]. apply keeps_ok; split; assumption. }
  kif; [|apply keeps_ok; split; assumption].
  cbindj; [apply finish_message_clean; assumption|]. apply keeps_ok; split; assumption.
Qed.

(* ---- file transfer ---- *)
Lemma b64_small : forall v, b64_char v < 128.
Proof.
  intros v. unfold b64_char. generalize (N.to_nat (N.land v 63)). intros n.
  assert (F : Forall (fun c => c < 128) base64_table).
  { apply Forall_forall. intros c I. apply N.ltb_lt. revert c I. apply forallb_forall. reflexivity. }
  destruct (Nat.lt_ge_cases n (length base64_table)) as [H|H].
  - rewrite Forall_forall in F. apply F. apply nth_In. exact H.
  - rewrite nth_overflow by exact H. lia.
Qed.
Lemma txt_base64 : forall data, txt (asBase64 data).
Proof.
  assert (H : forall n data, (length data <= n)%nat -> txt (asBase64 data)).
  { induction n as [|n IH]; intros data L.
    - destruct data; [reflexivity|cbn [length] in L; lia].
    - destruct data as [|a [|b [|c r]]]; [reflexivity| | |]; cbn [asBase64];
        repeat (apply txt_cons; [first [apply b64_small|lia]|]); try reflexivity.
      apply IH. cbn [length] in L. lia. }
  intros data. apply (H (length data)). lia.
Qed.

Lemma decodeC_clean : forall st g j, clean j -> st_clean st -> keeps sc (decodeC st g j).
Proof.
  intros st g j C S. unfold decodeC, oda. cbv zeta. kif; [apply keeps_ok; split; assumption|].
  kif; [cstep; apply keeps_ok; split; assumption|].
  kif.
  { unfold decodeC_rft, oda, rftd. cbv zeta. cbindj; [destruct (find_code _ _); cstep|]. do 3 cstep.
    eapply keeps_bind; [apply keeps_true|]. intros f _. cstep.
    apply (keeps_bind _ _ (fun fj => clean (snd fj))).
    - kif; [|apply keeps_ok; exact C]. unfold rft_getBase64Data. cbv beta iota zeta.
      apply (keeps_bind _ _ clean); [cset; apply txt_base64|]. intros j1 C1. apply keeps_ok. exact C1.
    - intros [f2 j2] C2. cbn [snd] in C2. eapply keeps_bind; [apply keeps_true|]. intros fs _. apply keeps_ok. split; [exact S|exact C2]. }
  kif; [cstep; cstep; apply keeps_ok; split; assumption|].
  kif.
  { kif; [|cstep; apply keeps_ok; split; assumption].
    unfold decodeC_assign, oda, rfti, rftc. cbv zeta. do 3 cstep.
    kif; [|cstep; apply keeps_ok; split; assumption].
    kif. { eapply keeps_bind; [apply keeps_true|]. intros f _. eapply keeps_bind; [apply keeps_true|]. intros fs _.
           do 4 cstep. apply keeps_ok. split; assumption. }
    kif. { eapply keeps_bind; [apply keeps_true|]. intros f _. eapply keeps_bind; [apply keeps_true|]. intros f2 _.
           eapply keeps_bind; [apply keeps_true|]. intros fs _.
           kif; [cstep; apply keeps_ok; split; assumption|]. kif; [do 3 cstep; apply keeps_ok; split; assumption|].
           cstep. apply keeps_ok. split; assumption. }
    kif; cstep; apply keeps_ok; split; assumption. }
  cstep. cstep. apply keeps_ok. split; assumption.
Qed.

(* ---- open data applications ---- *)
Definition raw_app (a : N) : bool := (a =? 0x4BD7) || (a =? 0x4BD8) || (a =? 0x6552).

Lemma rtp_text : forall g rt p j, basic (rt_text rt) -> keeps (fun rj => basic (rt_text (fst rj))) (parseRadioTextPlus g rt p j).
Proof.
  intros g rt p j B. unfold parseRadioTextPlus. cbv zeta. do 4 (eapply keeps_bind; [apply keeps_true|]; intros ? _).
  apply keeps_ok. cbn [fst]. destruct (_ || _); [apply basic_clear|]; exact B.
Qed.

Lemma decodeODA_st : forall env st g j, env_txt env -> clean j -> st_clean st ->
  keeps (fun sj => st_clean (fst sj)) (decodeODAGroup env st g j).
Proof.
  intros env st g j E C S. unfold decodeODAGroup. cbv zeta.
  destruct (find_type _ _) as [a|]; [|eapply keeps_bind; [apply keeps_true|]; intros ? _; apply keeps_ok; exact S].
  kif; [eapply keeps_bind; [apply keeps_true|]; intros ? _; apply keeps_ok; exact S|].
  kif. { eapply keeps_bind; [apply rtp_text; apply S|]. intros [rt j1] B. apply keeps_ok. apply st_clean_rt; assumption. }
  kif. { eapply keeps_bind; [apply keeps_true|]. intros [rt j1] _. apply keeps_ok. exact S. }
  kif. { unfold parseEnhancedRT. cbv zeta. kif; [eapply keeps_bind; [apply keeps_true|]; intros ? _|]; apply keeps_ok; exact S. }
  kif. { eapply keeps_imp; [apply receiveTMC_clean; assumption|]. intros sj [H _]. exact H. }
  do 3 (eapply keeps_bind; [apply keeps_true|]; intros ? _). apply keeps_ok. exact S.
Qed.

Lemma decodeODA_clean : forall env st g j, env_txt env -> clean j -> st_clean st ->
  (forall a, find_type (g_type g) (st_oda_app_for_group st) = Some a -> raw_app a = false) ->
  keeps sc (decodeODAGroup env st g j).
Proof.
  intros env st g j E C S R. unfold decodeODAGroup. cbv zeta.
  destruct (find_type _ _) as [a|]; [|cstep; apply keeps_ok; split; assumption]. specialize (R a eq_refl). unfold raw_app in R.
  kif; [cbindj; [apply parseDAB_clean; exact C|]; apply keeps_ok; split; assumption|].
  destruct (a =? 0x4BD7); [discriminate|]. destruct (a =? 0x4BD8); [discriminate|]. destruct (a =? 0x6552); [discriminate|].
  kif; [apply receiveTMC_clean; assumption|].
  do 3 cstep. apply keeps_ok; split; assumption.
Qed.

(* Groups whose text is copied from the transmission without being checked *)
Definition raw_group (st : Station) (g : Group) : bool :=
  let n := gt_number (g_type g) in
  let v := gt_version (g_type g) in
  match find_type (g_type g) (st_oda_app_for_group st) with
  | Some a => raw_app a && negb (Version_eqb v VC) && negb ((n =? 0) || (n =? 1) || (n =? 2) || (n =? 14))
              && negb (Version_eqb v VA && ((n =? 3) || (n =? 4) || (n =? 10)))
              && negb (Version_eqb v VB && (n =? 15))
  | None => Version_eqb v VA && (n =? 15)
  end.

Lemma decodeByType_st : forall env o st g j, env_txt env -> clean j -> st_clean st ->
  keeps (fun sj => st_clean (fst sj)) (decodeByType env o st g j).
Proof.
  intros env o st g j E C S. unfold decodeByType. cbv zeta.
  assert (Keep : forall r : res json, keeps (fun sj => st_clean (fst sj)) (j0 <- r ;; Ok (st, j0))).
  { intros r. eapply keeps_bind; [apply keeps_true|]. intros ? _. apply keeps_ok. exact S. }
  assert (F : forall r, keeps sc r -> keeps (fun sj => st_clean (fst sj)) r).
  { intros r H. eapply keeps_imp; [exact H|]. intros sj [P _]. exact P. }
  kif; [apply F, decodeC_clean; assumption|]. kif; [apply F, decodeType0_clean; assumption|]. kif; [apply Keep|].
  kif; [apply F, decodeType2_clean; assumption|]. kif; [apply F, decodeType3A_clean; assumption|]. kif; [apply Keep|].
  kif; [apply F, decodeType10A_clean; assumption|]. kif; [apply F, decodeType14_clean; assumption|]. kif; [apply Keep|].
  destruct (find_type _ _); [apply decodeODA_st; assumption|].
  kif; [apply F, decodeType5_clean; assumption|]. kif; [apply Keep|]. kif; [apply Keep|].
  kif; [apply F, receiveTMC_clean; assumption|]. kif; [apply Keep|]. kif; [apply decodeType15A_st; assumption|].
  apply decodeODA_st; assumption.
Qed.

Lemma decodeByType_clean : forall env o st g j, env_txt env -> clean j -> st_clean st -> raw_group st g = false ->
  keeps sc (decodeByType env o st g j).
Proof.
  intros env o st g j E C S R. unfold decodeByType. cbv zeta.
  assert (Keep : forall r, keeps clean r -> keeps sc (j0 <- r ;; Ok (st, j0))).
  { intros r H. eapply keeps_bind; [exact H|]. intros j1 C1. apply keeps_ok. split; assumption. }
  unfold raw_group in R. cbv zeta in R.
  destruct (Version_eqb (gt_version (g_type g)) VC) eqn:Ec; [apply decodeC_clean; assumption|].
  destruct (gt_number (g_type g) =? 0); [apply decodeType0_clean; assumption|].
  destruct (gt_number (g_type g) =? 1); [apply Keep, decodeType1_clean; assumption|].
  destruct (gt_number (g_type g) =? 2); [apply decodeType2_clean; assumption|].
  destruct (gt_number (g_type g) =? 3), (Version_eqb (gt_version (g_type g)) VA) eqn:Ea; cbn [andb]; try (apply decodeType3A_clean; assumption);
  (destruct (gt_number (g_type g) =? 4); cbn [andb]; try (apply Keep, decodeType4A_clean; assumption));
  (destruct (gt_number (g_type g) =? 10); cbn [andb]; try (apply decodeType10A_clean; assumption));
  (destruct (gt_number (g_type g) =? 14); [apply decodeType14_clean; assumption|]);
  (destruct (gt_number (g_type g) =? 15) eqn:E15, (Version_eqb (gt_version (g_type g)) VB) eqn:Eb; cbn [andb]; try (apply Keep, decodeType15B_clean; assumption));
  (destruct (find_type (g_type g) (st_oda_app_for_group st)) as [a|] eqn:Ef;
   [apply decodeODA_clean; try assumption; intros a' Ea'; rewrite Ef in Ea'; injection Ea' as <-;
    cbn [andb orb negb] in R; rewrite ?andb_true_r in R; exact R|]);
  cbn [andb] in R; try discriminate;
  (kif; [apply decodeType5_clean; assumption|]); (kif; [apply Keep, decodeType6_clean; assumption|]);
  (kif; [apply Keep; cstep|]); (kif; [apply receiveTMC_clean; assumption|]); (kif; [apply Keep; cstep|]);
  cbn [andb]; apply decodeODA_clean; try assumption; intros a' Ea'; rewrite Ef in Ea'; discriminate.
Qed.
