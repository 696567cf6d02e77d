(* The long programme service name. *)
From Verif.Model Require Import Util Group Options Tables Json RdsString Tmc Station Channel.
From Verif.Spec Require Import Unicode JsonText Session Identity History Quality Texts.
From Verif.Proofs Require Import Tac Numerals JsonP Utf8P Schema StationP TextP CleanP UpdateP SessionP LineP FrameP ChannelP LinesP HistoryP ShowP TraceP KeysP StringP PsP RtP EndP.

Local Open Scope string_scope.
Local Open Scope N_scope.
Local Open Scope list_scope.

#[local] Strategy 1000 [set_all s_set s_isComplete s_str s_last_complete_string header].

Definition t15A : GroupType := mkGroupType 15 VA.
Definition lps_is (g : Group) : bool :=
  g_has_type g && (gt_number (g_type g) =? 15) && Version_eqb (gt_version (g_type g)) VA.
Lemma lps_type : forall g, lps_is g = true -> g_type g = t15A.
Proof.
  intros g H. unfold lps_is in H. apply andb_prop in H. destruct H as [H Hv]. apply andb_prop in H. destruct H as [_ Hn]. apply N.eqb_eq in Hn.
  destruct (g_type g) as [n []]; try discriminate Hv. cbn [gt_number] in Hn. subst. reflexivity.
Qed.
Lemma eqb_type : forall t, GroupType_eqb t t = true.
Proof. intros [n []]; unfold GroupType_eqb; cbn [gt_number gt_version Version_eqb]; rewrite N.eqb_refl; reflexivity. Qed.
Lemma find_none : forall t l, find_type t l = None -> forall a, ~ In (t, a) l.
Proof.
  intros t l. induction l as [|[t' v] l IH]; intros H a; [intros []|]. cbn [find_type] in H. destruct (GroupType_eqb t t') eqn:E; [discriminate|].
  intros [X|X]; [|exact (IH H a X)]. injection X as -> ->. rewrite eqb_type in E. discriminate.
Qed.
Lemma not_announced_none : forall t h st, oda_inv h st -> (not_announced t h <-> find_type t (st_oda_app_for_group st) = None).
Proof.
  intros t h st I. unfold oda_inv in I. rewrite I. split.
  - intros N0. destruct (find_type t _) as [a|] eqn:E; [|reflexivity]. exfalso. apply (N0 a). exact (find_rev _ _ _ E).
  - intros E a X. apply (find_none _ _ E a). apply in_rev in X. exact X.
Qed.
Lemma not_announced_app : forall t a b, not_announced t (a ++ b) <-> not_announced t a /\ not_announced t b.
Proof.
  intros t a b. unfold not_announced. rewrite flat_map_app. split.
  - intros H. split; intros x X; apply (H x), in_or_app; auto.
  - intros [H1 H2] x X. apply in_app_or in X. destruct X; [apply (H1 x)|apply (H2 x)]; assumption.
Qed.

Definition lps_writes (h : list (Group * N)) : Texts.writes := flat_map long_segment h.
Definition lps_seg (g : Group) : Texts.writes :=
  let n := getBits 3 (g_get g BLOCK2) 0 * 4 in
  (if g_has g BLOCK3 then [(n, getUint8 (g_get g BLOCK3) 8); (n + 1, getUint8 (g_get g BLOCK3) 0)] else []) ++
  (if g_has g BLOCK4 then [(n + 2, getUint8 (g_get g BLOCK4) 8); (n + 3, getUint8 (g_get g BLOCK4) 0)] else []).
Lemma lps_prepared : forall o now c g w, received_group (now, g, w) -> let g' := prepared o now c g w in
  long_segment (g, w) = if lps_is g' then lps_seg g' else [].
Proof.
  intros o now c g w (_ & R1 & R2 & R3 & R4) g'. unfold long_segment, lps_is, lps_seg, g_has, g'.
  rewrite !prepared_type, !prepared_has_type, !prepared_get, !prepared_block. destruct (w =? 0) eqn:Ew; cbn [andb].
  2: { cbn [gt_number gt_version Version_eqb N.eqb]. rewrite ?andb_false_r. reflexivity. }
  destruct (g_has_type g && (gt_number (g_type g) =? 15) && Version_eqb (gt_version (g_type g)) VA); [|reflexivity].
  unfold g_get. cbn [g_block].
  destruct (hi_bits _ R4) as [-> _]. destruct (lo_bits (blk_data (g_b4 g))) as [-> _]. destruct (hi_bits _ R3) as [-> _]. destruct (lo_bits (blk_data (g_b3 g))) as [-> _].
  rewrite getBits_arith. change (2 ^ 0) with 1. change (2 ^ 3) with 8. rewrite N.div_1_r, (N.mul_comm _ 4). reflexivity.
Qed.
Lemma lps_ok : forall h, Forall (fun x => received_group (0%Z, fst x, snd x)) h -> Forall (fun pb => fst pb < 32 /\ snd pb < 256) (lps_writes h).
Proof.
  intros h F. unfold lps_writes. apply Forall_flat_map. eapply Forall_impl; [|exact F]. intros [g w] (_ & R1 & R2 & R3 & R4). cbn [fst snd] in *. unfold long_segment.
  destruct ((w =? 0) && _ && _ && _); [|constructor]. pose proof (N.mod_lt (blk_data (g_b2 g)) 8 ltac:(discriminate)).
  destruct (hi_bits _ R4) as [_ X1]. destruct (lo_bits (blk_data (g_b4 g))) as [_ X2]. destruct (hi_bits _ R3) as [_ X3]. destruct (lo_bits (blk_data (g_b3 g))) as [_ X4].
  apply Forall_app. split; (destruct (blk_is_received _); [|constructor]); repeat constructor; cbn [fst snd]; try assumption; lia.
Qed.

Lemma decodeType15A_eq : forall env o st g j, decodeType15A env o st g j =
  let t := set_all (env_ucs2 env) (st_long_ps st) (lps_seg g) in
  let st := set_long_ps st t in
  if (g_has g BLOCK3 || g_has g BLOCK4) && s_isComplete t then
    j <- jset ["long_ps"%string] (JStr (rtrim (s_last_complete_string t))) j ;; Ok (st, j)
  else if o_show_partial o then
    match s_str (env_ucs2 env) t with
    | Some x => j <- jset ["partial_long_ps"%string] (JStr x) j ;; Ok (st, j)
    | None => j <- debug (env_what_iconv env) j ;; Ok (st, j)
    end
  else Ok (st, j).
Proof.
  intros env o st g j. unfold decodeType15A, lps_seg, s_set2. cbv zeta.
  destruct (g_has g BLOCK3), (g_has g BLOCK4); unfold set_all; cbn [app fold_left fst snd]; rewrite <- ?N.add_assoc; reflexivity.
Qed.
Lemma decodeType15A_text : forall env o st g j, conf (String.eqb "long_ps") absent j ->
  good (fun sj => let t := set_all (env_ucs2 env) (st_long_ps st) (lps_seg g) in st_long_ps (fst sj) = t /\
    jget ["long_ps"] (snd sj) = if (g_has g BLOCK3 || g_has g BLOCK4) && s_isComplete t then Some (JStr (rtrim (s_last_complete_string t))) else None)
  (decodeType15A env o st g j).
Proof.
  intros env o st g j C. rewrite decodeType15A_eq. cbv zeta.
  assert (W : writes (String.eqb "long_ps") ["partial_long_ps"; "debug"]) by (repeat constructor).
  remember (set_all (env_ucs2 env) (st_long_ps st) (lps_seg g)) as t eqn:Et. clear Et.
  destruct ((g_has g BLOCK3 || g_has g BLOCK4) && s_isComplete t).
  - destruct C as (m & -> & _). cbn [bind jset jupd]. eexists. split; [reflexivity|]. split; [reflexivity|]. cbn [snd jget]. rewrite find_put. reflexivity.
  - destruct (o_show_partial o).
    2: { apply good_ok. split; [reflexivity|]. apply (conf_get _ _ _ "long_ps" C). reflexivity. }
    destruct (s_str _ _); jstep; apply good_ok; (split; [reflexivity|]); apply (conf_get _ _ _ "long_ps" C); reflexivity.
Qed.

Lemma type15_cases : forall env o st g st' j, decoded env o st g = Ok (st', j) ->
  (lps_is g = true /\ find_type t15A (st_oda_app_for_group st) = None /\ decodeType15A env o (had st g) g (JObj (header env o st g)) = Ok (st', j)) \/
  ((lps_is g = false \/ find_type t15A (st_oda_app_for_group st) <> None) /\ st_long_ps st' = st_long_ps st /\
   (g_has_type g = true -> existsb (String.eqb "long_ps") (type_keys o st g) = false)).
Proof.
  intros env o st g st' j D. pose proof (decoded_frame env o st g _ D) as Fr. cbn [fst] in Fr. destruct Fr as (_ & _ & Fp & _).
  assert (Hp : st_long_ps (had st g) = st_long_ps st) by (unfold had; destruct (_ || _); reflexivity).
  destruct (g_has_type g) eqn:Ht.
  2: { right. unfold lps_is. rewrite Ht. split; [left; reflexivity|split; [rewrite Fp by reflexivity; exact Hp|discriminate]]. }
  assert (Hf : (lps_is g = true /\ find_type t15A (st_oda_app_for_group st) = None) \/ (lps_is g = false \/ find_type t15A (st_oda_app_for_group st) <> None)).
  { destruct (lps_is g); [|right; left; reflexivity]. destruct (find_type _ _) as [a|]; [right; right; discriminate|left; auto]. }
  destruct Hf as [[Is Fi]|No].
  - left. split; [exact Is|]. split; [exact Fi|]. pose proof (lps_type g Is) as Ty. unfold decoded in D. rewrite Ht in D. unfold decodeByType in D. cbv zeta in D.
    rewrite had_oda, Ty in D. change (gt_number t15A) with 15 in D. change (gt_version t15A) with VA in D. cbn [N.eqb Pos.eqb Version_eqb andb] in D. rewrite Fi in D. exact D.
  - right. split; [exact No|].
    assert (No' : (gt_number (g_type g) =? 15) && Version_eqb (gt_version (g_type g)) VA = false \/ g_type g = t15A /\ find_type t15A (st_oda_app_for_group st) <> None).
    { destruct No as [No|No]; [left; unfold lps_is in No; rewrite Ht in No; exact No|]. destruct (_ && _) eqn:Is; [|left; reflexivity]. right. split; [|exact No]. apply lps_type. unfold lps_is. rewrite Ht. exact Is. }
    split.
    + rewrite Fp; [exact Hp|]. unfold off, group_fields, app_fields. cbv zeta. rewrite had_oda. destruct No' as [No'|[Ty Nf]].
      * rewrite No'. by_cases.
      * rewrite Ty. destruct (find_type t15A _) as [a|]; [|congruence]. change (gt_number t15A) with 15. change (gt_version t15A) with VA. cbn [Version_eqb N.eqb Pos.eqb]. by_cases.
    + intros _. unfold type_keys, app_keys. cbv zeta. destruct No' as [No'|[Ty Nf]].
      * rewrite No'. by_cases.
      * rewrite Ty. destruct (find_type t15A _) as [a|]; [|congruence]. change (gt_number t15A) with 15. change (gt_version t15A) with VA. cbn [Version_eqb N.eqb Pos.eqb andb]. by_cases.
Qed.

Lemma had_lps : forall st g, st_long_ps (had st g) = st_long_ps st.
Proof. intros st g. unfold had. destruct (_ || _); reflexivity. Qed.
Definition lps_inv (u : bytes -> option bytes) (h : list (Group * N)) (st : Station) : Prop :=
  Forall (fun x => received_group (0%Z, fst x, snd x)) h /\ oda_inv h st /\
  (not_announced t15A h -> st_long_ps st = set_all u LongPS_default (lps_writes h)).

Lemma lps_step : forall env o h st now c g w st' j, lps_inv (env_ucs2 env) h st -> st_ok st -> received_group (now, g, w) ->
  bler_ok (prepared o now c g w) -> decoded env o st (prepared o now c g w) = Ok (st', j) -> lps_inv (env_ucs2 env) (h ++ [(g, w)]) st'.
Proof.
  intros env o h st now c g w st' j (F & Io & I) So R B D. pose proof (oda_step env o h st now c g w st' j Io R D) as Io'. set (g' := prepared o now c g w) in *.
  split; [apply Forall_app; split; [exact F|constructor; [exact R|constructor]]|]. split; [exact Io'|].
  intros Na. apply not_announced_app in Na. destruct Na as [Na _].
  assert (P : lps_writes (h ++ [(g, w)]) = lps_writes h ++ long_segment (g, w)) by (unfold lps_writes; rewrite flat_map_app; cbn [flat_map]; rewrite app_nil_r; reflexivity).
  rewrite P, set_all_app, <- (I Na), (lps_prepared o now c g w R). cbv zeta. fold g'.
  destruct (type15_cases env o st g' st' j D) as [(Is & _ & D0)|(No & Ps & _)].
  - rewrite Is. destruct (decodeType15A_text env o (had st g') g' _ (header_absent env o st g' "long_ps" B eq_refl)) as ([s1 j1] & D1 & T1 & _).
    rewrite D0 in D1. injection D1 as <- <-. cbn [fst] in T1. rewrite T1. unfold had. destruct (_ || _); reflexivity.
  - rewrite Ps. destruct No as [->|No]; [reflexivity|]. exfalso. apply No. apply (proj1 (not_announced_none t15A h st Io) Na).
Qed.
Lemma lps_new : forall u w, lps_inv u [] (Station_new w).
Proof. intros u w. split; [constructor|]. split; [reflexivity|]. intros _. reflexivity. Qed.
Lemma lps_new_pi : forall u w p, lps_inv u [] (Station_new_pi w p).
Proof. intros u w p. split; [constructor|]. split; [reflexivity|]. intros _. reflexivity. Qed.
Lemma lps_had : forall u h st g, lps_inv u h st -> lps_inv u h (had st g).
Proof. intros u h st g (F & Io & I). split; [exact F|]. split; [unfold oda_inv in *; rewrite had_oda; exact Io|]. intros Na. rewrite <- (I Na). unfold had. destruct (_ || _); reflexivity. Qed.

Lemma long_tracks : tracks 32 LongPS_default [].
Proof. unfold LongPS_default. destruct (new_tracks 32) as (A & B & C & D). unfold s_setEncoding, tracks. cbn [s_data s_sequential_length s_prev_pos]. auto. Qed.

Lemma lps_complete : forall env o w0 gs now g w c out line v, host_ok env -> o_output_type o = OutJSON -> Forall received_group (gs ++ [(now, g, w)]) ->
  run_groups env o (Channel_new o w0) (gs ++ [(now, g, w)]) = Ok (c, out ++ [Some line]) -> says line ["long_ps"] v ->
  exists l s, complete_text 32 (flat_map long_segment (decoded_in (gs ++ [(now, g, w)]) (out ++ [Some line]))) l /\ v = VStr s /\ trimmed (map visible l) s.
Proof.
  intros env o w0 gs now g w c out line v H OJ F E S. destruct (host_env env H) as [Ee _].
  destruct (last_group (lps_inv (env_ucs2 env)) env o H OJ (lps_new _) (lps_new_pi _) (lps_had _) (fun h st now c g w st' j => lps_step env o h st now c g w st' j) gs now g w w0 c out line F E)
    as (old & h & st & c1 & j & D & I & So & Dd & Pj & B & Hc & _).
  set (g' := prepared o now c1 g w) in *. pose proof (says_decoded env j line "long_ps" [] v H Pj ltac:(discriminate) S) as J.
  assert (R : received_group (now, g, w)) by (apply Forall_app in F; destruct F as [_ F2]; inversion F2; assumption).
  destruct (type15_cases env o st g' _ j Dd) as [(Is & Fi & D0)|(_ & _ & No)].
  2: { rewrite (decoded_absent env o st g' _ j "long_ps" Ee So B Dd eq_refl No) in J. discriminate. }
  destruct I as (Fh & Io & I). specialize (I (proj2 (not_announced_none t15A h st Io) Fi)).
  destruct (decodeType15A_text env o (had st g') g' _ (header_absent env o st g' "long_ps" B eq_refl)) as ([s1 j1] & D1 & T1 & J1).
  rewrite D0 in D1. injection D1 as <- <-. cbn [fst snd] in T1, J1.
  pose proof (had_lps st g') as Hp. rewrite Hp, I in J1. clear T1.
  pose proof (lps_prepared o now c1 g w R) as Sg. cbv zeta in Sg. fold g' in Sg. rewrite Is in Sg. rewrite <- Sg in J1.
  assert (Fd : Forall (fun x => received_group (0%Z, fst x, snd x)) (h ++ [(g, w)])) by (apply Forall_app; split; [exact Fh|constructor; [exact R|constructor]]).
  pose proof (lps_ok _ Fd) as Wok. unfold lps_writes in Wok. rewrite flat_map_app in Wok. cbn [flat_map] in Wok. rewrite app_nil_r in Wok. fold (lps_writes h) in Wok.
  pose proof (set_all_tracks (env_ucs2 env) 32 _ LongPS_default [] long_tracks Wok) as T. cbn [app] in T. rewrite set_all_app in T.
  remember (set_all (env_ucs2 env) LongPS_default (lps_writes h)) as s0 eqn:Es0.
  remember (set_all (env_ucs2 env) s0 (long_segment (g, w))) as s' eqn:Es'. rewrite J1 in J.
  destruct (g_has g' BLOCK3 || g_has g' BLOCK4) eqn:H34; cbn [andb] in J; [|discriminate]. destruct (s_isComplete s') eqn:Cp; [|discriminate]. injection J as <-.
  exists (shown_bytes s'), (rtrim (s_last_complete_string s')). split; [|split; [reflexivity|]].
  - rewrite D, flat_map_app. apply complete_earlier. rewrite flat_map_app. cbn [flat_map]. rewrite app_nil_r. apply complete_spec; [exact T|lia|exact Cp].
  - pose proof (complete_str (env_ucs2 env) s' (proj2 (tracks_sized _ _ _ T)) Cp) as X.
    assert (En : s_encoding s' = EncUTF8) by (rewrite Es', set_all_encoding, Es0, set_all_encoding; reflexivity). rewrite En in X.
    assert (Y : s_str (env_ucs2 env) s' = Some (s_last_complete_string s')).
    { apply Forall_app in Wok. destruct Wok as [W1 W2]. rewrite Es' in Cp |- *. eapply (set_all_last _ 32); [|lia| |exact W2|exact Cp].
      - rewrite Es0. eapply tracks_sized. apply (set_all_tracks (env_ucs2 env) 32 _ LongPS_default [] long_tracks W1).
      - rewrite Sg. unfold lps_seg. destruct (g_has g' BLOCK3), (g_has g' BLOCK4); discriminate. }
    rewrite Y in X. assert (s_last_complete_string s' = map visible (shown_bytes s')) as -> by congruence. apply rtrim_trimmed.
Qed.

(* A text of which every byte is UTF-8 reaches the line *)
Lemma clean_shows : forall env j ln, host_ok env -> clean j -> print_json env j = Ok ln -> forall p, line_at p ln = option_map (value_of (env_float env)) (jget p j).
Proof.
  intros env j ln H C Pr p. destruct (host_env env H) as [_ FL]. unfold print_json, json_print in Pr. unfold clean in C. rewrite C in Pr. injection Pr as <-.
  rewrite line_at_dump by exact FL. destruct (jget p j); reflexivity.
Qed.
Lemma put_clean : forall k v m, clean (JObj m) -> utf8_valid (bs k) = true -> clean v -> clean (JObj (obj_put k v m)).
Proof.
  intros k v m C K V. unfold clean in *. cbn [json_utf8] in *. induction m as [|[k0 v0] m IH]; cbn [obj_put]; [cbn [forallb fst snd]; rewrite K, V; reflexivity|].
  cbn [forallb fst snd] in C. apply andb_prop in C. destruct C as [C1 C2]. destruct (String.eqb k k0); cbn [forallb fst snd].
  - rewrite V, C2, andb_true_r, andb_true_r. apply andb_prop in C1. tauto.
  - rewrite C1. exact (IH C2).
Qed.
Lemma visible_id : forall cs, Forall scalar cs -> ~ In 0 cs -> ~ In end_of_text cs -> map visible (utf8_text cs) = utf8_text cs /\ ~ In end_of_text (utf8_text cs).
Proof.
  intros cs F N0 N1. assert (X : Forall (fun b => b <> 0 /\ b <> end_of_text) (utf8_text cs)).
  { unfold utf8_text. apply Forall_flat_map. rewrite Forall_forall in *. intros c Hc. apply Forall_forall. intros b Hb.
    assert (Nc : c <> 0 /\ c <> end_of_text) by (split; intros ->; auto). unfold end_of_text in *. unfold utf8_encode in Hb.
    destruct (N.ltb_spec c 0x80); [destruct Hb as [<-|[]]; lia|].
    assert (forall x y, 0x80 <= x -> x + y <> 0 /\ x + y <> 13) by lia.
    destruct (c <? 0x800); [|destruct (c <? 0x10000)]; repeat (destruct Hb as [<-|Hb]; [apply H0; lia|]); destruct Hb. }
  rewrite Forall_forall in X. split.
  - transitivity (map (fun b => b) (utf8_text cs)); [|apply map_id]. apply map_ext_in. intros b Hb. destruct (X b Hb) as [X1 X2]. unfold visible. apply N.eqb_neq in X1, X2. rewrite X1, X2. reflexivity.
  - intros Y. apply (X _ Y). reflexivity.
Qed.

Lemma lps_round_trip : forall env o w0 gs0 gs1 now g w c out p cs l earlier,
  host_ok env -> host_text env -> o_output_type o = OutJSON ->
  let gs := gs1 ++ [(now, g, w)] in
  Forall received_group (gs0 ++ gs) -> p <> 0 -> three p (pis gs0) -> Forall (stays p) gs ->
  Forall (fun x => long_segment (snd (fst x), snd x) <> [] -> carried_pi x = Some p) gs ->
  long_segment (g, w) <> [] -> not_announced t15A (groups_of (gs0 ++ gs)) ->
  flat_map long_segment (groups_of gs) = earlier ++ place 0 l ->
  Forall scalar cs -> ~ In 0 cs -> ~ In end_of_text cs ->
  (exists r, l = utf8_text cs ++ end_of_text :: r) \/ (l = utf8_text cs /\ length l = 32%nat) ->
  run_groups env o (Channel_new o w0) (gs0 ++ gs) = Ok (c, out) ->
  exists out' line s, out = out' ++ [Some line] /\ says line ["long_ps"] (VStr s) /\ trimmed (utf8_text cs) s.
Proof.
  intros env o w0 gs0 gs1 now g w c out p cs l earlier H HT OJ gs F Np T3 S P Pl Na Sg Fc N0 N1 Hl E.
  pose proof P as P'. apply Forall_app in P'. destruct P' as [_ P2]. inversion P2 as [|? ? Pg _]; subst. cbn [fst snd] in Pg. specialize (Pg Pl).
  destruct (last_shown (lps_inv (env_ucs2 env)) env o H HT OJ (lps_new _) (lps_new_pi _) (lps_had _) (fun h st now c g w st' j => lps_step env o h st now c g w st' j) w0 gs0 gs1 now g w c out p F Np T3 S Pg E)
    as (old & h0 & out0 & out1 & ln & c1 & st & j & D0 & -> & L0 & L1 & I & So & B & _ & Dd & _ & Pj & Ad).
  exists (out0 ++ out1), ln. set (g' := prepared o now c1 g w) in *.
  specialize (Ad _ long_segment P). fold gs in Ad. rewrite Sg in Ad.
  assert (R : received_group (now, g, w)) by (apply Forall_app in F; destruct F as [_ F2]; apply Forall_app in F2; destruct F2 as [_ F2]; inversion F2; assumption).
  pose proof (lps_prepared o now c1 g w R) as Sp. cbv zeta in Sp. fold g' in Sp.
  destruct (lps_is g') eqn:Is; [|congruence].
  destruct I as (Fh & Io & I).
  assert (Na1 : not_announced t15A (h0 ++ decoded_in gs1 out1)).
  { intros a X. apply (Na a). apply in_flat_map in X. destruct X as (y & Y1 & Y2). apply in_flat_map. exists y. split; [|exact Y2].
    unfold groups_of. rewrite map_app. apply in_or_app. apply in_app_or in Y1. destruct Y1 as [Y1|Y1].
    - left. apply (decoded_sub gs0 out0). rewrite D0. apply in_or_app. right. exact Y1.
    - right. unfold gs. rewrite map_app. apply in_or_app. left. exact (decoded_sub _ _ _ Y1). }
  specialize (I Na1). pose proof (proj1 (not_announced_none t15A _ st Io) Na1) as Fi.
  destruct (type15_cases env o st g' _ j Dd) as [(_ & _ & D1)|([X|X] & _)]; [|congruence|contradiction].
  destruct (decodeType15A_text env o (had st g') g' _ (header_absent env o st g' "long_ps" B eq_refl)) as ([s1 j1] & D2 & _ & J1).
  rewrite D1 in D2. injection D2 as <- <-. cbn [snd] in J1.
  pose proof (had_lps st g') as Hp. rewrite Hp, I, <- Sp in J1.
  assert (Wr : set_all (env_ucs2 env) (set_all (env_ucs2 env) LongPS_default (lps_writes (h0 ++ decoded_in gs1 out1))) (long_segment (g, w)) =
    set_all (env_ucs2 env) (set_all (env_ucs2 env) LongPS_default (lps_writes h0 ++ earlier)) (place 0 l)).
  { rewrite <- !set_all_app. f_equal. unfold lps_writes. rewrite flat_map_app, <- !app_assoc. f_equal. rewrite <- Ad. unfold gs.
    rewrite (decoded_in_app gs1 [(now, g, w)] out1 [Some ln] L1), flat_map_app. cbn [decoded_in combine flat_map app]. rewrite app_nil_r. reflexivity. }
  rewrite Wr in J1.
  assert (Wok : Forall (fun pb => fst pb < 32 /\ snd pb < 256) ((lps_writes h0 ++ earlier) ++ place 0 l)).
  { rewrite <- app_assoc, <- Ad. unfold lps_writes. rewrite <- flat_map_app. apply lps_ok. apply Forall_app in Fh. destruct Fh as [Fh0 _]. apply Forall_app. split; [exact Fh0|].
    apply decoded_received. apply Forall_app in F. apply F. }
  apply Forall_app in Wok. destruct Wok as [W0 W1].
  pose proof (tracks_sized _ _ _ (set_all_tracks (env_ucs2 env) 32 _ LongPS_default [] long_tracks W0)) as Z0.
  assert (En0 : s_encoding (set_all (env_ucs2 env) LongPS_default (lps_writes h0 ++ earlier)) = EncUTF8) by (rewrite set_all_encoding; reflexivity).
  remember (set_all (env_ucs2 env) LongPS_default (lps_writes h0 ++ earlier)) as s0 eqn:Es0. clear Es0.
  assert (Fl : Forall (fun b => b < 256) l).
  { clear - W1. revert W1. generalize 0. induction l as [|b l IH]; intros i W; [constructor|]. cbn [place] in W. inversion W; subst. constructor; [tauto|]. eapply IH; eassumption. }
  assert (Ll : N.of_nat (length l) <= 32).
  { clear - W1. destruct (snoc_cases _ l) as [->|(a & x & ->)]; [cbn; lia|]. rewrite place_app in W1. apply Forall_app in W1. destruct W1 as [_ W]. cbn [place] in W. inversion W as [|? ? [X _] _]; subst. cbn [fst] in X. rewrite app_length. cbn [length]. lia. }
  destruct (visible_id cs Fc N0 N1) as [Vi Nt].
  assert (Cs : s_isComplete (set_all (env_ucs2 env) s0 (place 0 l)) = true /\ rtrim (s_last_complete_string (set_all (env_ucs2 env) s0 (place 0 l))) = rtrim (utf8_text cs)).
  { assert (Q : forall s', s_encoding s' = EncUTF8 -> s_isComplete s' = true -> s_str (env_ucs2 env) s' = Some (s_last_complete_string s') -> Forall (fun b => b < 256) (s_data s') -> s_last_complete_string s' = map visible (shown_bytes s')).
    { intros s' En' C' S' F'. pose proof (complete_str (env_ucs2 env) s' F' C') as X. rewrite En', S' in X. congruence. }
    assert (En1 : s_encoding (set_all (env_ucs2 env) s0 (place 0 l)) = EncUTF8) by (rewrite set_all_encoding; exact En0).
    destruct Hl as [(r & Hl)|[Hl Hn]].
    - destruct (run_bytes (env_ucs2 env) 32 s0 l (utf8_text cs) r Z0 ltac:(congruence) ltac:(lia) Fl Hl Ll Nt) as (C1 & S1 & B1 & F1). split; [exact C1|].
      rewrite (Q _ En1 C1 S1 F1), B1, map_app, Vi. change (map visible [end_of_text]) with (repeat 32 1). apply rtrim_blanks.
    - rewrite <- Hl in Nt, Vi. destruct (full_bytes (env_ucs2 env) 32 s0 l Z0 ltac:(congruence) ltac:(lia) Fl ltac:(lia) Nt) as (C1 & S1 & B1 & F1). split; [exact C1|].
      rewrite (Q _ En1 C1 S1 F1), B1, Vi, Hl. reflexivity. }
  destruct Cs as [Cp Tr]. remember (set_all (env_ucs2 env) s0 (place 0 l)) as s' eqn:Es'.
  assert (H34 : g_has g' BLOCK3 || g_has g' BLOCK4 = true).
  { rewrite Sp in Pl. unfold lps_seg in Pl. destruct (g_has g' BLOCK3), (g_has g' BLOCK4); try reflexivity. exfalso. apply Pl. reflexivity. }
  rewrite H34, Cp in J1. cbn [andb] in J1.
  exists (rtrim (s_last_complete_string s')). split; [rewrite app_assoc; reflexivity|]. split; [|rewrite Tr; apply rtrim_trimmed].
  assert (Cj : clean j).
  { rewrite decodeType15A_eq in D1. cbv zeta in D1. rewrite Hp, I, <- Sp, Wr in D1. rewrite H34, Cp in D1. cbn [andb bind jset jupd] in D1.
    assert (Ej : j = JObj (obj_put "long_ps" (JStr (rtrim (s_last_complete_string s'))) (header env o st g'))) by congruence. rewrite Ej.
    apply put_clean; [apply header_clean; apply host_text_txt; exact HT|reflexivity|].
    unfold clean. cbn [json_utf8]. rewrite Tr. apply txt_rtrim. apply valid_is_utf8. exists cs. split; [exact Fc|reflexivity]. }
  unfold says. rewrite (clean_shows env j ln H Cj Pj), J1. reflexivity.
Qed.
