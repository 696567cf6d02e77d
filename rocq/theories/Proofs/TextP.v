(* Which texts are UTF-8: everything the program assembles from its tables. *)
From Verif.Proofs Require Import Tac Numerals FreqP Utf8P.
From Verif.Model Require Import Util Float Group Options Tables Freq RdsString Rft Json Tmc Station.
From Verif.Spec Require Import Unicode.

Definition txt (s : bytes) : Prop := utf8_valid s = true.

Lemma txt_app : forall a b, txt a -> txt b -> txt (a ++ b).
Proof. exact utf8_valid_app. Qed.
Lemma txt_nil : txt [].
Proof. reflexivity. Qed.
Lemma txt_cons : forall c s, c < 128 -> txt s -> txt (c :: s).
Proof. intros c s H S. unfold txt. cbn [utf8_valid]. replace (c <? 128) with true by lia. exact S. Qed.

Lemma txt_dec : forall v, txt (dec_string v).
Proof.
  intros v. apply ascii_utf8. eapply Forall_impl; [|apply dec_string_digits]. intros c H. cbn in H. lia.
Qed.
Lemma txt_decZ : forall v, txt (dec_string_Z v).
Proof. intros v. unfold dec_string_Z. destruct (_ <? _)%Z; [apply txt_cons; [lia|]|]; apply txt_dec. Qed.
Lemma txt_repeat : forall c n, c < 128 -> txt (repeat c n).
Proof. intros c n H. induction n as [|n IH]; [reflexivity|]. apply txt_cons; assumption. Qed.
Lemma txt_pad : forall c w s, c < 128 -> txt s -> txt (pad_left c w s).
Proof. intros c w s H S. apply txt_app; [apply txt_repeat; exact H|exact S]. Qed.
Lemma txt_hex : forall w v, txt (getHexString w v).
Proof.
  intros w v. apply ascii_utf8. eapply Forall_impl; [|apply getHexString_chars]. intros c H. unfold hex_char in H. lia.
Qed.
Lemma txt_phex : forall w v, txt (getPrefixedHexString w v).
Proof. intros w v. apply txt_app; [reflexivity|apply txt_hex]. Qed.
Lemma txt_hm : forall h m, txt (getHoursMinutesString h m).
Proof.
  intros h m. unfold getHoursMinutesString. apply txt_app; [apply txt_pad; [lia|apply txt_decZ]|].
  apply txt_cons; [lia|]. apply txt_pad; [lia|apply txt_decZ].
Qed.
Lemma txt_join : forall d l, txt d -> Forall txt l -> txt (join l d).
Proof.
  intros d l D F. induction F as [|s l Hs F IH]; [reflexivity|]. cbn [join]. destruct l; [exact Hs|].
  apply txt_app; [exact Hs|]. apply txt_app; assumption.
Qed.

Lemma valid_snoc : forall n s, (length s <= n)%nat -> utf8_valid (s ++ [32]) = true -> utf8_valid s = true.
Proof.
  induction n as [|n IH]; intros s L V; [destruct s; [reflexivity|cbn in L; lia]|].
  destruct s as [|a s]; [reflexivity|]. cbn [length] in L. cbn [app] in V.
  assert (IH1 : utf8_valid (s ++ [32]) = true -> utf8_valid s = true) by (apply IH; lia).
  cbn [utf8_valid] in V |- *. destruct (a <? 128); [apply IH1, V|].
  assert (H1 : forall b r, s = b :: r -> utf8_valid (r ++ [32]) = true -> utf8_valid r = true).
  { intros b r -> Q. apply IH; [cbn [length] in L; lia|exact Q]. }
  assert (H2 : forall b c r, s = b :: c :: r -> utf8_valid (r ++ [32]) = true -> utf8_valid r = true).
  { intros b c r -> Q. apply IH; [cbn [length] in L; lia|exact Q]. }
  assert (H3 : forall b c d r, s = b :: c :: d :: r -> utf8_valid (r ++ [32]) = true -> utf8_valid r = true).
  { intros b c d r -> Q. apply IH; [cbn [length] in L; lia|exact Q]. }
  assert (C32 : cont 32 = false) by reflexivity.
  destruct (inr 194 223 a).
  { destruct s as [|b r]; cbn [app] in V; [rewrite C32 in V; discriminate|].
    apply andb_prop in V. destruct V as [-> V]. apply (H1 b r eq_refl V). }
  assert (Three : forall P : N -> bool, P 32 = false ->
    match s ++ [32] with b :: c :: r' => P b && cont c && utf8_valid r' | _ => false end = true ->
    match s with b :: c :: r' => P b && cont c && utf8_valid r' | _ => false end = true).
  { intros P P0 Q. destruct s as [|b [|c r]]; cbn [app] in Q; [discriminate| |].
    - rewrite C32, andb_false_r in Q. discriminate.
    - apply andb_prop in Q. destruct Q as [-> Q]. apply (H2 b c r eq_refl Q). }
  assert (Four : forall P : N -> bool, P 32 = false ->
    match s ++ [32] with b :: c :: d :: r' => P b && cont c && cont d && utf8_valid r' | _ => false end = true ->
    match s with b :: c :: d :: r' => P b && cont c && cont d && utf8_valid r' | _ => false end = true).
  { intros P P0 Q. destruct s as [|b [|c [|d r]]]; cbn [app] in Q; try discriminate.
    - rewrite C32, andb_false_r in Q. discriminate.
    - apply andb_prop in Q. destruct Q as [-> Q]. apply (H3 b c d r eq_refl Q). }
  destruct (a =? 224); [apply (Three (inr 160 191)); [reflexivity|exact V]|].
  destruct (inr 225 236 a || inr 238 239 a); [apply (Three cont); [reflexivity|exact V]|].
  destruct (a =? 237); [apply (Three (inr 128 159)); [reflexivity|exact V]|].
  destruct (a =? 240); [apply (Four (inr 144 191)); [reflexivity|exact V]|].
  destruct (inr 241 243 a); [apply (Four cont); [reflexivity|exact V]|].
  destruct (a =? 244); [apply (Four (inr 128 143)); [reflexivity|exact V]|]. discriminate.
Qed.

(* rtrim removes the blanks at the end and nothing else *)
Lemma rtrim_spec : forall s, exists n, s = rtrim s ++ repeat 32 n /\ (forall t, rtrim s <> t ++ [32]).
Proof.
  intros s. unfold rtrim.
  set (drop := fix drop (l : bytes) : bytes := match l with [] => [] | c :: r => if c =? 32 then drop r else l end).
  assert (D : forall l, exists n, l = repeat 32 n ++ drop l /\ (forall t, drop l <> 32 :: t)).
  { induction l as [|c l (n & E & NE)]; [exists 0%nat; split; [reflexivity|discriminate]|].
    cbn [drop]. destruct (N.eqb_spec c 32) as [->|Nc].
    - exists (S n). split; [cbn [repeat app]; f_equal; exact E|exact NE].
    - exists 0%nat. split; [reflexivity|]. intros t Ht. injection Ht as -> _. contradiction. }
  destruct (D (rev s)) as (n & E & NE). exists n. split.
  - transitivity (rev (repeat 32 n ++ drop (rev s))); [rewrite <- E; symmetry; apply rev_involutive|].
    rewrite rev_app_distr. f_equal.
    clear. induction n as [|n IH]; [reflexivity|]. cbn [repeat rev]. rewrite IH. symmetry. apply repeat_cons.
  - intros t Ht. apply (NE (rev t)). rewrite <- (rev_involutive (drop (rev s))), Ht, rev_app_distr. reflexivity.
Qed.

Lemma txt_rtrim : forall s, txt s -> txt (rtrim s).
Proof.
  intros s H. destruct (rtrim_spec s) as (n & E & _). rewrite E in H. clear E. generalize dependent (rtrim s).
  clear s. induction n as [|n IH]; intros t H; [rewrite app_nil_r in H; exact H|].
  apply IH. apply (valid_snoc (length (t ++ repeat 32 n))); [lia|]. rewrite <- app_assoc, <- repeat_cons. exact H.
Qed.

(* Tables *)
Lemma txt_nth_strings : forall l i, forallb (fun s => utf8_valid (bs s)) l = true -> txt (bs (nth i l EmptyString)).
Proof.
  intros l i H. destruct (nth_in_or_default i l EmptyString) as [I| ->]; [|reflexivity].
  rewrite forallb_forall in H. exact (H _ I).
Qed.
Lemma txt_tab : forall l i, forallb (fun s => utf8_valid (bs s)) l = true -> txt (tab l i).
Proof. intros. apply txt_nth_strings. assumption. Qed.
Lemma find_code_In : forall (A : Type) k (l : list (N * A)) v, find_code k l = Some v -> In v (map snd l).
Proof.
  intros A k l v. induction l as [|[k' v'] l IH]; [discriminate|]. cbn [find_code].
  destruct (k =? k'); intros E; [injection E as ->; left; reflexivity|right; apply IH, E].
Qed.
Lemma txt_find : forall k l s, forallb (fun s => utf8_valid (bs s)) (map snd l) = true ->
  find_code k l = Some s -> txt (bs s).
Proof. intros k l s H E. rewrite forallb_forall in H. apply H. eapply find_code_In. exact E. Qed.

Lemma txt_country : forall cc ecc c, getCountryString cc ecc = Ok c -> txt c.
Proof.
  intros cc ecc c. unfold getCountryString.
  assert (T : forallb (forallb (fun s => utf8_valid (bs s))) (map snd country_codes) = true) by (vm_compute; reflexivity).
  rewrite forallb_forall in T.
  destruct (find_code ecc country_codes) as [row|] eqn:E; [|intros Q; injection Q as <-; reflexivity].
  apply find_code_In in E. specialize (T row E). rewrite forallb_forall in T.
  destruct (0 <? cc); [|intros Q; injection Q as <-; reflexivity].
  destruct (nth_error row _) as [s|] eqn:En; [|discriminate]. intros Q; injection Q as <-.
  apply T. eapply nth_error_In. exact En.
Qed.

Lemma txt_language : forall c, txt (getLanguageString c).
Proof. intros c. unfold getLanguageString. destruct (_ <? _); [apply txt_tab; vm_compute|]; reflexivity. Qed.
Lemma txt_app_name : forall c, txt (getAppNameString c).
Proof.
  intros c. unfold getAppNameString. destruct (find_code c oda_apps) eqn:E; [|reflexivity].
  apply (txt_find c oda_apps); [vm_compute; reflexivity|exact E].
Qed.
Lemma txt_content : forall c, txt (getRTPlusContentTypeString c).
Proof. intros c. unfold getRTPlusContentTypeString. destruct (_ <? _); [apply txt_tab; vm_compute|]; reflexivity. Qed.
Lemma txt_pty : forall o c, txt (pty_string o c).
Proof.
  intros o c. unfold pty_string, getPTYNameString, getPTYNameStringRBDS.
  destruct (o_rbds o), (_ <? _); try reflexivity; apply txt_tab; vm_compute; reflexivity.
Qed.
Lemma txt_di : forall c, txt (bs (getDICodeString c)).
Proof. intros c. unfold getDICodeString. destruct (_ <? _); [apply txt_nth_strings|]; reflexivity. Qed.
Lemma txt_dab : forall f c, find_code f dab_channels = Some c -> txt (bs c).
Proof. intros f c. apply txt_find. vm_compute. reflexivity. Qed.
Lemma txt_dab_mode : forall i, txt (bs (nth i dab_modes EmptyString)).
Proof. intros i. apply txt_nth_strings. reflexivity. Qed.
Lemma txt_group_type : forall t, txt (GroupType_str t).
Proof.
  intros t. unfold GroupType_str. destruct (gt_version t); try reflexivity; (apply txt_app; [apply txt_dec|reflexivity]).
Qed.
Lemma txt_callsign : forall pi, txt (getCallsignFromPI pi).
Proof.
  intros pi. unfold getCallsignFromPI. cbv zeta. generalize (undo_zero_nybbles pi). clear pi. intros pi.
  destruct (_ && _).
  { destruct (find_code _ _) eqn:E; [|reflexivity]. apply (txt_find _ three_letter_codes _ ltac:(vm_compute; reflexivity) E). }
  destruct (_ || _).
  { destruct (find_code _ _) eqn:E; [|reflexivity]. apply (txt_find _ linked_station_codes _ ltac:(vm_compute; reflexivity) E). }
  destruct (_ && _); [|reflexivity]. apply txt_cons; [destruct (_ <=? _); lia|].
  assert (M : forall x, 65 + x mod 26 < 128) by (intros x; pose proof (N.mod_lt x 26 ltac:(discriminate)); lia).
  do 3 (apply txt_cons; [apply M|]). reflexivity.
Qed.
Lemma txt_char : forall c, txt (getRDSCharString c).
Proof.
  intros c. unfold getRDSCharString.
  assert (T : forallb utf8_valid codetable_G0 = true) by (vm_compute; reflexivity).
  destruct (nth_in_or_default (N.to_nat c) codetable_G0 []) as [I| ->]; [|reflexivity].
  rewrite forallb_forall in T. exact (T _ I).
Qed.
Lemma txt_chars : forall d, txt (flat_map getRDSCharString d).
Proof. induction d as [|c d IH]; [reflexivity|]. cbn [flat_map]. apply txt_app; [apply txt_char|exact IH]. Qed.

Lemma txt_blk : forall b, txt (blk_hex b).
Proof. intros b. unfold blk_hex. destruct (blk_is_received b); [apply txt_hex|reflexivity]. Qed.
Lemma txt_printHex : forall g, txt (g_printHex g).
Proof.
  intros g. unfold g_printHex. apply txt_app; [apply txt_blk|]. apply txt_cons; [lia|].
  apply txt_app; [apply txt_blk|]. apply txt_cons; [lia|]. apply txt_app; [apply txt_blk|].
  apply txt_cons; [lia|]. apply txt_blk.
Qed.
Lemma txt_oda_raw : forall g, txt (oda_raw g).
Proof.
  intros g. unfold oda_raw. apply txt_app; [apply txt_hex|]. apply txt_cons; [lia|].
  apply txt_app; [destruct (g_has g BLOCK3); [apply txt_hex|reflexivity]|].
  apply txt_cons; [lia|]. destruct (g_has g BLOCK4); [apply txt_hex|reflexivity].
Qed.
Lemma txt_fmt : forall w z, txt (fmt_0d w z).
Proof.
  intros w z. unfold fmt_0d. destruct (_ <? _)%Z; [apply txt_cons; [lia|]|]; apply txt_pad; try lia; apply txt_dec.
Qed.
Lemma txt_cf : forall f, txt (cf_str f).
Proof.
  intros f. destruct (cf_isValid f) eqn:V.
  - destruct f as [c [|]].
    + apply lf_valid in V. rewrite lf_text by apply V. apply txt_app; [apply txt_dec|reflexivity].
    + apply fm_valid in V. rewrite fm_text by apply V. apply txt_app; [apply txt_dec|].
      apply txt_app; [|reflexivity]. apply txt_cons; [lia|]. apply txt_cons; [|reflexivity].
      pose proof (N.mod_lt (875 + c) 10 ltac:(discriminate)). lia.
  - destruct (invalid_text f V) as [_ ->]. reflexivity.
Qed.

(* ---- strings in the basic character set ---- *)
Definition basic (s : RDSString) : Prop := s_encoding s = EncBasic /\ txt (s_last_complete_string s).

Lemma basic_new : forall n, basic (RDSString_new n).
Proof. intros n. split; reflexivity. Qed.
Lemma basic_clear : forall s, basic s -> basic (s_clear s).
Proof. intros s [A B]. split; [exact A|reflexivity]. Qed.
Lemma basic_resize : forall s n, basic s -> basic (s_resize s n).
Proof. intros s n H. exact H. Qed.
Lemma basic_str : forall u s t, basic s -> s_str u s = Some t -> txt t.
Proof. intros u s t [A _]. unfold s_str. rewrite A. intros E. injection E as <-. apply txt_chars. Qed.
Lemma basic_set : forall u s p b, basic s -> basic (s_set u s p b).
Proof.
  intros u s p b [A B]. unfold s_set. destruct (_ <=? _); [split; assumption|]. cbv zeta.
  destruct (s_isComplete _); [|split; assumption].
  unfold s_str. cbn [s_encoding]. rewrite A. split; [reflexivity|]. cbn [s_last_complete_string]. apply txt_chars.
Qed.
Lemma basic_set2 : forall u s p a b, basic s -> basic (s_set2 u s p a b).
Proof. intros. apply basic_set, basic_set. assumption. Qed.
Lemma basic_str_basic : forall env s t, basic s -> str_basic env s = Ok t -> txt t.
Proof.
  intros env s t H. unfold str_basic. destruct (s_str _ s) eqn:E; [|discriminate].
  intros Q. injection Q as <-. apply (basic_str _ _ _ H E).
Qed.

(* ---- traffic messages ---- *)
Definition tables_txt (d : TmcData) : Prop :=
  (forall c e, td_event d c = Some e -> txt (ev_description e) /\ txt (ev_description_with_quantifier e)) /\
  (forall c s, td_suppl d c = Some s -> txt s) /\
  (forall l c p, db_points (td_locdb d l) c = Some p -> txt (pt_name1 p) /\ txt (pt_road_name p)) /\
  (forall l c r, db_roads (td_locdb d l) c = Some r -> txt (road_number r) /\ txt (road_name r)).

(* induction over the characters of a text *)
Lemma txt_ind : forall P : bytes -> Prop, P [] ->
  (forall c r, c < 128 -> txt r -> P r -> P (c :: r)) ->
  (forall h r, Forall (fun b => 128 <= b) h -> txt h -> txt r -> P r -> P (h ++ r)) ->
  forall s, txt s -> P s.
Proof.
  intros P P0 P1 P2 s H. apply valid_is_utf8 in H. destruct H as (cs & F & ->).
  induction F as [|c cs Hc F IH]; [exact P0|]. unfold utf8_text in *. cbn [flat_map].
  assert (R : txt (flat_map utf8_encode cs)) by (apply valid_is_utf8; exists cs; split; [exact F|reflexivity]).
  assert (T : txt (utf8_encode c)) by (apply valid_is_utf8, is_utf8_one, Hc).
  destruct (encode_cases c Hc) as [(L & E)|[(L1 & L2 & E)|[(L1 & L2 & E)|(L1 & L2 & E)]]].
  - rewrite E. cbn [app]. apply P1; assumption.
  - apply P2; try assumption. rewrite E. repeat constructor; lia.
  - apply P2; try assumption. rewrite E. repeat constructor; lia.
  - apply P2; try assumption. rewrite E. repeat constructor; lia.
Qed.

Lemma txt_tail : forall c s, c < 128 -> txt (c :: s) -> txt s.
Proof. intros c s H. unfold txt. cbn [utf8_valid]. replace (c <? 128) with true by lia. trivial. Qed.

Lemma replace_Q_other : forall t c r, c <> 40 -> replace_Q t (c :: r) = c :: replace_Q t r.
Proof.
  intros t c r H. destruct c as [|p]; [reflexivity|].
  do 7 (try (destruct p as [p|p|]; try reflexivity)); try contradiction; exfalso; apply H; reflexivity.
Qed.

Lemma txt_replace_Q : forall t, txt t -> forall s, txt s -> txt (replace_Q t s).
Proof.
  intros t Ht s Hs.
  assert (G : forall n s, (length s <= n)%nat -> txt s -> txt (replace_Q t s)); [|apply (G (length s)); [lia|exact Hs]].
  clear s Hs. induction n as [|n IH]; intros s L Hs; [destruct s; [reflexivity|cbn in L; lia]|].
  revert L. pattern s. refine (txt_ind _ _ _ _ s Hs); clear s Hs; [reflexivity| |].
  - intros c r Hc Hr IHr L. cbn [length] in L. destruct (N.eq_dec c 40) as [->|Nc].
    + assert (D : txt (40 :: replace_Q t r)) by (apply txt_cons; [lia|apply IH; [lia|exact Hr]]).
      destruct r as [|a [|b r]]; try exact D.
      * destruct (N.eq_dec a 81) as [->|]; [exact D|]. cbn [replace_Q].
        destruct a as [|p]; [exact D|]. repeat (destruct p as [p|p|]; try exact D).
      * destruct (N.eq_dec a 81) as [->|Na].
        -- destruct (N.eq_dec b 41) as [->|Nb].
           ++ cbn [replace_Q]. apply txt_app; [exact Ht|]. apply IH; [cbn [length] in L; lia|].
              apply (txt_tail 41); [lia|]. apply (txt_tail 81); [lia|exact Hr].
           ++ replace (replace_Q t (40 :: 81 :: b :: r)) with (40 :: replace_Q t (81 :: b :: r)); [exact D|].
              symmetry. destruct b as [|p]; [reflexivity|]. cbn [replace_Q].
              do 7 (try (destruct p as [p|p|]; try reflexivity)); exfalso; apply Nb; reflexivity.
        -- replace (replace_Q t (40 :: a :: b :: r)) with (40 :: replace_Q t (a :: b :: r)); [exact D|].
           symmetry. destruct a as [|p]; [reflexivity|]. cbn [replace_Q].
           do 7 (try (destruct p as [p|p|]; try reflexivity)); exfalso; apply Na; reflexivity.
    + rewrite replace_Q_other by exact Nc. apply txt_cons; [exact Hc|]. apply IHr. lia.
  - intros h r F Th Hr IHr L.
    assert (E : replace_Q t (h ++ r) = h ++ replace_Q t r).
    { clear - F. induction F as [|c h Hc F IHf]; [reflexivity|]. cbn [app]. rewrite replace_Q_other by lia. f_equal. exact IHf. }
    rewrite E. apply txt_app; [exact Th|]. rewrite app_length in L. apply IHr. lia.
Qed.

Lemma txt_ucfirst : forall s, txt s -> txt (ucfirst s).
Proof.
  intros [|c r] H; [reflexivity|]. cbn [ucfirst]. destruct ((97 <=? c) && (c <=? 122)) eqn:E; [|exact H].
  apply txt_cons; [lia|]. apply (txt_tail c); [lia|exact H].
Qed.

Lemma txt_quantifier : forall t q, txt (quantifier_text t q).
Proof.
  intros t q. unfold quantifier_text. cbv zeta.
  destruct t; repeat match goal with |- txt (if ?c then _ else _) => destruct c end;
    repeat first [apply txt_decZ | apply txt_hm | apply txt_cf | apply txt_app | reflexivity].
Qed.

Lemma txt_event_sentences : forall d q, tables_txt d -> forall l i, Forall txt (event_sentences d q i l).
Proof.
  intros d q (T & _). induction l as [|c l IH]; intros i; [constructor|]. cbn [event_sentences].
  apply Forall_app. split; [|apply IH]. destruct (td_event d c) as [e|] eqn:E; [|constructor].
  constructor; [|constructor]. apply txt_ucfirst. destruct (find_code i q); [|apply (T c e E)].
  apply txt_replace_Q; [apply txt_quantifier|apply (T c e E)].
Qed.
Lemma txt_suppl_sentences : forall d, tables_txt d -> forall l, Forall txt (suppl_sentences d l).
Proof.
  intros d (_ & T & _). induction l as [|c l IH]; [constructor|]. cbn [suppl_sentences flat_map].
  apply Forall_app. split; [|exact IH]. destruct (td_suppl d c) eqn:E; [|constructor].
  constructor; [|constructor]. apply txt_ucfirst. apply (T c _ E).
Qed.
Lemma txt_time : forall f, txt (getTimeString f).
Proof.
  intros f. unfold getTimeString. cbv zeta.
  assert (H2 : forall v, txt (two_digits v)) by (intros v; apply txt_pad; [lia|apply txt_dec]).
  repeat match goal with |- txt (if ?c then _ else _) => destruct c end;
    repeat first [apply txt_hm | apply H2 | apply txt_dec | apply txt_app | reflexivity | apply txt_nth_strings].
  destruct (negb _); reflexivity.
Qed.
Lemma txt_scope : forall m, Forall txt (getScopeStrings m).
Proof.
  intros m. unfold getScopeStrings. repeat (apply Forall_app; split);
    match goal with |- Forall _ (if ?c then _ else _) => destruct c end; repeat constructor.
Qed.
