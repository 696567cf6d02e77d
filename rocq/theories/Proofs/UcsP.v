(* Enhanced RadioText in UCS-2. *)
From Verif.Model Require Import Util Group Options Tables Json Freq RdsString Tmc Station Channel.
From Verif.Spec Require Import Numerals Unicode JsonText Session Identity History Quality Texts Apps Traffic Enhanced Ucs2.
From Verif.Proofs Require Import Tac Numerals JsonP Utf8P Schema StationP TextP CleanP UpdateP SessionP LineP FrameP ChannelP LinesP HistoryP ShowP TraceP KeysP GetP FieldsP StringP PsP RtP EndP LpsP AppsP TmcP ErtP.

Local Open Scope string_scope.
Local Open Scope N_scope.
Local Open Scope list_scope.

Lemma set_mid : forall (A : Type) (a : list A) x b v, list_set (a ++ x :: b) (length a) v = a ++ v :: b.
Proof. induction a as [|y a IH]; intros x b v; [reflexivity|]. cbn [app length list_set]. rewrite IH. reflexivity. Qed.

(* A write *)
Lemma set_eq : forall u s p b, p < N.of_nat (length (s_data s)) -> s_set u s p b =
  (let s1 := mkRDSString (s_encoding s) (s_direction s) (list_set (s_data s) (N.to_nat p) b) (s_prev_pos s)
     (if (p =? 0) || ((p =? s_prev_pos s + 1) && (s_sequential_length s =? p)) then p + 1 else s_sequential_length s) (s_last_complete_string s) in
   if s_isComplete s1 then match s_str u s1 with None => s_clear s1
     | Some text => mkRDSString (s_encoding s1) (s_direction s1) (s_data s1) p (s_sequential_length s1) text end
   else mkRDSString (s_encoding s1) (s_direction s1) (s_data s1) p (s_sequential_length s1) (s_last_complete_string s1)).
Proof. intros u s p b L. unfold s_set. destruct (N.leb_spec (N.of_nat (length (s_data s))) p) as [|_]; [lia|]. reflexivity. Qed.

(* Expected length *)
Lemma expected_open : forall s a r, s_data s = a ++ r -> ~ In end_of_text a -> r <> [] -> N.of_nat (length a) < s_getExpectedLength s.
Proof.
  intros s a r D Na Nr. unfold s_getExpectedLength. rewrite D, app_length. destruct r as [|x r]; [congruence|]. cbn [length].
  assert (N.of_nat (length a) <= find_terminator (a ++ x :: r)).
  { clear - Na. induction a as [|y a IH]; [cbn; lia|]. cbn [app find_terminator length]. destruct (N.eqb_spec y kStringTerminator) as [->|_]; [exfalso; apply Na; left; reflexivity|].
    assert (~ In end_of_text a) by (intros X; apply Na; right; exact X). specialize (IH H). lia. }
  lia.
Qed.
Lemma expected_end : forall s a r, s_data s = a ++ end_of_text :: r -> ~ In end_of_text a -> s_getExpectedLength s = N.of_nat (length a) + 1.
Proof. intros s a r D Na. unfold s_getExpectedLength. rewrite D, (term_app a r Na), app_length. cbn [length]. lia. Qed.
Lemma expected_full : forall s, ~ In end_of_text (s_data s) -> s_getExpectedLength s = N.of_nat (length (s_data s)).
Proof. intros s N0. unfold s_getExpectedLength. rewrite (term_full _ N0). lia. Qed.
Lemma expected_pos : forall s, s_data s <> [] -> 0 < s_getExpectedLength s.
Proof. intros s H. unfold s_getExpectedLength. destruct (s_data s); [congruence|]. cbn [length]. lia. Qed.

(* Bytes without an end mark leave the text open *)
Lemma open_run : forall u a s, N.of_nat (length a) < N.of_nat (length (s_data s)) -> ~ In end_of_text a ->
  let s' := set_all u s (place 0 a) in
  s_encoding s' = s_encoding s /\ (exists r, s_data s' = a ++ r /\ (length a + length r = length (s_data s))%nat) /\
  (a <> [] -> s_sequential_length s' = N.of_nat (length a) /\ s_prev_pos s' + 1 = N.of_nat (length a)).
Proof.
  intros u a s. cbv zeta. induction a as [|b a IH] using rev_ind; intros L Na.
  { split; [reflexivity|]. split; [exists (s_data s); split; reflexivity|congruence]. }
  rewrite app_length in *. cbn [length] in *.
  assert (Na1 : ~ In end_of_text a) by (intros X; apply Na, in_or_app; auto). destruct (IH ltac:(lia) Na1) as (En & (r & D & Ln) & Sq).
  rewrite place_app. unfold set_all. rewrite fold_left_app. fold (set_all u s (place 0 a)). cbn [place fold_left fst snd]. rewrite N.add_0_l.
  remember (set_all u s (place 0 a)) as s1 eqn:E1. clear E1 IH. destruct r as [|x r]; [cbn [length] in Ln; lia|]. cbn [length] in Ln.
  rewrite set_eq by (rewrite D, app_length; cbn [length]; lia). rewrite Nat2N.id, D, set_mid. cbv zeta.
  replace ((N.of_nat (length a) =? 0) || ((N.of_nat (length a) =? s_prev_pos s1 + 1) && (s_sequential_length s1 =? N.of_nat (length a)))) with true.
  2: { destruct a as [|y a]; [reflexivity|]. destruct (Sq ltac:(discriminate)) as [-> ->]. rewrite !N.eqb_refl, orb_true_r. reflexivity. }
  set (s2 := mkRDSString _ _ _ (s_prev_pos s1) _ _).
  assert (X : s_isComplete s2 = false).
  { unfold s_isComplete, s_getReceivedLength. apply N.leb_gt. cbn [s2 s_sequential_length].
    assert (D2 : s_data s2 = (a ++ [b]) ++ r) by (cbn [s2 s_data]; rewrite <- app_assoc; reflexivity).
    pose proof (expected_open s2 (a ++ [b]) r D2 Na) as Y. rewrite app_length in Y. cbn [length] in Y. assert (Nr : r <> []) by (destruct r; [cbn [length] in *; lia|discriminate]). specialize (Y Nr). lia. }
  rewrite X. cbn [s2 s_encoding s_data s_sequential_length s_prev_pos]. split; [exact En|]. split; [exists r; rewrite <- app_assoc; split; [reflexivity|lia]|]. intros _. split; lia.
Qed.

(* After the end mark of a text that could be converted *)
Lemma rest_good : forall u r p s a text rest, s_encoding s = EncUCS2 -> s_data s = a ++ end_of_text :: rest -> ~ In end_of_text a -> N.of_nat (length a) + 1 <= s_sequential_length s ->
  s_last_complete_string s = text -> u (map visible (a ++ [end_of_text])) = Some text -> N.of_nat (length a) + 1 <= p ->
  s_sequential_length s <= p -> p + N.of_nat (length r) <= N.of_nat (length (s_data s)) ->
  let s' := set_all u s (place p r) in s_isComplete s' = true /\ s_last_complete_string s' = text.
Proof.
  intros u r. induction r as [|b r IH]; intros p s a text rest En D Na Sq Lc U P Sp Ln; cbv zeta.
  - cbn [place set_all fold_left]. split; [|exact Lc]. unfold s_isComplete, s_getReceivedLength. rewrite (expected_end s a rest D Na). apply N.leb_le. exact Sq.
  - cbn [place]. unfold set_all. cbn [fold_left fst snd]. cbn [length] in Ln. rewrite set_eq by lia. cbv zeta.
    assert (D' : exists rest', list_set (s_data s) (N.to_nat p) b = a ++ end_of_text :: rest').
    { rewrite D. replace (a ++ end_of_text :: rest) with ((a ++ [end_of_text]) ++ rest) by (rewrite <- app_assoc; reflexivity).
      assert (Q : forall (x y : list N) i, (length x <= i)%nat -> exists y', list_set (x ++ y) i b = x ++ y').
      { induction x as [|z x IHx]; intros y i Hi; [exists (list_set y i b); reflexivity|]. destruct i as [|i]; [cbn in Hi; lia|]. cbn [app list_set length] in *. destruct (IHx y i ltac:(lia)) as (y' & ->). exists y'. reflexivity. }
      destruct (Q (a ++ [end_of_text]) rest (N.to_nat p)) as (y' & ->); [rewrite app_length; cbn [length]; lia|]. exists y'. rewrite <- app_assoc. reflexivity. }
    destruct D' as (rest' & D'). rewrite D'.
    set (sq := if (p =? 0) || _ then _ else _).
    assert (Hs : N.of_nat (length a) + 1 <= sq /\ sq <= p + 1) by (unfold sq; destruct ((p =? 0) || ((p =? s_prev_pos s + 1) && (s_sequential_length s =? p))); lia).
    set (s1 := mkRDSString _ _ _ (s_prev_pos s) _ _).
    assert (C : s_isComplete s1 = true).
    { unfold s_isComplete, s_getReceivedLength. rewrite (expected_end s1 a rest' eq_refl Na). apply N.leb_le. cbn [s1 s_sequential_length]. lia. }
    assert (St : s_str u s1 = Some text).
    { unfold s_str. cbn [s1 s_encoding]. rewrite En. rewrite (complete_data s1 C). unfold shown_bytes. rewrite (expected_end s1 a rest' eq_refl Na). cbn [s1 s_data].
      replace (N.to_nat (N.of_nat (length a) + 1)) with (length (a ++ [end_of_text])) by (rewrite app_length; cbn [length]; lia).
      replace (a ++ end_of_text :: rest') with ((a ++ [end_of_text]) ++ rest') by (rewrite <- app_assoc; reflexivity). rewrite firstn_app, firstn_all, Nat.sub_diag. cbn [firstn]. rewrite app_nil_r. exact U. }
    rewrite C, St. cbn [s1 s_encoding s_direction s_data s_sequential_length].
    assert (Ln' : length (a ++ end_of_text :: rest') = length (s_data s)) by (rewrite <- D', list_set_length; reflexivity).
    apply (IH (p + 1) _ a text rest'); cbn [s_encoding s_data s_sequential_length s_last_complete_string]; try assumption; try reflexivity; try lia.
Qed.
(* After the end of a text that could not *)
Lemma rest_bad : forall u r p s, s_sequential_length s = 0 -> s_data s <> [] -> 1 <= p -> p + N.of_nat (length r) <= N.of_nat (length (s_data s)) ->
  s_isComplete (set_all u s (place p r)) = false.
Proof.
  assert (Q : forall s, s_sequential_length s = 0 -> s_data s <> [] -> s_isComplete s = false).
  { intros s Z Nd. unfold s_isComplete, s_getReceivedLength. rewrite Z. apply N.leb_gt, expected_pos, Nd. }
  intros u r. induction r as [|b r IH]; intros p s Z Nd P Ln; [apply Q; assumption|].
  cbn [place]. unfold set_all. cbn [fold_left fst snd]. cbn [length] in Ln. rewrite set_eq by lia. cbv zeta.
  replace ((p =? 0) || ((p =? s_prev_pos s + 1) && (s_sequential_length s =? p))) with false.
  2: { rewrite Z. destruct (N.eqb_spec p 0); [lia|]. destruct (N.eqb_spec 0 p); [lia|]. rewrite andb_false_r. reflexivity. }
  assert (Nd' : list_set (s_data s) (N.to_nat p) b <> []).
  { intros X. apply (f_equal (@length N)) in X. rewrite list_set_length in X. destruct (s_data s); [congruence|discriminate X]. }
  match goal with |- context [s_isComplete ?x] => lazymatch x with mkRDSString _ _ _ _ _ _ => rewrite (Q x) by assumption end end. apply IH; cbn [s_sequential_length s_data]; [exact Z|exact Nd'|lia|rewrite list_set_length; lia].
Qed.

Lemma complete_split : forall l n, In end_of_text l \/ length l = n -> (length l <= n)%nat -> (0 < n)%nat ->
  exists a b r, l = a ++ b :: r /\ ~ In end_of_text a /\ up_to_end l = a ++ [b] /\ (b = end_of_text \/ b <> end_of_text /\ r = [] /\ length l = n).
Proof.
  induction l as [|x l IH]; intros n C L Pn.
  - destruct C as [[]|C]. cbn in C. lia.
  - cbn [up_to_end length] in *. destruct (N.eqb_spec x end_of_text) as [->|Nx].
    + exists [], end_of_text, l. split; [reflexivity|]. split; [intros []|]. split; [reflexivity|left; reflexivity].
    + destruct l as [|y l].
      * exists [], x, []. split; [reflexivity|]. split; [intros []|]. split; [reflexivity|]. right. split; [exact Nx|]. split; [reflexivity|]. destruct C as [[C|[]]|C]; [congruence|exact C].
      * destruct n as [|n]; [lia|]. destruct (IH n) as (a & b & r & E & Na & U & K).
        -- destruct C as [[C|C]|C]; [congruence|left; exact C|right; lia].
        -- lia.
        -- cbn [length] in L. lia.
        -- exists (x :: a), b, r. rewrite E in *. split; [reflexivity|]. split; [intros [X|X]; [congruence|exact (Na X)]|]. split; [cbn [app]; f_equal; exact U|].
           destruct K as [K|(K1 & K2 & K3)]; [left; exact K|right]. split; [exact K1|]. split; [exact K2|lia].
Qed.

Lemma conv_run : forall u n s l, sized n s -> s_encoding s = EncUCS2 -> 0 < n -> N.of_nat (length l) <= n -> In end_of_text l \/ N.of_nat (length l) = n ->
  let s' := set_all u s (place 0 l) in
  match u (map visible (up_to_end l)) with
  | Some text => s_isComplete s' = true /\ s_last_complete_string s' = text
  | None => s_isComplete s' = false
  end.
Proof.
  intros u n s l [Sz _] En Pn Ln C s'.
  destruct (complete_split l (N.to_nat n)) as (a & b & r & E & Na & U & K); [destruct C as [C|C]; [left; exact C|right; lia]|lia|lia|].
  rewrite U. unfold s'. rewrite E. replace (a ++ b :: r) with ((a ++ [b]) ++ r) by (rewrite <- app_assoc; reflexivity). rewrite !place_app.
  assert (La : (length a + S (length r) = length l)%nat) by (rewrite E, app_length; reflexivity).
  unfold set_all. rewrite !fold_left_app. fold (set_all u s (place 0 a)). cbn [place fold_left fst snd]. rewrite !N.add_0_l.
  destruct (open_run u a s ltac:(lia) Na) as (En1 & (q & D & Lq) & Sq). remember (set_all u s (place 0 a)) as s1 eqn:E1. clear E1.
  destruct q as [|x q]; [cbn [length] in Lq; lia|]. cbn [length] in Lq.
  rewrite (set_eq u s1) by (rewrite D, app_length; cbn [length]; lia). rewrite Nat2N.id, D, set_mid. cbv zeta.
  replace ((N.of_nat (length a) =? 0) || ((N.of_nat (length a) =? s_prev_pos s1 + 1) && (s_sequential_length s1 =? N.of_nat (length a)))) with true.
  2: { destruct a as [|y a]; [reflexivity|]. destruct (Sq ltac:(discriminate)) as [-> ->]. rewrite !N.eqb_refl, orb_true_r. reflexivity. }
  set (s2 := mkRDSString _ _ _ (s_prev_pos s1) _ _).
  assert (Ex : s_getExpectedLength s2 = N.of_nat (length (a ++ [b]))).
  { rewrite app_length. cbn [length]. destruct K as [->|(Nb & -> & Kn)].
    - rewrite (expected_end s2 a q eq_refl Na). lia.
    - assert (q = []) as -> by (destruct q; [reflexivity|cbn [length] in *; lia]).
      rewrite expected_full; cbn [s2 s_data]; [rewrite app_length; cbn [length]; lia|]. intros X. apply in_app_or in X. destruct X as [X|[X|[]]]; [exact (Na X)|congruence]. }
  assert (C2 : s_isComplete s2 = true).
  { unfold s_isComplete, s_getReceivedLength. rewrite Ex, app_length. cbn [s2 s_sequential_length length]. apply N.leb_le. lia. }
  assert (St : s_str u s2 = u (map visible (a ++ [b]))).
  { unfold s_str. cbn [s2 s_encoding]. rewrite En1, En. rewrite (complete_data s2 C2). unfold shown_bytes. rewrite Ex, Nat2N.id. cbn [s2 s_data].
    replace (a ++ b :: q) with ((a ++ [b]) ++ q) by (rewrite <- app_assoc; reflexivity). rewrite firstn_app, firstn_all, Nat.sub_diag. cbn [firstn]. rewrite app_nil_r. reflexivity. }
  rewrite C2, St. destruct (u (map visible (a ++ [b]))) as [text|] eqn:Eu.
  - destruct K as [->|(_ & -> & _)].
    + apply (rest_good u r _ _ a text q); cbn [s2 s_encoding s_data s_sequential_length s_last_complete_string]; try assumption; try reflexivity; try congruence; rewrite ?app_length; cbn [length]; lia.
    + cbn [place fold_left]. split; [|reflexivity]. exact C2.
  - destruct K as [->|(_ & -> & _)].
    + apply rest_bad; cbn [s2 s_clear s_data s_sequential_length]; [reflexivity|destruct a; discriminate|rewrite app_length; cbn [length]; lia|rewrite !app_length; cbn [length]; lia].
    + cbn [place fold_left]. unfold s_isComplete, s_getReceivedLength. cbn [s_clear s_sequential_length]. apply N.leb_gt. apply expected_pos. cbn [s_clear s2 s_data]. destruct a; discriminate.
Qed.

Lemma ucs2_start : forall m s, in_ucs2 m -> s_encoding (start m s) = EncUCS2.
Proof. intros m s H. unfold start. cbn. rewrite getBool_testbit, H. reflexivity. Qed.

Lemma ucs_converted : forall env o w0 gs0 ga gb now g w c out p t m l earlier,
  host_ok env -> host_text env -> o_output_type o = OutJSON ->
  let gs := ga ++ gb ++ [(now, g, w)] in
  Forall received_group (gs0 ++ gs) -> p <> 0 -> three p (pis gs0) -> Forall (stays p) gs ->
  Forall (fun x => app_items (snd (fst x), snd x) <> [] \/ ert_segment t (snd (fst x), snd x) <> [] -> carried_pi x = Some p) gs ->
  In t for_applications -> in_ucs2 m -> let all := groups_of (gs0 ++ gs) in ert_only t m all -> ert_whole t all -> ert_short t all ->
  In (t, 0x6552) (flat_map announcement (groups_of ga)) ->
  ert_segment t (g, w) <> [] ->
  flat_map (ert_segment t) (groups_of (gb ++ [(now, g, w)])) = earlier ++ place 0 l ->
  In end_of_text l \/ length l = 64%nat ->
  run_groups env o (Channel_new o w0) (gs0 ++ gs) = Ok (c, out) ->
  exists out' line, out = out' ++ [Some line] /\
    match env_ucs2 env (map visible (up_to_end l)) with
    | Some text => is_utf8 text -> exists s, says line ["enhanced_radiotext"] (VStr s) /\ trimmed text s
    | None => forall v, ~ says line ["enhanced_radiotext"] v
    end.
Proof.
  intros env o w0 gs0 ga gb now g w c out p t m l earlier H HT OJ gs F Np T3 S P Ta U all O W Sh An Pl Sg Hl E.
  destruct (ert_received env o w0 gs0 ga gb now g w c out p t m l earlier H HT OJ F Np T3 S P Ta O W Sh An Pl Sg E) as (out' & ln & s0 & h & j & -> & Z0 & En0 & Fl & Ll & Pj & Ch & Nh & Ej).
  rewrite (ucs2_start m _ U) in En0. exists out', ln. split; [reflexivity|]. cbv zeta in Ej.
  assert (Hl' : In end_of_text l \/ N.of_nat (length l) = 64) by (destruct Hl as [Hl|Hl]; [left; exact Hl|right; rewrite Hl; reflexivity]).
  pose proof (conv_run (env_ucs2 env) 64 s0 l Z0 En0 ltac:(lia) Ll Hl') as Q. cbv zeta in Q.
  remember (set_all (env_ucs2 env) s0 (place 0 l)) as s' eqn:Es'. clear Es'.
  destruct (env_ucs2 env (map visible (up_to_end l))) as [text|].
  - destruct Q as [Cp Lc]. rewrite Cp in Ej. intros Ut. exists (rtrim text). split; [|apply rtrim_trimmed].
    assert (Cj : clean j).
    { rewrite Ej. apply put_clean; [exact Ch|reflexivity|]. unfold clean. cbn [json_utf8]. rewrite Lc. apply txt_rtrim. apply valid_is_utf8. exact Ut. }
    unfold says. rewrite (clean_shows env j ln H Cj Pj), Ej. cbn [jget]. rewrite find_put, Lc. reflexivity.
  - rewrite Q in Ej. intros v Sv. unfold says in Sv. assert (Cj : clean j) by (rewrite Ej; exact Ch).
    rewrite (clean_shows env j ln H Cj Pj), Ej, Nh in Sv. discriminate Sv.
Qed.

(* What becomes of the characters *)
Lemma visible_text_ucs : forall cs, map visible (ucs2_text cs) = ucs2_text (map misread cs).
Proof.
  assert (V : forall b, b < 256 -> visible b < 256) by (intros b B; unfold visible; destruct (_ || _); lia).
  induction cs as [|c cs IH]; [reflexivity|]. unfold ucs2_text in *. cbn [flat_map map]. rewrite map_app. cbn [map]. rewrite IH. f_equal. unfold misread.
  assert (M : c mod 256 < 256) by (apply N.mod_lt; lia). pose proof (V _ M) as B. f_equal; [|f_equal].
  - rewrite (N.mul_comm 256), N.div_add_l by lia. rewrite (N.div_small (visible (c mod 256))) by lia. lia.
  - rewrite (N.mul_comm 256), N.add_comm, N.mod_add by lia. rewrite (N.mod_small (visible (c mod 256))) by exact B. reflexivity.
Qed.
Lemma misread_char : forall c, ucs2_char c -> ucs2_char (misread c).
Proof.
  intros c [Sc Lc]. assert (M : c mod 256 < 256) by (apply N.mod_lt; lia). pose proof (N.div_mod c 256 ltac:(lia)) as Dm.
  assert (L : c / 256 < 256) by (apply N.div_lt_upper_bound; lia).
  assert (B : visible (c mod 256) < 256) by (unfold visible; destruct (_ || _); lia).
  unfold ucs2_char, misread. assert (X : visible (c / 256) = c / 256 \/ visible (c / 256) = 0x20) by (unfold visible; destruct (_ || _); auto).
  unfold scalar in *. destruct X as [->| ->]; [|split; [left|]; lia].
  remember (c / 256) as h. remember (c mod 256) as k. remember (visible k) as k'. clear - Sc Lc Dm L B M.
  destruct (N.ltb_spec h 0xD8) as [Y|Y]; [split; [left|]; lia|]. assert (0xE0 <= h) by (destruct Sc; lia). split; [right; split|]; lia.
Qed.
Lemma misread_whole : forall c, whole_char c -> misread c = c.
Proof.
  intros c [H L]. assert (V : forall b, ~ In b [0; end_of_text] -> visible b = b).
  { intros b N0. unfold visible. destruct (N.eqb_spec b 0) as [->|_]; [exfalso; apply N0; left; reflexivity|]. destruct (N.eqb_spec b end_of_text) as [->|_]; [exfalso; apply N0; right; left; reflexivity|]. reflexivity. }
  unfold misread. rewrite (V _ H), (V _ L). symmetry. apply N.div_mod. lia.
Qed.
Lemma up_to_none : forall l, ~ In end_of_text l -> up_to_end l = l.
Proof.
  induction l as [|b l IH]; intros H; [reflexivity|]. cbn [up_to_end]. destruct (N.eqb_spec b end_of_text) as [->|_]; [exfalso; apply H; left; reflexivity|].
  rewrite IH; [reflexivity|]. intros X. apply H. right. exact X.
Qed.
Lemma up_to_app : forall a r, ~ In end_of_text a -> up_to_end (a ++ end_of_text :: r) = a ++ [end_of_text].
Proof.
  induction a as [|b a IH]; intros r H; [reflexivity|]. cbn [app up_to_end]. destruct (N.eqb_spec b end_of_text) as [->|_]; [exfalso; apply H; left; reflexivity|].
  rewrite IH; [reflexivity|]. intros X. apply H. right. exact X.
Qed.
