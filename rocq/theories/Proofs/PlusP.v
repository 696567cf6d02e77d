(* RadioText Plus. *)
From Verif.Model Require Import Util Group Options Tables Json RdsString Tmc Station Channel.
From Verif.Spec Require Import Unicode JsonText Session Identity History Quality Texts Apps Plus.
From Verif.Proofs Require Import Tac Numerals JsonP Schema StationP TextP CleanP UpdateP SessionP LineP FrameP ChannelP LinesP HistoryP ShowP TraceP KeysP GetP FieldsP StringP PsP RtP EndP LpsP AfP AppsP TmcP.

Local Open Scope string_scope.
Local Open Scope N_scope.
Local Open Scope list_scope.

(* --- what the parts are --- *)
Lemma content_same : forall c, getRTPlusContentTypeString c = content_name c.
Proof.
  intros c. unfold getRTPlusContentTypeString, content_name. destruct (N.ltb_spec c 66), (N.leb_spec c 65); try lia; [|reflexivity].
  assert (S : forallb (fun c => bytes_eqb (tab content_type_names c) (bs (nth (N.to_nat c) content_names EmptyString))) (nseq 0 66) = true) by (vm_compute; reflexivity).
  rewrite forallb_forall in S. apply bytes_eqb_eq. exact (S c ltac:(apply nseq_In; lia)).
Qed.

(* --- characters in UTF-8 --- *)
Definition cont (y : N) : bool := N.land y 0xC0 =? 0x80.
Definition uchar (c : bytes) : bool := match c with x :: r => negb (cont x) && forallb cont r | [] => false end.
Lemma char_shapes : forallb (fun b => let c := utf8_encode (rds_char b) in uchar c && (negb (rds_char b <? 0x80) || (length c =? 1)%nat)) (nseq 0 256) = true.
Proof. vm_compute. reflexivity. Qed.
Definition chr (b : N) : bytes := utf8_encode (rds_char (visible b)).
Lemma chr_shape : forall b, b < 256 -> uchar (chr b) = true /\ (rds_char (visible b) < 0x80 -> length (chr b) = 1%nat).
Proof.
  intros b Hb. pose proof char_shapes as F. rewrite forallb_forall in F. specialize (F (visible b)). cbv zeta in F.
  assert (X : In (visible b) (nseq 0 256)) by (apply nseq_In; pose proof (visible_byte b Hb); lia). specialize (F X). apply andb_prop in F. destruct F as [F1 F2].
  split; [exact F1|]. intros L. apply N.ltb_lt in L. rewrite L in F2. cbn [negb orb] in F2. apply Nat.eqb_eq in F2. exact F2.
Qed.
Lemma text_chars : forall l, rds_text l = concat (map chr l).
Proof. intros l. unfold rds_text, utf8_text. rewrite flat_map_concat_map, map_map. reflexivity. Qed.

Lemma charlen_conts : forall r x s, forallb cont r = true -> cont x = false -> charlen (r ++ x :: s) = N.of_nat (length r) + 1.
Proof.
  intros r x s. induction r as [|y r IH]; intros F X; cbn [app charlen].
  - unfold cont in X. rewrite X. reflexivity.
  - cbn [forallb] in F. apply andb_prop in F. destruct F as [Fy F]. unfold cont in Fy. rewrite Fy, (IH F X). cbn [length]. destruct (N.eqb_spec (N.of_nat (length r) + 1) 0); lia.
Qed.

(* Where the program is after i characters: after the first byte of the last of them *)
Definition stop (cs : list bytes) (i : nat) : N := match i with O => 0 | S k => N.of_nat (length (concat (firstn k cs))) + 1 end.
Lemma uchar_cases : forall c, uchar c = true -> exists x r, c = x :: r /\ cont x = false /\ forallb cont r = true.
Proof. intros [|x r] H; [discriminate|]. cbn [uchar] in H. apply andb_prop in H. destruct H as [H1 H2]. apply negb_true_iff in H1. exists x, r. auto. Qed.
Lemma skip_app : forall (A : Type) (a b : list A) n, n = length a -> skipn n (a ++ b) = b.
Proof. intros A a b n ->. rewrite skipn_app, skipn_all, Nat.sub_diag. reflexivity. Qed.
Lemma split_at : forall (A : Type) (l : list A) i x, nth_error l i = Some x -> l = firstn i l ++ x :: skipn (S i) l.
Proof.
  intros A l. induction l as [|y l IH]; intros [|i] x E; try discriminate; cbn [nth_error firstn skipn app] in *; [congruence|]. rewrite <- (IH i x E). reflexivity.
Qed.
Lemma step_stop : forall cs i, forallb uchar cs = true -> (i < length cs)%nat ->
  exists n, charlen (skipn (N.to_nat (stop cs i)) (concat cs)) = n /\ 0 < n /\ stop cs i + n = stop cs (S i).
Proof.
  intros cs i F L. destruct (nth_error cs i) as [c|] eqn:E; [|apply nth_error_None in E; lia].
  pose proof (split_at _ _ _ _ E) as Sp. rewrite forallb_forall in F.
  destruct (uchar_cases c (F c (nth_error_In _ _ E))) as (x & r & -> & Hx & Hr).
  assert (Cc : concat cs = concat (firstn i cs) ++ x :: r ++ concat (skipn (S i) cs)).
  { rewrite Sp at 1. rewrite concat_app. cbn [concat app]. reflexivity. }
  destruct i as [|k].
  - exists 1. cbn [stop firstn concat app] in *. rewrite Cc. cbn [N.to_nat skipn length]. split; [|split; [lia|reflexivity]].
    exact (charlen_conts [] x _ eq_refl Hx).
  - destruct (nth_error cs k) as [d|] eqn:E2; [|apply nth_error_None in E2; lia].
    destruct (uchar_cases d (F d (nth_error_In _ _ E2))) as (y & q & -> & Hy & Hq).
    assert (Fk : firstn (S k) cs = firstn k cs ++ [y :: q]).
    { clear - E2. revert k E2. induction cs as [|z cs IH]; intros [|k] E; try discriminate; cbn [nth_error] in E; [injection E as ->; reflexivity|].
      rewrite !firstn_cons. cbn [app]. rewrite <- (IH k E). reflexivity. }
    assert (Cf : concat (firstn (S k) cs) = (concat (firstn k cs) ++ [y]) ++ q).
    { rewrite Fk, concat_app. cbn [concat]. rewrite app_nil_r, <- app_assoc. reflexivity. }
    exists (N.of_nat (length q) + 1). cbn [stop]. rewrite Cc, Cf. rewrite <- app_assoc. rewrite skip_app by (rewrite app_length; cbn [length]; lia).
    split; [apply charlen_conts; assumption|]. split; [lia|]. rewrite !app_length. cbn [length]. lia.
Qed.
Lemma advance_stop : forall cs, forallb uchar cs = true -> forall n i, (i + n <= length cs)%nat -> advance n (concat cs) (stop cs i) = Some (stop cs (i + n)).
Proof.
  intros cs F n. induction n as [|n IH]; intros i L; cbn [advance]; [rewrite Nat.add_0_r; reflexivity|].
  destruct (step_stop cs i F ltac:(lia)) as (k & E & P & St). rewrite E. destruct (N.eqb_spec k 0); [lia|]. rewrite St, IH by lia. f_equal. f_equal. lia.
Qed.
Lemma stop_clean : forall cs i, (i = 0 \/ exists c, nth_error cs (i - 1) = Some c /\ length c = 1)%nat -> stop cs i = N.of_nat (length (concat (firstn i cs))).
Proof.
  intros cs [|k] [X|(c & E & L)]; try discriminate X; try reflexivity.
  - cbn [Nat.sub] in E. rewrite Nat.sub_0_r in E. cbn [stop]. replace (firstn (S k) cs) with (firstn k cs ++ [c]).
    + rewrite concat_app, app_length. cbn [concat]. rewrite app_nil_r, L, Nat2N.inj_add. reflexivity.
    + clear - E. revert k E. induction cs as [|z cs IH]; intros [|k] E; try discriminate; cbn [nth_error] in E; [injection E as ->; reflexivity|].
      rewrite !firstn_cons. cbn [app]. rewrite <- (IH k E). reflexivity.
Qed.
Lemma concat_pos : forall cs, forallb uchar cs = true -> cs <> [] -> (0 < length (concat cs))%nat.
Proof. intros [|c cs] F N0; [contradiction|]. cbn [forallb] in F. apply andb_prop in F. destruct F as [F _]. destruct (uchar_cases c F) as (x & r & -> & _). cbn [concat app length]. lia. Qed.

Lemma skip_twice : forall (A : Type) a k (cs : list A), skipn k (skipn a cs) = skipn (a + k) cs.
Proof. intros A a k. induction a as [|a IH]; intros cs; [reflexivity|]. destruct cs; [destruct k; reflexivity|]. cbn [skipn Nat.add]. apply IH. Qed.

(* The substring cut out of a text *)
Lemma substring : forall s l st n, s_last_complete_string s = rds_text l -> Forall (fun b => b < 256) l -> 0 < n ->
  st + n < N.of_nat (length l) -> st = 0 \/ ascii_at l (st - 1) -> ascii_at l (st + n - 1) ->
  s_getLastCompleteSubstring s st n = rds_text (firstn (N.to_nat n) (skipn (N.to_nat st) l)).
Proof.
  intros s l st n El F Pn L A1 A2. unfold s_getLastCompleteSubstring. rewrite El, text_chars. set (cs := map chr l).
  assert (Fc : forallb uchar cs = true).
  { apply forallb_forall. intros c X. apply in_map_iff in X. destruct X as (b & <- & X). rewrite Forall_forall in F. apply (proj1 (chr_shape b (F b X))). }
  assert (Lc : length cs = length l) by apply map_length.
  assert (As : forall i, ascii_at l i -> exists c, nth_error cs (N.to_nat i) = Some c /\ length c = 1%nat).
  { intros i (b & X & Y). exists (chr b). unfold cs. split; [apply map_nth_error, X|]. rewrite Forall_forall in F. apply (proj2 (chr_shape b (F b (nth_error_In _ _ X)))), Y. }
  change 0 with (stop cs 0) at 1. rewrite advance_stop by (exact Fc || lia). rewrite advance_stop by (exact Fc || lia). cbn [Nat.add].
  rewrite !stop_clean.
  2: { destruct A1 as [->|A1]; [left; reflexivity|right]. replace (N.to_nat st - 1)%nat with (N.to_nat (st - 1)) by lia. apply As, A1. }
  2: { right. replace (N.to_nat st + N.to_nat n - 1)%nat with (N.to_nat (st + n - 1)) by lia. apply As, A2. }
  set (a := N.to_nat st). set (k := N.to_nat n).
  assert (Sp : cs = firstn a cs ++ firstn k (skipn a cs) ++ skipn (a + k) cs).
  { rewrite <- (firstn_skipn a cs) at 1. f_equal. rewrite <- (firstn_skipn k (skipn a cs)) at 1. f_equal. apply skip_twice. }
  assert (Sf : firstn (a + k) cs = firstn a cs ++ firstn k (skipn a cs)).
  { assert (Z : length (firstn a cs ++ firstn k (skipn a cs)) = (a + k)%nat) by (rewrite app_length, !firstn_length, skipn_length; unfold a, k; lia).
    rewrite Sp at 1. rewrite app_assoc, firstn_app, Z, Nat.sub_diag. cbn [firstn]. rewrite app_nil_r. rewrite <- Z. apply firstn_all. }
  assert (Cc : concat cs = concat (firstn a cs) ++ concat (firstn k (skipn a cs)) ++ concat (skipn (a + k) cs)) by (rewrite Sp at 1; rewrite !concat_app; reflexivity).
  assert (Ps : (0 < length (concat (skipn (a + k) cs)))%nat).
  { apply concat_pos; [|intros X; apply (f_equal (@length bytes)) in X; rewrite skipn_length in X; cbn [length] in X; unfold a, k in X; lia].
    rewrite forallb_forall in *. intros c X. apply Fc. rewrite Sp. apply in_or_app. right. apply in_or_app. right. exact X. }
  unfold bytes in *. rewrite Sf, concat_app. replace (N.of_nat _ <? N.of_nat _) with true.
  2: { symmetry. apply N.ltb_lt. rewrite Cc, !app_length. lia. }
  rewrite Cc at 1. rewrite skip_app by lia. rewrite app_length, firstn_app.
  replace (N.to_nat _) with (length (concat (firstn k (skipn a cs)))) by lia. rewrite Nat.sub_diag, firstn_all. cbn [firstn]. rewrite app_nil_r.
  unfold cs. rewrite text_chars. f_equal. rewrite skipn_map, firstn_map. reflexivity.
Qed.

Lemma nth_first : forall (X : list N) m j, nth_error (firstn m X) j = if (j <? m)%nat then nth_error X j else None.
Proof.
  intros X m. revert X. induction m as [|m IH]; intros X j; [destruct j; reflexivity|]. destruct X as [|x X].
  - rewrite firstn_nil. destruct j; destruct (_ <? _)%nat; reflexivity.
  - destruct j; [reflexivity|]. cbn [firstn nth_error]. rewrite IH. reflexivity.
Qed.

(* --- the text while it is repeated --- *)
Definition holds_text (n : N) (l : list N) (s : RDSString) : Prop :=
  sized n s /\ s_encoding s = EncBasic /\ firstn (length l) (s_data s) = l /\ s_last_complete_string s = rds_text l.
Lemma expected : forall n l s, sized n s -> firstn (length l) (s_data s) = l -> ended n l -> s_getExpectedLength s = N.of_nat (length l) /\ shown_bytes s = l.
Proof.
  intros n l s (Z & _) D E. assert (X : s_getExpectedLength s = N.of_nat (length l)).
  { unfold s_getExpectedLength. rewrite Z. assert (Ll : (length l <= length (s_data s))%nat) by (rewrite <- D at 1; rewrite firstn_length; lia).
    destruct E as [(t & -> & Nt)|[L Nt]].
    - rewrite <- (firstn_skipn (length (t ++ [end_of_text])) (s_data s)), D, <- app_assoc. cbn [app]. rewrite term_app by exact Nt. rewrite app_length in *. cbn [length] in *. lia.
    - replace (length l) with (length (s_data s)) in D by lia. rewrite firstn_all in D. rewrite D, term_full by exact Nt. lia. }
  split; [exact X|]. unfold shown_bytes. rewrite X, Nat2N.id. exact D.
Qed.
Lemma holds_set : forall u n l s p b, holds_text n l s -> ended n l -> 0 < n -> b < 256 -> agrees l (p, b) -> holds_text n l (s_set u s p b).
Proof.
  intros u n l s p b (Z & En & D & Lc) E Pn Hb A. pose proof (set_sized u n s p b Z Hb) as Z'.
  assert (D' : firstn (length l) (s_data (s_set u s p b)) = l).
  { rewrite (set_data u n s p b Z). destruct (N.ltb_spec p n) as [Lp|]; [|exact D]. destruct Z as (Zl & _).
    rewrite <- D at 2. clear - A D Lp Zl. cbn [agrees fst snd] in A. unfold agrees in A. cbn [fst snd] in A. remember (N.to_nat p) as i. remember (s_data s) as d.
    assert (Lr : forall j, nth_error (firstn (length l) (list_set d i b)) j = nth_error (firstn (length l) d) j).
    { intros j. assert (Nf : forall (X : list N) m, nth_error (firstn m X) j = if (j <? m)%nat then nth_error X j else None) by (intros X m; apply nth_first).
      rewrite !Nf. destruct (Nat.ltb_spec j (length l)) as [Hj|]; [|reflexivity]. rewrite list_set_nth. destruct (Nat.eqb_spec i j) as [<-|]; [|reflexivity].
      destruct (Nat.ltb_spec i (length d)); [|symmetry; apply nth_error_None; lia]. destruct A as [A|A]; [lia|].
      rewrite <- D in A. rewrite Nf in A. destruct (Nat.ltb_spec i (length l)); [symmetry; exact A|lia]. }
    assert (Ext : forall X Y : list N, (forall j, nth_error X j = nth_error Y j) -> X = Y).
    { clear. induction X as [|x X IH]; intros [|y Y] H; [reflexivity|specialize (H O); discriminate|specialize (H O); discriminate|].
      pose proof (H O) as H0. injection H0 as ->. f_equal. apply IH. intros j. exact (H (S j)). }
    apply Ext, Lr. }
  split; [exact Z'|]. split; [rewrite set_encoding; exact En|]. split; [exact D'|].
  destruct (N.ltb_spec p n) as [Lp|Lp].
  2: { unfold s_set. destruct Z as (Zl & _). rewrite Zl. destruct (N.leb_spec n p); [exact Lc|lia]. }
  destruct (s_isComplete (s_set u s p b)) eqn:C.
  - pose proof (set_last u n s p b (proj1 Z) Lp C Pn) as X. pose proof (complete_str u (s_set u s p b) (proj2 Z') C) as Y. rewrite set_encoding, En in Y.
    destruct (expected n l _ Z' D' E) as [_ Sb]. rewrite Sb in Y. congruence.
  - revert C. unfold s_set. destruct Z as (Zl & _). rewrite Zl. destruct (N.leb_spec n p); [lia|]. cbv zeta.
    match goal with |- context [if s_isComplete ?x then _ else _] => destruct (s_isComplete x) eqn:C1 end; [|intros _; exact Lc].
    match goal with |- context [match s_str u ?x with _ => _ end] => destruct (s_str u x) as [tx|] eqn:C2 end.
    + intros C. exfalso. unfold s_isComplete, s_getReceivedLength, s_getExpectedLength in C, C1. cbn [s_data s_sequential_length] in C, C1. congruence.
    + exfalso. unfold s_str in C2. cbn [s_encoding] in C2. rewrite En in C2. discriminate.
Qed.
Lemma holds_all : forall u n l ws s, holds_text n l s -> ended n l -> 0 < n -> Forall (fun pb => snd pb < 256) ws -> Forall (agrees l) ws -> holds_text n l (set_all u s ws).
Proof.
  intros u n l ws. induction ws as [|[p b] ws IH]; intros s H E Pn F A; [exact H|]. inversion F; subst. inversion A; subst. cbn [set_all fold_left fst snd] in *. apply IH; try assumption. apply holds_set; assumption.
Qed.
Lemma holds_first : forall u n s l, sized n s -> s_encoding s = EncBasic -> 0 < n -> Forall (fun b => b < 256) l -> N.of_nat (length l) <= n -> ended n l -> holds_text n l (set_all u s (place 0 l)).
Proof.
  intros u n s l Z En Pn F Ll E. assert (Nu : s_encoding s <> EncUCS2) by (rewrite En; discriminate).
  assert (Ne : l <> []) by (destruct E as [(t & -> & _)|[L _]]; [destruct t; discriminate|intros ->; cbn in L; lia]).
  destruct (set_run u n l s Z Nu Ll F Ne) as (_ & _ & D).
  pose proof (set_all_sized u n (place 0 l) s Z (place_byte l 0 F)) as Z'.
  split; [exact Z'|]. split; [rewrite set_all_encoding; exact En|]. split; [exact D|].
  destruct (expected n l _ Z' D E) as [_ Sb].
  assert (C : s_isComplete (set_all u s (place 0 l)) = true /\ s_str u (set_all u s (place 0 l)) = Some (s_last_complete_string (set_all u s (place 0 l)))).
  { destruct E as [(t & El & Nt)|[L Nt]].
    - destruct (run_bytes u n s l t [] Z Nu Pn F El Ll Nt) as (X & Y & _). split; assumption.
    - destruct (full_bytes u n s l Z Nu Pn F L Nt) as (X & Y & _). split; assumption. }
  destruct C as [C Y]. pose proof (complete_str u _ (proj2 Z') C) as X. rewrite set_all_encoding, En, Sb in X. congruence.
Qed.

(* --- what the program remembers of the last item --- *)
Definition bits_of_st (st : Station) : bool * bool := (plus_toggle (rt_plus (st_radiotext st)), plus_item_running (rt_plus (st_radiotext st))).
Definition bits_in (g : Group) : bool * bool := (getBool (g_get g BLOCK2) 4, getBool (g_get g BLOCK2) 3).

Lemma plus_decoded : forall env o st g st' j, decoded env o st g = Ok (st', j) -> plus_group st g ->
  exists rt, parseRadioTextPlus g (st_radiotext st) ["radiotext_plus"] (JObj (header env o st g)) = Ok (rt, j) /\ st' = set_radiotext (had st g) rt.
Proof.
  intros env o st g st' j D (Ht & Od & Ef). unfold decoded in D. rewrite Ht in D. rewrite (oda_dispatch _ _ _ _ _ _ Od (eq_trans (f_equal (find_type (g_type g)) (had_oda st g)) Ef)) in D.
  unfold decodeODAGroup in D. rewrite had_oda, Ef, had_rt in D. cbn [N.eqb Pos.eqb] in D.
  destruct (parseRadioTextPlus g (st_radiotext st) ["radiotext_plus"] (JObj (header env o st g))) as [[rt j2]| |] eqn:E2; cbn [bind] in D; try discriminate D.
  exists rt. split; congruence.
Qed.
Lemma plus_bits : forall g rt p j rt' j', parseRadioTextPlus g rt p j = Ok (rt', j') ->
  (plus_toggle (rt_plus rt'), plus_item_running (rt_plus rt')) = bits_in g /\
  (bits_in g = (plus_toggle (rt_plus rt), plus_item_running (rt_plus rt)) -> rt' = rt).
Proof.
  intros g rt p j rt' j' E. unfold parseRadioTextPlus in E. cbv zeta in E. do 4 unbind E. assert (Er : rt' = if negb (Bool.eqb (getBool (g_get g BLOCK2) 4) (plus_toggle (rt_plus rt))) || negb (Bool.eqb (getBool (g_get g BLOCK2) 3) (plus_item_running (rt_plus rt)))
    then rt_set_plus (rt_set_text rt (s_clear (rt_text rt))) (mkPlus (plus_exists (rt_plus rt)) (plus_cb (rt_plus rt)) (plus_scb (rt_plus rt)) (plus_template_num (rt_plus rt)) (getBool (g_get g BLOCK2) 4) (getBool (g_get g BLOCK2) 3)) else rt) by congruence.
  clear - Er. unfold bits_in. subst rt'. destruct (Bool.eqb_spec (getBool (g_get g BLOCK2) 4) (plus_toggle (rt_plus rt))) as [E1|E1]; destruct (Bool.eqb_spec (getBool (g_get g BLOCK2) 3) (plus_item_running (rt_plus rt))) as [E2|E2]; cbn [negb orb].
  all: split; [try reflexivity; congruence|intros X; try reflexivity; exfalso; congruence].
Qed.
Lemma bits_3A : forall s g x, keeps (fun sj : Station * json => bits_of_st (fst sj) = bits_of_st s) (decodeType3A s g x).
Proof.
  intros s g x. unfold decodeType3A. cbv zeta.
  repeat first
  [ match goal with |- keeps _ (Ok _) => apply keeps_ok; reflexivity end
  | match goal with |- keeps _ (bind ?m _) => eapply keeps_bind; [apply keeps_true|intros ? _] end
  | match goal with |- keeps _ (let '(_, _) := ?x in _) => destruct x end
  | match goal with |- keeps _ (if ?b then _ else _) => destruct b end
  | match goal with |- keeps _ (match ?b with _ => _ end) => destruct b end ].
Qed.
Lemma plus_else : forall env o st g st' j, decoded env o st g = Ok (st', j) -> ~ plus_group st g -> bits_of_st st' = bits_of_st st.
Proof.
  intros env o st g st' j D Np. pose proof (decoded_frame env o st g _ D) as Fr. cbn [fst] in Fr. destruct Fr as (_ & _ & _ & _ & Fp & _).
  assert (K : off (group_fields (had st g) g) Fplus -> bits_of_st st' = bits_of_st st).
  { intros X. unfold bits_of_st. rewrite Fp by (destruct (g_has_type g); [exact X|reflexivity]). rewrite had_rt. reflexivity. }
  destruct (g_has_type g) eqn:Ht.
  2: { unfold decoded in D. rewrite Ht in D. assert (st' = had st g) as -> by congruence. unfold bits_of_st. rewrite had_rt. reflexivity. }
  destruct (oda_type g) eqn:Od.
  { apply K. unfold off, group_fields. cbv zeta. rewrite Od, had_oda.
    repeat match goal with |- existsb _ (if ?b then _ else _) = _ => destruct b; [reflexivity|] end.
    destruct (find_type (g_type g) (st_oda_app_for_group st)) as [a|] eqn:Ef; [|repeat match goal with |- existsb _ (if ?b then _ else _) = _ => destruct b; [reflexivity|] end; reflexivity].
    unfold app_fields. destruct (N.eqb_spec a 0x4BD7) as [->|Na]; [exfalso; apply Np; split; [exact Ht|split; assumption]|].
    repeat match goal with |- existsb _ (if ?b then _ else _) = _ => destruct b; [reflexivity|] end. reflexivity. }
  destruct (gt_number (g_type g) =? 3) eqn:E3.
  2: { apply K. unfold off, group_fields. cbv zeta. rewrite Od, E3. repeat match goal with |- existsb _ (if ?b then _ else _) = _ => destruct b; [reflexivity|] end. reflexivity. }
  destruct (Version_eqb (gt_version (g_type g)) VC) eqn:Ev.
  { apply K. unfold off, group_fields. cbv zeta. rewrite Ev. reflexivity. }
  assert (Va : Version_eqb (gt_version (g_type g)) VA = true).
  { unfold oda_type in Od. cbv zeta in Od. apply N.eqb_eq in E3. rewrite E3, Ev in Od. destruct (gt_version (g_type g)); [reflexivity|discriminate Od|discriminate Ev]. }
  unfold decoded in D. rewrite Ht in D. unfold decodeByType in D. cbv zeta in D. apply N.eqb_eq in E3. rewrite Ev, E3, Va in D. cbn [N.eqb Pos.eqb andb] in D.
  assert (Hb : bits_of_st (had st g) = bits_of_st st) by (unfold bits_of_st; rewrite had_rt; reflexivity). rewrite <- Hb. revert D. generalize (had st g) as s, (JObj (header env o st g)) as x. clear. intros s x D.
  exact (bits_3A s g x _ D).
Qed.

Definition plus_now (h : list (Group * N)) (x : Group * N) : Prop :=
  app_group x = true /\ find_type (g_type (fst x)) (rev (flat_map announcement h)) = Some rtplus.
Lemma plus_now_of : forall h x, plus_now h x -> of_plus h x.
Proof. intros h x [A F]. split; [exact A|]. apply find_rev. exact F. Qed.
Lemma plus_group_now : forall o now c g w h st, received_group (now, g, w) -> oda_inv h st -> plus_group st (prepared o now c g w) <-> plus_now h (g, w).
Proof.
  intros o now c g w h st R I. unfold plus_group, plus_now, app_group. cbn [fst snd]. unfold oda_inv in I. rewrite I. split.
  - intros (Ht & Od & Fi). pose proof (find_rev _ _ _ Fi) as In0. destruct (announced_type _ _ _ In0) as [Sn Sv].
    assert (w = 0) as ->.
    { destruct (w =? 0) eqn:Ew; [lia|]. unfold oda_type in Od. rewrite prepared_type, Ew in Od. discriminate Od. }
    rewrite (all_types _ Sn Sv _ eq_refl) in Od. rewrite prepared_type in Od, Fi. rewrite prepared_has_type in Ht. cbn [N.eqb] in *. rewrite Ht, Od. split; [reflexivity|exact Fi].
  - intros [A Fi]. apply andb_prop in A. destruct A as [A1 A3]. apply andb_prop in A1. destruct A1 as [A1 A2]. apply N.eqb_eq in A1. subst w.
    rewrite prepared_type, prepared_has_type. cbn [N.eqb]. split; [rewrite A2; reflexivity|]. split; [|exact Fi]. apply for_apps. rewrite prepared_type. cbn [N.eqb]. apply for_apps_small. exact A3.
Qed.
Lemma bits_prepared : forall o now c g, bits_in (prepared o now c g 0) = item_bits g.
Proof. intros. unfold bits_in, item_bits. rewrite prepared_get, !getBool_testbit. reflexivity. Qed.

Lemma matters_cases : forall x, matters x = false -> app_group x = false /\ announcement x = [] /\ rt_segment x = [].
Proof.
  intros x H. unfold matters in H. apply orb_false_elim in H. destruct H as [H H3]. apply orb_false_elim in H. destruct H as [H1 H2].
  split; [exact H1|]. split; [destruct (announcement x); [reflexivity|discriminate H2]|destruct (rt_segment x); [reflexivity|discriminate H3]].
Qed.

Section Window.
  Variable u : bytes -> option bytes.
  Variable f : bool.
  Variable v : Version.
  Definition window (H : list (Group * N)) (st : Station) : Prop :=
    forall h1 x k, H = h1 ++ x :: k -> plus_now h1 x -> (forall y, In y k -> of_plus H y -> item_bits (fst y) = item_bits (fst x)) ->
      bits_of_st st = item_bits (fst x) /\
      (uniform f v (parts k) -> parts k <> [] -> exists s0, sized (rt_size v) s0 /\ s_encoding s0 = EncBasic /\ text_of st = set_all u s0 (part_writes (parts k)) /\ ab_of st = f).
  Definition pl (h : list (Group * N)) (st : Station) : Prop :=
    let H := filter matters h in
    Forall (fun x => received_group (0%Z, fst x, snd x)) H /\ oda_inv H st /\ s_encoding (text_of st) = EncBasic /\ (exists n, sized n (text_of st)) /\ window H st.

  Lemma pl_new : forall st, st_radiotext st = RadioText_default -> st_oda_app_for_group st = [] -> pl [] st.
  Proof.
    intros st E1 E2. destruct (any_new st E1 E2) as (A & B & C). split; [constructor|]. split; [exact A|]. split; [exact B|]. split; [exact C|].
    intros h1 x k E. destruct h1; discriminate E.
  Qed.
  Lemma pl_had : forall h st g, pl h st -> pl h (had st g).
  Proof.
    intros h st g (F & A & B & C & W). unfold pl. cbv zeta. split; [exact F|]. split; [apply oda_had; exact A|]. unfold window, text_of, ab_of, bits_of_st in *. rewrite had_rt. split; [exact B|]. split; [exact C|]. exact W.
  Qed.
End Window.
Lemma pl_step : forall env o f v h st now c g w st' j, pl (env_ucs2 env) f v h st -> st_ok st -> received_group (now, g, w) ->
  bler_ok (prepared o now c g w) -> decoded env o st (prepared o now c g w) = Ok (st', j) -> pl (env_ucs2 env) f v (h ++ [(g, w)]) st'.
Proof.
  intros env o f v h st now c g w st' j (Fr & Io & En & (n & Z) & W) So R B D. unfold pl. cbv zeta. rewrite filter_app. cbn [filter].
  pose proof (plus_group_now o now c g w (filter matters h) st R Io) as Pn.
  pose proof (rt_outcome env o st now c g w st' j En R B D) as Oc. cbv zeta in Oc. set (g' := prepared o now c g w) in *. set (H := filter matters h) in *.
  assert (AR : s_encoding (text_of st') = EncBasic /\ exists n, sized n (text_of st')).
  { destruct (any_step env o H st now c g w st' j (conj Io (conj En (ex_intro _ n Z))) So R B D) as (_ & X & Y). split; assumption. }
  destruct AR as [En' Z']. pose proof (oda_step env o H st now c g w st' j Io R D) as Io'.
  destruct (matters (g, w)) eqn:M.
  2: { destruct (matters_cases _ M) as (M1 & M2 & M3). rewrite app_nil_r. split; [exact Fr|].
       assert (Np : ~ plus_group st g') by (intros X; apply Pn in X; destruct X as [X _]; congruence).
       split; [unfold oda_inv in *; rewrite Io', flat_map_app; cbn [flat_map]; rewrite M2; cbn [app]; rewrite app_nil_r; reflexivity|]. split; [exact En'|]. split; [exact Z'|].
       destruct Oc as [(q & Sg & _)|(_ & Ab & _ & [Tx|X])]; [congruence| |contradiction].
       pose proof (plus_else env o st g' st' j D Np) as Eb.
       intros h1 x k E Px Sm. destruct (W h1 x k E Px Sm) as [W1 W2]. split; [congruence|]. intros U0 P0. destruct (W2 U0 P0) as (s0 & Y1 & Y2 & Y3 & Y4). exists s0. repeat split; try assumption; try apply Y1; congruence. }
  split; [apply Forall_app; split; [exact Fr|constructor; [exact R|constructor]]|]. split; [exact Io'|]. split; [exact En'|]. split; [exact Z'|].
  intros h1 x k E Px Sm. destruct (snoc_cases _ k) as [->|(k' & y & ->)].
  - change (h1 ++ [x]) with (h1 ++ [x]) in E. apply app_inj_tail in E. destruct E as [<- <-]. cbn [fst].
    apply Pn in Px. destruct (plus_decoded _ _ _ _ _ _ D Px) as (rt & Ep & ->). destruct (plus_bits _ _ _ _ _ _ Ep) as [Eb _].
    split; [|intros _ X; exfalso; apply X; reflexivity].
    assert (w = 0) as -> by (apply Pn in Px; destruct Px as [Px _]; unfold app_group in Px; cbn [fst snd] in Px; destruct (w =? 0) eqn:Ew; [lia|discriminate Px]).
    unfold g' in Eb. rewrite bits_prepared in Eb. exact Eb.
  - rewrite app_comm_cons, app_assoc in E. apply app_inj_tail in E. destruct E as [E <-].
    assert (Sm' : forall y, In y k' -> of_plus H y -> item_bits (fst y) = item_bits (fst x)).
    { intros y Y1 [Y2 Y3]. apply Sm; [apply in_or_app; left; exact Y1|]. split; [exact Y2|]. rewrite flat_map_app. apply in_or_app. left. exact Y3. }
    destruct (W h1 x k' E Px Sm') as [W1 W2].
    assert (Pk : parts (k' ++ [(g, w)]) = parts k' ++ rt_segment (g, w)) by (unfold parts; rewrite flat_map_app; cbn [flat_map]; rewrite app_nil_r; reflexivity).
    destruct Oc as [(q & Sg & Pq & Tx & Ab)|(Sg & Ab & _ & Cs)].
    + assert (Np : ~ plus_group st g').
      { intros X. apply Pn in X. destruct X as [X _]. unfold app_group in X. cbn [fst snd] in X. apply andb_prop in X. destruct X as [_ X].
        unfold rt_segment in Sg. destruct (carries 2 g w) eqn:Cr; [|discriminate Sg]. unfold carries in Cr. repeat (apply andb_prop in Cr; destruct Cr as [Cr ?]).
        apply for_apps_small in X. apply N.eqb_eq in H3. destruct (g_type g) as [gn gv]. cbn [gt_number] in H3. subst gn. repeat (destruct X as [X|X]; [discriminate X|]). destruct X. }
      split; [rewrite (plus_else env o st g' st' j D Np); exact W1|]. rewrite Pk, Sg. intros Un Ne. apply Forall_app in Un. destruct Un as [Un1 Un2]. inversion Un2 as [|? ? [Qf Qv] _]; subst.
      rewrite part_writes_app. change (part_writes [q]) with (place (p_pos q) (p_chars q) ++ []). rewrite app_nil_r.
      destruct (parts k') as [|q1 r] eqn:Ek.
      * exists (s_resize (if Bool.eqb (ab_of st) (p_flag q) then text_of st else s_clear (text_of st)) (rt_size (p_version q))).
        split; [apply (resize_sized n); destruct (Bool.eqb _ _); [exact Z|apply clear_sized; exact Z]|].
        split; [destruct (Bool.eqb _ _); exact En|]. split; [exact Tx|exact Ab].
      * destruct (W2 Un1 ltac:(discriminate)) as (s0 & Z0 & E0 & T0 & A0). exists s0. split; [exact Z0|]. split; [exact E0|]. split; [|exact Ab].
        rewrite Tx, set_all_app. unfold rt_put. rewrite A0, Bool.eqb_reflx, T0. f_equal. apply (resize_same (rt_size (p_version q))).
        apply set_all_sized; [exact Z0|]. rewrite <- Ek. apply part_writes_byte, parts_ok. rewrite E in Fr. apply Forall_app in Fr. destruct Fr as [_ Fr]. inversion Fr; assumption.
    + rewrite Pk, Sg, app_nil_r.
      assert (Same : bits_of_st st' = bits_of_st st /\ text_of st' = text_of st).
      { destruct (find_type (g_type g') (st_oda_app_for_group st)) as [a|] eqn:Ef.
        - destruct (N.eq_dec a 0x4BD7) as [->|Na].
          + destruct (g_has_type g') eqn:Ht'; [destruct (oda_type g') eqn:Od'|].
            * assert (X : plus_group st g') by (split; [exact Ht'|split; assumption]). destruct (plus_decoded _ _ _ _ _ _ D X) as (rt & Ep & Es). destruct (plus_bits _ _ _ _ _ _ Ep) as [Eb Ek].
              assert (Ew : w = 0) by (apply Pn in X; destruct X as [X _]; unfold app_group in X; cbn [fst snd] in X; destruct (w =? 0) eqn:Ew; [lia|discriminate X]).
              assert (Bq : bits_in g' = bits_of_st st).
              { unfold g'. rewrite Ew, bits_prepared, W1. apply (Sm (g, w)); [apply in_or_app; right; left; reflexivity|].
                apply Pn in X. apply plus_now_of in X. destruct X as [X1 X2]. split; [exact X1|]. rewrite flat_map_app. apply in_or_app. left. exact X2. }
              specialize (Ek Bq). subst rt. rewrite Es. split; reflexivity.
            * assert (Np : ~ plus_group st g') by (intros (X1 & X2 & X3); congruence). split; [exact (plus_else env o st g' st' j D Np)|destruct Cs; [assumption|contradiction]].
            * assert (Np : ~ plus_group st g') by (intros (X1 & X2 & X3); congruence). split; [exact (plus_else env o st g' st' j D Np)|destruct Cs; [assumption|contradiction]].
          + assert (Np : ~ plus_group st g') by (intros (X1 & X2 & X3); congruence). split; [exact (plus_else env o st g' st' j D Np)|destruct Cs; [assumption|contradiction]].
        - assert (Np : ~ plus_group st g') by (intros (X1 & X2 & X3); congruence). split; [exact (plus_else env o st g' st' j D Np)|destruct Cs; [assumption|contradiction]]. }
      destruct Same as [S1 S2]. split; [congruence|]. intros Un Ne. destruct (W2 Un Ne) as (s0 & Z0 & E0 & T0 & A0). exists s0. split; [exact Z0|]. split; [exact E0|]. split; congruence.
Qed.

(* --- the tags of a group --- *)
Lemma tag_bits : forall b2 b3 b4 bits t1 t2, b2 < 65536 -> tags_ok t1 t2 -> (b2 mod 32, b3, b4) = tag_words bits t1 t2 ->
  getBits2 6 b2 b3 13 = content t1 /\ getBits 6 b3 7 = start t1 /\ getBits 6 b3 1 + 1 = chars t1 /\
  getBits2 6 b3 b4 11 = content t2 /\ getBits 6 b4 5 = start t2 /\ getBits 5 b4 0 + 1 = chars t2.
Proof.
  intros b2 b3 b4 bits [c1 s1 n1] [c2 s2 n2] H2 T E. unfold tags_ok, tag_words in *. cbn [content start chars] in *. destruct T as (T1 & T2 & T3 & T4 & T5 & T6).
  assert (E2 : b2 mod 32 = 16 * N.b2n (fst bits) + 8 * N.b2n (snd bits) + c1 / 8) by congruence.
  assert (E3 : b3 = 8192 * (c1 mod 8) + 128 * s1 + 2 * (n1 - 1) + c2 / 32) by congruence.
  assert (E4 : b4 = 2048 * (c2 mod 32) + 32 * s2 + (n2 - 1)) by congruence. clear E. assert (H3 : b3 < 65536) by lia. assert (H4 : b4 < 65536) by lia.
  rewrite !getBits2_arith, !getBits_arith by assumption. change (2 ^ 16) with 65536. change (2 ^ 13) with 8192. change (2 ^ 6) with 64. change (2 ^ 7) with 128. change (2 ^ 1) with 2. change (2 ^ 11) with 2048. change (2 ^ 5) with 32. change (2 ^ 0) with 1.
  assert (Q : exists q r, b2 = 32 * q + 8 * r + c1 / 8 /\ r < 4).
  { exists (b2 / 32), (2 * N.b2n (fst bits) + N.b2n (snd bits)). destruct (fst bits), (snd bits); cbn [N.b2n] in *; split; lia. }
  destruct Q as (q & r & Q & _). subst b2 b3 b4. clear E2 H2 H3 H4. repeat split; lia.
Qed.

Definition entry (l : list N) (t : Tag) : json :=
  JObj [("content-type", JStr (getRTPlusContentTypeString (content t))); ("data", JStr (rtrim (rds_text (tagged l t))))].
Definition entries (l : list N) (t : Tag) : list json := if real t then [entry l t] else [].
Lemma tag_shown : forall rt p l t j, s_last_complete_string (rt_text rt) = rds_text l -> Forall (fun b => b < 256) l -> 0 < chars t -> (real t = true -> fits l t) ->
  rtplus_tag rt p (content t) (start t) (chars t) j = jpush_all (p ++ ["tags"]) (entries l t) j.
Proof.
  intros rt p l t j El F Pc Ft. unfold rtplus_tag, entries, real in *. destruct (content t =? 0) eqn:E0; cbn [negb] in *.
  - destruct (s_getLastCompleteSubstring _ _ _); reflexivity.
  - destruct (Ft eq_refl) as (L & A1 & A2). rewrite (substring _ l _ _ El F Pc L A1 A2). fold (tagged l t).
    assert (Ne : (0 < length (rds_text (tagged l t)))%nat).
    { rewrite text_chars. apply concat_pos.
      - apply forallb_forall. intros c X. apply in_map_iff in X. destruct X as (b & <- & X). rewrite Forall_forall in F. refine (proj1 (chr_shape b (F b _))).
        unfold tagged in X. rewrite <- (firstn_skipn (N.to_nat (start t)) l). apply in_or_app. right. rewrite <- (firstn_skipn (N.to_nat (chars t)) (skipn _ l)). apply in_or_app. left. exact X.
      - intros X. apply (f_equal (@length bytes)) in X. unfold tagged in X. rewrite map_length, firstn_length, skipn_length in X. cbn [length] in X. lia. }
    destruct (rds_text (tagged l t)) as [|x r] eqn:Er; [cbn [length] in Ne; lia|]. rewrite <- Er. cbn [jpush_all]. unfold entry. destruct (jpush _ _ j); reflexivity.
Qed.
Lemma txt_rds : forall l, Forall (fun b => b < 256) l -> txt (rds_text l).
Proof. intros l F. rewrite <- visible_text by exact F. apply txt_chars. Qed.
Lemma entry_clean : forall l t, Forall (fun b => b < 256) l -> Forall clean (entries l t).
Proof.
  intros l t F. unfold entries. destruct (real t); [|constructor]. constructor; [|constructor]. unfold entry. apply clean_obj. repeat constructor.
  - apply txt_content.
  - apply txt_rtrim, txt_rds. rewrite Forall_forall in *. intros b X. apply F. unfold tagged in X. rewrite <- (firstn_skipn (N.to_nat (start t)) l). apply in_or_app. right. rewrite <- (firstn_skipn (N.to_nat (chars t)) (skipn _ l)). apply in_or_app. left. exact X.
Qed.
Lemma two_tags : forall g rt hdr rt' j l t1 t2 bits, parseRadioTextPlus g rt ["radiotext_plus"] (JObj hdr) = Ok (rt', j) ->
  clean (JObj hdr) -> obj_find "radiotext_plus" hdr = None -> g_get g BLOCK2 < 65536 -> (g_get g BLOCK2 mod 32, g_get g BLOCK3, g_get g BLOCK4) = tag_words bits t1 t2 -> tags_ok t1 t2 ->
  bits_in g = (plus_toggle (rt_plus rt), plus_item_running (rt_plus rt)) -> g_has g BLOCK3 = true -> g_has g BLOCK4 = true ->
  s_last_complete_string (rt_text rt) = rds_text l -> Forall (fun b => b < 256) l -> (real t1 = true -> fits l t1) -> (real t2 = true -> fits l t2) ->
  clean j /\ jget ["radiotext_plus"; "tags"] j = (match entries l t1 ++ entries l t2 with [] => None | e => Some (JArr e) end) /\
  jget ["radiotext_plus"; "item_running"] j = Some (JBool (snd (bits_in g))) /\ jget ["radiotext_plus"; "item_toggle"] j = Some (JN (N.b2n (fst (bits_in g)))).
Proof.
  intros g rt hdr rt' j l t1 t2 bits E C No H2 Tw Tok Bi H3 H4 El F F1 F2. unfold parseRadioTextPlus in E. cbv zeta in E.
  destruct (tag_bits _ _ _ _ _ _ H2 Tok Tw) as (-> & -> & -> & -> & -> & ->) in E. rewrite H3, H4 in E. cbn [andb] in E.
  assert (Bq : negb (Bool.eqb (getBool (g_get g BLOCK2) 4) (plus_toggle (rt_plus rt))) || negb (Bool.eqb (getBool (g_get g BLOCK2) 3) (plus_item_running (rt_plus rt))) = false).
  { unfold bits_in in Bi. assert (X1 : getBool (g_get g BLOCK2) 4 = plus_toggle (rt_plus rt)) by congruence. assert (X2 : getBool (g_get g BLOCK2) 3 = plus_item_running (rt_plus rt)) by congruence. rewrite X1, X2, !Bool.eqb_reflx. reflexivity. }
  rewrite Bq in E. destruct Tok as (_ & _ & P1 & _ & _ & P2). 
  do 2 unbind E. rewrite (tag_shown rt _ l t1) in E by (assumption || lia). destruct (jpush_all (["radiotext_plus"] ++ ["tags"]) (entries l t1) y0) as [y1| |] eqn:B1; cbn [bind] in E; try discriminate E. rewrite (tag_shown rt _ l t2) in E by (assumption || lia). unbind E.
  assert (y2 = j) as -> by congruence. clear E. cbn [app] in *.
  assert (Kt : forall a b, txt (bs a) -> txt (bs b) -> keys_txt [a; b]) by (intros; repeat constructor; assumption).
  assert (C0 : clean y) by (refine (jset_clean _ _ _ C _ _ _ B); [apply Kt; reflexivity|reflexivity]).
  assert (C1 : clean y0) by (refine (jset_clean _ _ _ C0 _ _ _ B0); [apply Kt; reflexivity|reflexivity]).
  assert (C2 : clean y1) by (refine (jpush_all_clean _ _ _ C1 _ (entry_clean l t1 F) _ B1); apply Kt; reflexivity).
  assert (C3 : clean j) by (refine (jpush_all_clean _ _ _ C2 _ (entry_clean l t2 F) _ B2); apply Kt; reflexivity).
  split; [exact C3|]. split; [|split].
  - assert (N0 : jget ["radiotext_plus"; "tags"] y0 = None).
    { erewrite jset_other; [|exact B0|reflexivity]. erewrite jset_other; [|exact B|reflexivity]. cbn [jget]. rewrite No. reflexivity. }
    pose proof (push_absent _ _ _ _ B1 N0) as Q1. unfold entries in *. destruct (real t1).
    + rewrite (push_same _ _ _ [entry l t1] _ B2); [|rewrite Q1; reflexivity]. rewrite Q1. destruct (real t2); reflexivity.
    + rewrite (push_absent _ _ _ _ B2 Q1). destruct (real t2); reflexivity.
  - erewrite push_other; [|exact B2|reflexivity]. erewrite push_other; [|exact B1|reflexivity]. erewrite jset_other; [|exact B0|reflexivity]. rewrite (jset_same _ _ _ _ B). reflexivity.
  - erewrite push_other; [|exact B2|reflexivity]. erewrite push_other; [|exact B1|reflexivity]. rewrite (jset_same _ _ _ _ B0). unfold bits_in. cbn [fst]. destruct (getBool (g_get g BLOCK2) 4); reflexivity.
Qed.

Lemma filter_flat : forall (A : Type) (f : Group * N -> list A) l, (forall x, matters x = false -> f x = []) -> flat_map f (filter matters l) = flat_map f l.
Proof.
  intros A f l Hf. induction l as [|x l IH]; [reflexivity|]. cbn [filter flat_map]. destruct (matters x) eqn:M; [cbn [flat_map]; rewrite IH; reflexivity|]. rewrite (Hf x M), IH. reflexivity.
Qed.
Lemma filter_ann : forall l, flat_map announcement (filter matters l) = flat_map announcement l.
Proof. intros l. apply filter_flat. intros x M. apply (matters_cases x M). Qed.
Lemma filter_parts : forall l, parts (filter matters l) = parts l.
Proof. intros l. apply filter_flat. intros x M. apply (matters_cases x M). Qed.
Lemma pick_filter : forall l, flat_map (fun x => if matters x then [x] else []) l = filter matters l.
Proof. induction l as [|x l IH]; [reflexivity|]. cbn [flat_map filter]. rewrite IH. destruct (matters x); reflexivity. Qed.

Section Tags.
  Variable env : Env.
  Variable o : Options.
  Hypothesis H : host_ok env.
  Hypothesis HT : host_text env.
  Hypothesis OJ : o_output_type o = OutJSON.

  Lemma tags_shown : forall w0 gs0 ga now1 g1 gb now g c out p f v l ws t1 t2,
    let gs := (ga ++ (now1, g1, 0) :: gb) ++ [(now, g, 0)] in
    Forall received_group (gs0 ++ gs) -> p <> 0 -> three p (pis gs0) -> Forall (stays p) gs ->
    Forall (fun x => matters (snd (fst x), snd x) = true -> carried_pi x = Some p) gs ->
    app_group (g1, 0) = true -> assigned_last (g_type g1) (flat_map announcement (groups_of ga)) rtplus ->
    app_group (g, 0) = true -> assigned_last (g_type g) (flat_map announcement (groups_of gs)) rtplus ->
    (forall x, In x (groups_of gb ++ [(g, 0)]) -> of_plus (groups_of (gs0 ++ gs)) x -> item_bits (fst x) = item_bits g1) ->
    uniform f v (flat_map rt_segment (groups_of gb)) -> part_writes (flat_map rt_segment (groups_of gb)) = place 0 l ++ ws -> Forall (agrees l) ws -> ended (rt_size v) l ->
    blk_is_received (g_b3 g) = true -> blk_is_received (g_b4 g) = true -> (blk_data (g_b2 g) mod 32, blk_data (g_b3 g), blk_data (g_b4 g)) = tag_words (item_bits g1) t1 t2 -> tags_ok t1 t2 ->
    (real t1 = true -> fits l t1) -> (real t2 = true -> fits l t2) ->
    run_groups env o (Channel_new o w0) (gs0 ++ gs) = Ok (c, out) ->
    exists out' line, out = out' ++ [Some line] /\
      line_at ["radiotext_plus"; "tags"] line = (match entries l t1 ++ entries l t2 with [] => None | e => Some (VArr (map (value_of (env_float env)) e)) end) /\
      says line ["radiotext_plus"; "item_running"] (VBool (snd (item_bits g1))) /\ says line ["radiotext_plus"; "item_toggle"] (VNum (dec_string (N.b2n (fst (item_bits g1))))).
  Proof.
    intros w0 gs0 ga now1 g1 gb now g c out p f v l ws t1 t2 gs F Np T3 S P A1 L1 A L Sm Un Wr Ag En R3 R4 Tw Tok F1 F2 E.
    assert (Pg : carried_pi (now, g, 0) = Some p).
    { unfold gs in P. apply Forall_app in P. destruct P as [_ P]. inversion P as [|? ? X _]; subst. apply X. unfold matters. cbn [fst snd]. rewrite A. reflexivity. }
    destruct (last_shown (pl (env_ucs2 env) f v) env o H HT OJ (fun w => pl_new _ f v (Station_new w) eq_refl eq_refl) (fun w p => pl_new _ f v (Station_new_pi w p) eq_refl eq_refl) (pl_had _ f v)
      (fun h st now c g w st' j => pl_step env o f v h st now c g w st' j) w0 gs0 (ga ++ (now1, g1, 0) :: gb) now g 0 c out p F Np T3 S Pg E)
      as (old & h0 & out0 & out1 & ln & c1 & st & j & D0 & -> & Ln0 & Ln1 & I & So & B & _ & Dd & _ & Pj & Ad).
    exists (out0 ++ out1), ln. split; [apply app_assoc|]. set (g' := prepared o now c1 g 0) in *.
    assert (R : received_group (now, g, 0)) by (apply Forall_app in F; destruct F as [_ F']; apply Forall_app in F'; destruct F' as [_ F']; inversion F'; assumption).
    assert (Mg : matters (g, 0) = true) by (unfold matters; rewrite A; reflexivity).
    assert (Mg1 : matters (g1, 0) = true) by (unfold matters; rewrite A1; reflexivity).
    assert (Fd : filter matters (decoded_in (ga ++ (now1, g1, 0) :: gb) out1) = filter matters (groups_of ga) ++ (g1, 0) :: filter matters (groups_of gb)).
    { specialize (Ad _ (fun x => if matters x then [x] else [])). rewrite !pick_filter in Ad. unfold gs in Ad.
      rewrite (decoded_in_app _ [(now, g, 0)] out1 [Some ln] Ln1) in Ad. change (decoded_in [(now, g, 0)] [Some ln]) with [(g, 0)] in Ad.
      unfold groups_of in Ad. rewrite !map_app, !filter_app in Ad. cbn [map fst snd filter] in Ad. rewrite Mg, Mg1 in Ad.
      apply app_inv_tail in Ad; [exact Ad|]. unfold gs in P. rewrite Forall_forall in P |- *. intros x X Y. apply (P x X). change (matters (grp x) = true). destruct (matters (grp x)); [reflexivity|exfalso; apply Y; reflexivity]. }
    destruct I as (Fr & Io & _ & _ & W). cbv zeta in Fr, Io, W. rewrite filter_app, Fd in Fr, Io, W. rewrite app_assoc in Fr, Io, W. set (h1 := filter matters h0 ++ filter matters (groups_of ga)) in *.
    assert (Sub0 : forall x, In x h0 -> In x (groups_of gs0)) by (intros x X; apply (decoded_sub gs0 out0); rewrite D0; apply in_or_app; right; exact X).
    assert (Gs : groups_of (gs0 ++ gs) = groups_of gs0 ++ (groups_of ga ++ (g1, 0) :: groups_of gb) ++ [(g, 0)]) by (unfold groups_of, gs; rewrite !map_app; reflexivity).
    assert (Sub : forall x, In x (h1 ++ (g1, 0) :: filter matters (groups_of gb)) -> In x (groups_of (gs0 ++ gs))).
    { intros x X. rewrite Gs. unfold h1 in X. rewrite <- app_assoc in X. apply in_app_or in X. apply in_or_app. destruct X as [X|X]; [left; apply filter_In in X; apply Sub0, X|right].
      apply in_or_app. left. apply in_app_or in X. apply in_or_app. destruct X as [X|X]; [left; apply filter_In in X; apply X|right]. destruct X as [X|X]; [left; exact X|right; apply filter_In in X; apply X]. }
    assert (Ofs : forall x, of_plus (h1 ++ (g1, 0) :: filter matters (groups_of gb)) x -> of_plus (groups_of (gs0 ++ gs)) x).
    { intros x [X1 X2]. split; [exact X1|]. apply in_flat_map in X2. destruct X2 as (y & Y1 & Y2). apply in_flat_map. exists y. split; [apply Sub, Y1|exact Y2]. }
    assert (N1 : plus_now h1 (g1, 0)).
    { split; [exact A1|]. cbn [fst]. unfold h1. rewrite flat_map_app, !filter_ann. apply find_last. exact L1. }
    destruct (W h1 (g1, 0) (filter matters (groups_of gb)) eq_refl N1) as [Bs Tx].
    { intros y Y1 Y2. cbn [fst]. apply Sm; [|apply Ofs, Y2]. apply in_or_app. left. apply filter_In in Y1. apply Y1. }
    cbn [fst] in Bs. rewrite filter_parts in Tx. unfold parts in Tx.
    assert (Lne : l <> []) by (destruct En as [(t & -> & _)|[X _]]; [destruct t; discriminate|intros ->; cbn in X; pose proof (rt_size_pos v); lia]).
    destruct (Tx Un) as (s0 & Z0 & E0 & T0 & _).
    { intros X. rewrite X in Wr. destruct l; [contradiction|discriminate Wr]. }
    rewrite Wr in T0. rewrite set_all_app in T0.
    assert (Pok : Forall part_ok (flat_map rt_segment (groups_of gb))).
    { change (Forall part_ok (parts (groups_of gb))). rewrite <- (filter_parts (groups_of gb)). apply parts_ok. apply Forall_app in Fr. destruct Fr as [_ Fr]. inversion Fr; assumption. }
    assert (Wok : Forall (fun pb => fst pb < rt_size v /\ snd pb < 256) (place 0 l ++ ws)).
    { rewrite <- Wr. unfold part_writes. apply Forall_flat_map. pose proof (both _ _ _ _ Pok Un) as X. eapply Forall_impl; [|exact X]. intros q (Pk & _ & <-). exact (part_place q Pk). }
    apply Forall_app in Wok. destruct Wok as [Wok Wws].
    assert (Fl : Forall (fun b => b < 256) l).
    { clear - Wok. revert Wok. generalize 0. induction l as [|b l IH]; intros i W; [constructor|]. cbn [place] in W. inversion W; subst. constructor; [tauto|]. eapply IH; eassumption. }
    assert (Ll : N.of_nat (length l) <= rt_size v).
    { clear - Wok. destruct (snoc_cases _ l) as [->|(a & x & ->)]; [cbn; lia|]. rewrite place_app in Wok. apply Forall_app in Wok. destruct Wok as [_ W]. cbn [place] in W. inversion W as [|? ? [X _] _]; subst. cbn [fst] in X. rewrite app_length. cbn [length]. lia. }
    assert (Hd : holds_text (rt_size v) l (text_of st)).
    { rewrite T0. apply holds_all; [apply holds_first; try assumption; apply rt_size_pos|exact En|apply rt_size_pos|eapply Forall_impl; [|exact Wws]; intros ? [_ X]; exact X|exact Ag]. }
    destruct Hd as (_ & _ & _ & Lc).
    (* the last group *)
    assert (N2 : plus_now (h1 ++ (g1, 0) :: filter matters (groups_of gb)) (g, 0)).
    { split; [exact A|]. cbn [fst].
      assert (An : announcement (g, 0) = []).
      { unfold app_group in A. cbn [fst snd] in A. apply andb_prop in A. destruct A as [_ A']. apply for_apps_small in A'. unfold announcement, carries. revert A'. clear. intros Fa. repeat (destruct Fa as [<-|Fa]; [cbn [gt_number gt_version]; rewrite ?andb_false_r; try reflexivity; destruct (_ && _); reflexivity|]). destruct Fa. }
      assert (Ea : flat_map announcement (groups_of gs) = flat_map announcement (groups_of ga ++ (g1, 0) :: groups_of gb)).
      { unfold gs, groups_of. rewrite !map_app. cbn [map fst snd]. rewrite flat_map_app. cbn [flat_map]. rewrite An, !app_nil_r. reflexivity. }
      rewrite Ea in L. unfold h1. rewrite <- app_assoc, flat_map_app, filter_ann.
      replace (flat_map announcement (filter matters (groups_of ga) ++ (g1, 0) :: filter matters (groups_of gb))) with (flat_map announcement (groups_of ga ++ (g1, 0) :: groups_of gb)); [apply find_last; exact L|].
      rewrite !flat_map_app. cbn [flat_map]. rewrite !filter_ann. reflexivity. }
    assert (Pl : plus_group st g') by (apply (plus_group_now o now c1 g 0 _ st R Io); exact N2).
    destruct (plus_decoded _ _ _ _ _ _ Dd Pl) as (rt & Ep & Es).
    assert (Bg : item_bits g = item_bits g1).
    { apply (Sm (g, 0)); [apply in_or_app; right; left; reflexivity|]. apply Ofs, plus_now_of, N2. }
    assert (Bi : bits_in g' = item_bits g1) by (unfold g'; rewrite bits_prepared; exact Bg).
    destruct R as (_ & _ & R2 & _).
    assert (G : forall b, g_get g' b = g_get g b) by (intros b; unfold g'; apply prepared_get).
    destruct (two_tags g' _ _ _ _ l t1 t2 (item_bits g1) Ep) as (C & J1 & J2 & J3).
    - apply header_clean, host_text_txt, HT.
    - apply header_no; [exact B|reflexivity].
    - rewrite G. exact R2.
    - rewrite !G. exact Tw.
    - exact Tok.
    - rewrite Bi. symmetry. exact Bs.
    - unfold g_has, g'. rewrite prepared_block. exact R3.
    - unfold g_has, g'. rewrite prepared_block. exact R4.
    - exact Lc.
    - exact Fl.
    - exact F1.
    - exact F2.
    - unfold print_json, json_print in Pj. unfold clean in C. rewrite C in Pj. assert (ln = dump (env_float env) j) as -> by congruence.
      destruct (host_env env H) as [_ FL]. unfold says. rewrite !line_at_dump by exact FL. rewrite J1, J2, J3, Bi. split; [|split].
      + destruct (entries l t1 ++ entries l t2) as [|e r]; [reflexivity|]. reflexivity.
      + reflexivity.
      + unfold JN. cbn [value_of]. rewrite dec_string_Z_of_N. reflexivity.
  Qed.
End Tags.
