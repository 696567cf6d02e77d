(* RadioText Plus: what is shown of a tag is what it tags. *)
From Verif.Model Require Import Util Group Options Tables Json RdsString Tmc Station Channel.
From Verif.Spec Require Import Unicode JsonText Session Identity History Quality Texts Apps Plus.
From Verif.Proofs Require Import Tac Numerals JsonP Utf8P Schema StationP TextP CleanP UpdateP SessionP LineP FrameP ChannelP LinesP HistoryP ShowP TraceP KeysP GetP FieldsP StringP PsP RtP EndP LpsP AfP AppsP TmcP PlusP.

Local Open Scope string_scope.
Local Open Scope N_scope.
Local Open Scope list_scope.

(* --- the text in parts --- *)
Lemma charlen_end : forall r, forallb cont r = true -> charlen r = 0.
Proof.
  induction r as [|y r IH]; intros F; [reflexivity|]. cbn [forallb] in F. apply andb_prop in F. destruct F as [Fy F]. cbn [charlen]. unfold cont in Fy. rewrite Fy, (IH F). reflexivity.
Qed.
Lemma stop_end : forall cs, forallb uchar cs = true -> charlen (skipn (N.to_nat (stop cs (length cs))) (concat cs)) = 0.
Proof.
  intros cs F. destruct (snoc_cases _ cs) as [->|(a & c & ->)]; [reflexivity|]. rewrite app_length. cbn [length]. rewrite Nat.add_1_r. cbn [stop].
  rewrite forallb_app in F. apply andb_prop in F. destruct F as [_ F]. cbn [forallb] in F. apply andb_prop in F. destruct F as [F _]. destruct (uchar_cases c F) as (x & r & -> & _ & R).
  rewrite firstn_app, Nat.sub_diag, firstn_all. cbn [firstn]. rewrite app_nil_r, concat_app. cbn [concat]. rewrite app_nil_r.
  replace (concat a ++ x :: r) with ((concat a ++ [x]) ++ r) by (rewrite <- app_assoc; reflexivity). rewrite skip_app by (rewrite app_length; cbn [length]; lia). apply charlen_end, R.
Qed.
Lemma advance_some : forall cs, forallb uchar cs = true -> forall n i p, (i <= length cs)%nat -> advance n (concat cs) (stop cs i) = Some p ->
  (i + n <= length cs)%nat /\ p = stop cs (i + n).
Proof.
  intros cs F n. induction n as [|n IH]; intros i p L E; cbn [advance] in E.
  - rewrite Nat.add_0_r. split; [exact L|congruence].
  - destruct (Nat.eq_dec i (length cs)) as [->|Ni]; [rewrite stop_end in E by exact F; discriminate|].
    destruct (step_stop cs i F ltac:(lia)) as (m & E1 & P & E2). rewrite E1 in E. replace (m =? 0) with false in E by (symmetry; apply N.eqb_neq; lia). rewrite E2 in E.
    destruct (IH (S i) p ltac:(lia) E) as [A B]. split; [lia|]. rewrite B. f_equal. lia.
Qed.

(* --- the bytes at the ends of a UTF-8 text --- *)
Lemma cont_range : forall y, y < 256 -> cont y = (0x80 <=? y) && (y <? 0xC0).
Proof.
  assert (X : forallb (fun y => Bool.eqb (cont y) ((0x80 <=? y) && (y <? 0xC0))) (nseq 0 256) = true) by (vm_compute; reflexivity).
  intros y L. rewrite forallb_forall in X. apply Bool.eqb_prop. apply X. apply nseq_In; lia.
Qed.
Lemma encode_ends : forall c, scalar c -> exists x r, utf8_encode c = x :: r /\ cont x = false /\ x < 256 /\
  (forall a y, utf8_encode c = a ++ [y] -> y < 0x80 \/ cont y = true).
Proof.
  intros c S. assert (L : c <= 0x10FFFF) by (destruct S as [S|S]; lia).
  assert (Q : forall y, 0x80 <= y < 0xC0 -> cont y = true).
  { intros y Y. rewrite cont_range by lia. destruct (N.leb_spec 0x80 y), (N.ltb_spec y 0xC0); try lia; reflexivity. }
  assert (P : forall y, y < 256 -> y < 0x80 \/ 0xC0 <= y -> cont y = false).
  { intros y L1 Y. rewrite cont_range by exact L1. destruct (N.leb_spec 0x80 y), (N.ltb_spec y 0xC0); try lia; reflexivity. }
  assert (T : forall (A : Type) (l a : list A) y z, l ++ [z] = a ++ [y] -> y = z) by (intros A l a y z E; apply app_inj_tail in E; destruct E; congruence).
  unfold utf8_encode. destruct (N.ltb_spec c 0x80).
  { exists c, []. split; [reflexivity|]. split; [apply P; lia|]. split; [lia|]. intros a y E. left. assert (y = c) as -> by (apply (T _ [] a y c); exact E). lia. }
  destruct (N.ltb_spec c 0x800).
  { eexists. eexists. split; [reflexivity|]. split; [apply P; lia|]. split; [lia|]. intros a y E. right. assert (y = 0x80 + c mod 0x40) as -> by (apply (T _ [0xC0 + c / 0x40] a); exact E). apply Q. lia. }
  destruct (N.ltb_spec c 0x10000).
  { eexists. eexists. split; [reflexivity|]. split; [apply P; lia|]. split; [lia|]. intros a y E. right.
    assert (y = 0x80 + c mod 0x40) as -> by (apply (T _ [0xE0 + c / 0x1000; 0x80 + (c / 0x40) mod 0x40] a); exact E). apply Q. lia. }
  { eexists. eexists. split; [reflexivity|]. split; [apply P; lia|]. split; [lia|]. intros a y E. right.
    assert (y = 0x80 + c mod 0x40) as -> by (apply (T _ [0xF0 + c / 0x40000; 0x80 + (c / 0x1000) mod 0x40; 0x80 + (c / 0x40) mod 0x40] a); exact E). apply Q. lia. }
Qed.
Lemma first_byte : forall x s, is_utf8 (x :: s) -> cont x = false.
Proof.
  intros x s (cs & F & E). destruct cs as [|c cs]; [discriminate|]. rewrite Forall_cons_iff in F. destruct F as [F _]. destruct (encode_ends c F) as (y & r & E1 & C & _).
  cbn [utf8_text flat_map] in E. rewrite E1 in E. cbn [app] in E. assert (x = y) as -> by congruence. exact C.
Qed.
Lemma last_byte : forall x s, is_utf8 (s ++ [x]) -> x < 0x80 \/ cont x = true.
Proof.
  intros x s (cs & F & E). destruct (snoc_cases _ cs) as [->|(a & c & ->)]; [destruct s; discriminate|]. apply Forall_app in F. destruct F as [_ F]. rewrite Forall_cons_iff in F. destruct F as [F _].
  destruct (encode_ends c F) as (y & r & E1 & _ & _ & Ends). unfold utf8_text in E. rewrite flat_map_app in E. cbn [flat_map] in E. rewrite app_nil_r in E.
  destruct (snoc_cases _ (utf8_encode c)) as [E0|(b & z & E0)]; [congruence|]. rewrite E0, app_assoc in E. apply app_inj_tail in E. destruct E as [_ ->]. exact (Ends b z E0).
Qed.
Lemma encode_one : forall c, length (utf8_encode c) = 1%nat -> c < 0x80.
Proof. intros c. unfold utf8_encode. destruct (N.ltb_spec c 0x80); [auto|]. destruct (c <? 0x800); [discriminate|]. destruct (c <? 0x10000); discriminate. Qed.
Lemma encode_small : forall c x r, utf8_encode c = x :: r -> x < 0x80 -> r = [].
Proof.
  intros c x r. unfold utf8_encode. destruct (c <? 0x80); [congruence|]. destruct (c <? 0x800); [intros E; assert (x = 0xC0 + c / 0x40) as -> by congruence; lia|].
  destruct (c <? 0x10000); intros E L; exfalso; [assert (x = 0xE0 + c / 0x1000) as -> by congruence; lia|assert (x = 0xF0 + c / 0x40000) as -> by congruence; lia].
Qed.

Lemma firstn_S_nth : forall (A : Type) (l : list A) i x, nth_error l i = Some x -> firstn (S i) l = firstn i l ++ [x].
Proof. intros A l. induction l as [|y l IH]; intros [|i] x E; try discriminate; cbn [nth_error firstn app] in *; [congruence|]. f_equal. exact (IH i x E). Qed.
(* The substring cut out of a text; a part that can be shown is the part tagged *)
Lemma encode_uchar : forall c, scalar c -> uchar (utf8_encode c) = true.
Proof.
  intros c S. assert (L : c <= 0x10FFFF) by (destruct S as [S|S]; lia).
  assert (Q : forall y, 0x80 <= y < 0xC0 -> cont y = true).
  { intros y Y. rewrite cont_range by lia. destruct (N.leb_spec 0x80 y), (N.ltb_spec y 0xC0); try lia; reflexivity. }
  assert (P : forall y, y < 256 -> y < 0x80 \/ 0xC0 <= y -> cont y = false).
  { intros y L1 Y. rewrite cont_range by exact L1. destruct (N.leb_spec 0x80 y), (N.ltb_spec y 0xC0); try lia; reflexivity. }
  unfold utf8_encode. destruct (N.ltb_spec c 0x80); [cbn [uchar forallb]; rewrite (P c) by lia; reflexivity|].
  destruct (N.ltb_spec c 0x800); [|destruct (N.ltb_spec c 0x10000)]; cbn [uchar forallb]; rewrite P by lia; rewrite !Q by lia; reflexivity.
Qed.
Lemma text_encodes : forall l, utf8_text l = concat (map utf8_encode l).
Proof. intros l. unfold utf8_text. apply flat_map_concat_map. Qed.
Lemma substring_chars : forall s l st n, s_last_complete_string s = utf8_text l -> Forall scalar l -> 0 < n ->
  st + n < N.of_nat (length l) -> st = 0 \/ one_byte_at l (st - 1) -> one_byte_at l (st + n - 1) ->
  s_getLastCompleteSubstring s st n = utf8_text (firstn (N.to_nat n) (skipn (N.to_nat st) l)).
Proof.
  intros s l st n El F Pn L A1 A2. unfold s_getLastCompleteSubstring. rewrite El, text_encodes. set (cs := map utf8_encode l).
  assert (Fc : forallb uchar cs = true).
  { apply forallb_forall. intros c X. apply in_map_iff in X. destruct X as (b & <- & X). rewrite Forall_forall in F. exact (encode_uchar b (F b X)). }
  assert (Lc : length cs = length l) by apply map_length.
  assert (As : forall i, one_byte_at l i -> exists c, nth_error cs (N.to_nat i) = Some c /\ length c = 1%nat).
  { intros i (b & X & Y). exists (utf8_encode b). unfold cs. split; [apply map_nth_error, X|]. unfold utf8_encode. apply N.ltb_lt in Y. rewrite Y. reflexivity. }
  change 0 with (stop cs 0) at 1. rewrite advance_stop by (exact Fc || lia). rewrite advance_stop by (exact Fc || lia). cbn [Nat.add].
  rewrite !stop_clean.
  2: { destruct A1 as [->|A1]; [left; reflexivity|right]. replace (N.to_nat st - 1)%nat with (N.to_nat (st - 1)) by lia. apply As, A1. }
  2: { right. replace (N.to_nat st + N.to_nat n - 1)%nat with (N.to_nat (st + n - 1)) by lia. apply As, A2. }
  set (a := N.to_nat st). set (k := N.to_nat n).
  assert (Sp : cs = firstn a cs ++ firstn k (skipn a cs) ++ skipn (a + k) cs).
  { rewrite <- (firstn_skipn a cs) at 1. f_equal. rewrite <- (firstn_skipn k (skipn a cs)) at 1. f_equal. apply skip_twice. }
  assert (Sf : firstn (a + k) cs = firstn a cs ++ firstn k (skipn a cs)).
  { assert (Z : length (firstn a cs ++ firstn k (skipn a cs)) = (a + k)%nat) by (rewrite app_length, !firstn_length, skipn_length; unfold a, k; lia).
    rewrite Sp at 1. rewrite app_assoc, firstn_app, Z, Nat.sub_diag. cbn [firstn]. rewrite app_nil_r. rewrite <- Z. apply firstn_all. }
  assert (Cc : concat cs = concat (firstn a cs) ++ concat (firstn k (skipn a cs)) ++ concat (skipn (a + k) cs)) by (rewrite Sp at 1; rewrite !concat_app; reflexivity).
  assert (Ps : (0 < length (concat (skipn (a + k) cs)))%nat).
  { apply concat_pos; [|intros X; apply (f_equal (@length bytes)) in X; rewrite skipn_length in X; cbn [length] in X; unfold a, k in X; lia].
    rewrite forallb_forall in *. intros c X. apply Fc. rewrite Sp. apply in_or_app. right. apply in_or_app. right. exact X. }
  unfold bytes in *. rewrite Sf, concat_app. replace (N.of_nat _ <? N.of_nat _) with true.
  2: { symmetry. apply N.ltb_lt. rewrite Cc, !app_length. lia. }
  rewrite Cc at 1. rewrite skip_app by lia. rewrite app_length, firstn_app.
  replace (N.to_nat _) with (length (concat (firstn k (skipn a cs)))) by lia. rewrite Nat.sub_diag, firstn_all. cbn [firstn]. rewrite app_nil_r.
  unfold cs. rewrite text_encodes. f_equal. rewrite skipn_map, firstn_map. reflexivity.
Qed.

Lemma part_true_chars : forall s us t, s_last_complete_string s = utf8_text us -> Forall scalar us -> 0 < chars t ->
  let x := s_getLastCompleteSubstring s (start t) (chars t) in x <> [] -> is_utf8 (rtrim x) -> fits_chars us t /\ x = utf8_text (tagged us t).
Proof.
  intros s l t El F Pn x Ne U.
  assert (Ft : fits_chars l t).
  2: { split; [exact Ft|]. destruct Ft as (A & B & C). exact (substring_chars s l (start t) (chars t) El F Pn A B C). }
  assert (Ux : is_utf8 x).
  { destruct (rtrim_spec x) as (n & -> & _). apply is_utf8_app; [exact U|]. exists (repeat 32 n). split; [apply Forall_forall; intros c X; apply repeat_spec in X; subst c; left; reflexivity|].
    unfold utf8_text. clear. induction n as [|n IH]; [reflexivity|]. cbn [repeat flat_map]. rewrite <- IH. reflexivity. }
  clear U. unfold x, s_getLastCompleteSubstring in *. clear x. rewrite El, text_encodes in *. set (cs := map utf8_encode l) in *.
  assert (Fc : forallb uchar cs = true).
  { apply forallb_forall. intros c X. apply in_map_iff in X. destruct X as (b & <- & X). rewrite Forall_forall in F. exact (encode_uchar b (F b X)). }
  assert (Lc : length cs = length l) by apply map_length.
  change 0 with (stop cs 0) in Ne, Ux.
  destruct (advance (N.to_nat (start t)) (concat cs) (stop cs 0)) as [p|] eqn:E1; [|congruence]. destruct (advance_some cs Fc _ 0%nat p ltac:(lia) E1) as [L1 ->].
  destruct (advance (N.to_nat (chars t)) _ _) as [q|] eqn:E2; [|congruence]. destruct (advance_some cs Fc _ _ q L1 E2) as [L2 ->]. clear E1 E2. cbn [Nat.add] in *.
  remember (N.to_nat (start t)) as a eqn:Ha. destruct (N.to_nat (chars t)) as [|m] eqn:Em; [lia|].
  destruct (stop cs (a + S m) <? N.of_nat (length (concat cs))) eqn:Lt; [|congruence]. apply N.ltb_lt in Lt.
  (* the last character *)
  replace (a + S m)%nat with (S (a + m)) in * by lia. destruct (nth_error cs (a + m)) as [cz|] eqn:Ez; [|apply nth_error_None in Ez; lia].
  pose proof (split_at _ _ _ _ Ez) as Sz. assert (Uz : uchar cz = true) by (rewrite forallb_forall in Fc; exact (Fc cz (nth_error_In _ _ Ez))).
  destruct (uchar_cases cz Uz) as (z & rz & -> & Cz & _). cbn [stop] in *.
  assert (Cc : concat cs = (concat (firstn (a + m) cs) ++ [z]) ++ rz ++ concat (skipn (S (a + m)) cs)).
  { rewrite Sz at 1. rewrite concat_app. cbn [concat]. rewrite <- app_assoc. reflexivity. }
  assert (Fn : firstn (N.to_nat (N.of_nat (length (concat (firstn (a + m) cs))) + 1)) (concat cs) = concat (firstn (a + m) cs) ++ [z]).
  { rewrite Cc at 1. rewrite firstn_app. replace (N.to_nat _) with (length (concat (firstn (a + m) cs) ++ [z])) by (rewrite app_length; cbn [length]; lia).
    rewrite firstn_all, Nat.sub_diag. cbn [firstn]. apply app_nil_r. }
  assert (Pre : concat (firstn (a + m) cs) = concat (firstn a cs) ++ concat (firstn m (skipn a cs))).
  { rewrite <- concat_app. f_equal. rewrite <- (firstn_skipn a cs) at 1. rewrite firstn_app, firstn_length. replace (min a (length cs)) with a by lia.
    replace (a + m - a)%nat with m by lia. f_equal. apply firstn_all2. rewrite firstn_length. lia. }
  unfold bytes in *. rewrite firstn_skipn_comm in Ux.
  assert (Hb : stop cs a <= N.of_nat (length (concat (firstn (a + m) cs))) + 1).
  { rewrite Pre, app_length. destruct a as [|a']; cbn [stop]; [lia|]. assert (Y : (length (concat (firstn a' cs)) <= length (concat (firstn (S a') cs)))%nat).
    { rewrite <- (firstn_skipn a' (firstn (S a') cs)), firstn_firstn, concat_app, app_length. replace (min a' (S a')) with a' by lia. lia. } unfold bytes in *. lia. }
  replace (N.to_nat (stop cs a) + N.to_nat (N.of_nat (length (concat (firstn (a + m) cs))) + 1 - stop cs a))%nat with (N.to_nat (N.of_nat (length (concat (firstn (a + m) cs))) + 1)) in Ux by lia.
  rewrite Fn in Ux.
  assert (Dz : z < 0x80).
  { destruct (N.le_gt_cases (stop cs a) (N.of_nat (length (concat (firstn (a + m) cs))))) as [Y|Y].
    - rewrite skipn_app in Ux. replace (N.to_nat (stop cs a) - length (concat (firstn (a + m) cs)))%nat with 0%nat in Ux by lia. cbn [skipn] in Ux.
      destruct (last_byte _ _ Ux) as [Z|Z]; [exact Z|congruence].
    - exfalso. apply Ne. replace (stop cs a) with (N.of_nat (length (concat (firstn (a + m) cs))) + 1) by lia. rewrite N.sub_diag. reflexivity. }
  assert (As : forall i c, nth_error cs i = Some c -> length c = 1%nat -> one_byte_at l (N.of_nat i)).
  { intros i c X Y. unfold cs in X. rewrite nth_error_map in X. destruct (nth_error l i) as [b|] eqn:Eb; [|discriminate]. exists b. rewrite Nat2N.id. split; [exact Eb|].
    apply encode_one. cbn [option_map] in X. assert (c = utf8_encode b) as -> by congruence. exact Y. }
  assert (Lz : length (z :: rz) = 1%nat).
  { unfold cs in Ez. rewrite nth_error_map in Ez. destruct (nth_error l (a + m)) as [b|]; [|discriminate]. cbn [option_map] in Ez. assert (Eb : utf8_encode b = z :: rz) by congruence.
    rewrite (encode_small _ _ _ Eb Dz). reflexivity. }
  unfold fits_chars. split; [|split].
  - assert (rz = []) as -> by (destruct rz; [reflexivity|discriminate]). rewrite Cc, !app_length in Lt. cbn [length] in Lt.
    assert (Y : skipn (S (a + m)) cs <> []) by (intros Y; rewrite Y in Lt; cbn [concat length] in Lt; lia).
    assert (S (a + m) < length cs)%nat by (destruct (Nat.le_gt_cases (length cs) (S (a + m))) as [X|X]; [rewrite skipn_all2 in Y by exact X; congruence|exact X]). lia.
  - destruct (N.eq_dec (start t) 0) as [Z|Z]; [left; exact Z|right]. destruct a as [|a']; [lia|]. cbn [stop] in Ux.
    destruct (nth_error cs a') as [cy|] eqn:Ey; [|apply nth_error_None in Ey; lia]. pose proof (split_at _ _ _ _ Ey) as Sy.
    assert (Uy : uchar cy = true) by (rewrite forallb_forall in Fc; exact (Fc cy (nth_error_In _ _ Ey))).
    destruct (uchar_cases cy Uy) as (y & ry & -> & Cy & Ry).
    replace (start t - 1) with (N.of_nat a') by lia. apply (As a' _ Ey). destruct ry as [|y1 ry]; [reflexivity|exfalso].
    assert (Q : concat (firstn (S a') cs) = (concat (firstn a' cs) ++ [y]) ++ y1 :: ry).
    { rewrite (firstn_S_nth _ cs a' _ Ey), concat_app. cbn [concat]. rewrite app_nil_r, <- app_assoc. reflexivity. }
    rewrite Pre, Q, <- !app_assoc in Ux. rewrite (app_assoc (concat (firstn a' cs)) [y]) in Ux. rewrite skip_app in Ux by (rewrite app_length; cbn [length]; unfold bytes in *; lia).
    cbn [app] in Ux. pose proof (first_byte _ _ Ux) as C. cbn [forallb] in Ry. apply andb_prop in Ry. destruct Ry as [Ry _]. congruence.
  - replace (start t + chars t - 1) with (N.of_nat (a + m)) by lia. exact (As _ _ Ez Lz).
Qed.

Lemma ascii_one : forall l i, ascii_at l i <-> one_byte_at (map (fun b => rds_char (visible b)) l) i.
Proof.
  intros l i. unfold ascii_at, one_byte_at. split.
  - intros (b & E & L). exists (rds_char (visible b)). split; [exact (map_nth_error _ _ _ E)|exact L].
  - intros (c & E & L). rewrite nth_error_map in E. destruct (nth_error l (N.to_nat i)) as [b|]; [|discriminate]. exists b. split; [reflexivity|]. cbn [option_map] in E. congruence.
Qed.
Lemma rds_scalar : forall l, Forall (fun b => b < 256) l -> Forall scalar (map (fun b => rds_char (visible b)) l).
Proof.
  assert (X : forallb (fun b => rds_char b <? 0xD800) (nseq 0 256) = true) by (vm_compute; reflexivity). rewrite forallb_forall in X.
  intros l F. apply Forall_map. eapply Forall_impl; [|exact F]. intros b L. cbv beta in L. left. apply N.ltb_lt, X. pose proof (visible_byte b L). apply nseq_In; lia.
Qed.
Lemma part_true : forall s l t, s_last_complete_string s = rds_text l -> Forall (fun b => b < 256) l -> 0 < chars t ->
  let x := s_getLastCompleteSubstring s (start t) (chars t) in x <> [] -> is_utf8 (rtrim x) -> fits l t /\ x = rds_text (tagged l t).
Proof.
  intros s l t El F Pn x Ne U. destruct (part_true_chars s _ t El (rds_scalar l F) Pn Ne U) as [(A & B & C) E]. rewrite map_length in A. rewrite <- !ascii_one in *. split; [split; auto|].
  unfold x. rewrite E. unfold rds_text, tagged. rewrite skipn_map, firstn_map. reflexivity.
Qed.

(* --- the last complete text --- *)
Definition last_true (n : N) (ws : Texts.writes) (s : RDSString) : Prop :=
  s_last_complete_string s = [] \/
  exists a b l, ws = a ++ b /\ complete_text n a l /\ Forall (fun b => b < 256) l /\ s_last_complete_string s = rds_text l.
Lemma true_more : forall n ws s r, last_true n ws s -> last_true n (ws ++ r) s.
Proof. intros n ws s r [E|(a & b & l & -> & X)]; [left; exact E|right]. exists a, (b ++ r), l. split; [rewrite app_assoc; reflexivity|exact X]. Qed.
Lemma none_complete : forall n l, ~ complete_text n [] l.
Proof.
  intros n l [[S _] _]. remember (N.of_nat (length l)) as k eqn:Ek. clear Ek. remember [] as ws eqn:Ew. destruct S as [ws b|ws m c b X|ws m p b X Y]; apply (f_equal (@length _)) in Ew; rewrite app_length in Ew; cbn [length] in Ew; lia.
Qed.
Lemma set_keeps : forall u s p b, s_isComplete (s_set u s p b) = false -> s_last_complete_string (s_set u s p b) = s_last_complete_string s \/ s_last_complete_string (s_set u s p b) = [].
Proof.
  intros u s p b. unfold s_set. destruct (_ <=? p); [auto|]. cbv zeta. destruct (s_isComplete (mkRDSString _ _ _ (s_prev_pos s) _ _)) eqn:C1; [|auto].
  destruct (s_str u _); [|auto]. intros C. exfalso. revert C C1. unfold s_isComplete, s_getReceivedLength, s_getExpectedLength. cbn [s_sequential_length s_data]. congruence.
Qed.
Lemma set_true : forall u n s ws p b, tracks n s ws -> s_encoding s = EncBasic -> last_true n ws s -> p < n -> b < 256 -> last_true n (ws ++ [(p, b)]) (s_set u s p b).
Proof.
  intros u n s ws p b T En L Hp Hb. pose proof (set_tracks u n s ws p b T Hp Hb) as T'. destruct (s_isComplete (s_set u s p b)) eqn:C.
  - right. exists (ws ++ [(p, b)]), [], (shown_bytes (s_set u s p b)). split; [rewrite app_nil_r; reflexivity|]. split; [apply complete_spec; [exact T'|lia|exact C]|].
    pose proof (proj2 (tracks_sized _ _ _ T')) as Fb. split; [apply shown_byte, Fb|].
    pose proof (set_last u n s p b (proj1 (tracks_sized _ _ _ T)) Hp C ltac:(lia)) as X. pose proof (complete_str u _ Fb C) as Y. rewrite set_encoding, En in Y. congruence.
  - apply true_more. destruct (set_keeps u s p b C) as [X|X]; [|left; exact X]. unfold last_true in *. rewrite X. exact L.
Qed.
Lemma set_all_true : forall u n r s ws, tracks n s ws -> s_encoding s = EncBasic -> last_true n ws s -> Forall (fun pb => fst pb < n /\ snd pb < 256) r -> last_true n (ws ++ r) (set_all u s r).
Proof.
  intros u n r. induction r as [|[p b] r IH]; intros s ws T En L F; [rewrite app_nil_r; exact L|]. rewrite Forall_cons_iff in F. destruct F as [[F1 F2] F]. cbn [fst snd] in *.
  unfold set_all in *. cbn [fold_left fst snd]. replace (ws ++ (p, b) :: r) with ((ws ++ [(p, b)]) ++ r) by (rewrite <- app_assoc; reflexivity).
  apply IH; [apply set_tracks; assumption|rewrite set_encoding; exact En|apply set_true; assumption|exact F].
Qed.
Lemma put_true : forall u s ab q earlier msg v, uniform ab v msg -> tracks (rt_size v) s (part_writes msg) -> s_encoding s = EncBasic -> last_true (rt_size v) (part_writes msg) s ->
  part_ok q -> steady (earlier ++ msg ++ [q]) ->
  let msg' := if Bool.eqb ab (p_flag q) then msg ++ [q] else [q] in last_true (rt_size (p_version q)) (part_writes msg') (rt_put u s ab q).
Proof.
  intros u s ab q earlier msg v Fa T En L Pk Sy. pose proof (part_place q Pk) as Pp. unfold rt_put.
  assert (E1 : part_writes [q] = place (p_pos q) (p_chars q)) by (unfold part_writes; cbn [flat_map]; apply app_nil_r).
  destruct (Bool.eqb ab (p_flag q)) eqn:Eb; cbv zeta.
  - apply Bool.eqb_prop in Eb. rewrite part_writes_app, E1. destruct (snoc_cases _ msg) as [->|(m1 & x & ->)].
    + apply set_all_true; [apply (resize_any _ _ _ [] _ T); exact (seq_nil _ _ T)|exact En| |exact Pp]. left. cbn [s_resize s_last_complete_string].
      destruct L as [L|(a & b & l & Z & C & _)]; [exact L|]. symmetry in Z. apply app_eq_nil in Z. destruct Z as [-> _]. exfalso. exact (none_complete _ _ C).
    + assert (X : p_flag x = ab /\ p_version x = v) by (apply Forall_app in Fa; destruct Fa as [_ Fa]; inversion Fa; assumption).
      assert (V : p_version x = p_version q).
      { apply (Sy (earlier ++ m1)%list x q []). { rewrite <- !app_assoc. reflexivity. } destruct X. congruence. }
      assert (v = p_version q) as -> by (destruct X; congruence). rewrite (resize_tracks _ _ _ T). apply set_all_true; assumption.
  - rewrite E1. apply (set_all_true u _ _ _ []); [apply (resize_any _ _ _ [] _ (clear_tracks _ s _ [] T)); reflexivity|exact En|left; reflexivity|exact Pp].
Qed.

Definition tr_text (ps : list rt_part) (st : Station) : Prop :=
  exists earlier msg v, ps = (earlier ++ msg)%list /\ uniform (ab_of st) v msg /\ tracks (rt_size v) (text_of st) (part_writes msg) /\
    last_true (rt_size v) (part_writes msg) (text_of st).
Lemma tr_text_cleared : forall ps st st', tr_text ps st -> ab_of st' = ab_of st -> text_of st' = s_clear (text_of st) -> tr_text ps st' /\ tr_text [] st'.
Proof.
  intros ps st st' (e & m & v & E & U & T & L) Ea Et. unfold tr_text. rewrite Ea, Et. split.
  - exists e, m, v. split; [exact E|]. split; [exact U|]. split; [exact (clear_tracks _ _ _ _ T)|left; reflexivity].
  - exists [], [], v. split; [reflexivity|]. split; [constructor|]. split; [exact (clear_tracks _ _ _ [] T)|left; reflexivity].
Qed.
Lemma tr_text_step : forall env o ps st now c g w st' j, tr_text ps st -> s_encoding (text_of st) = EncBasic -> received_group (now, g, w) ->
  bler_ok (prepared o now c g w) -> decoded env o st (prepared o now c g w) = Ok (st', j) -> steady (ps ++ rt_segment (g, w)) -> tr_text (ps ++ rt_segment (g, w)) st'.
Proof.
  intros env o ps st now c g w st' j I En R B D S. destruct (rt_outcome env o st now c g w st' j En R B D) as [(q & Sg & Pk & T1 & A1)|(Sg & Ea & Et & _)].
  - rewrite Sg in S |- *. destruct I as (e & m & n & E & F1 & T & L). rewrite E, <- app_assoc in S. destruct (put_tracks (env_ucs2 env) (text_of st) (ab_of st) q e m n F1 T Pk S) as [F2' T'].
    pose proof (put_true (env_ucs2 env) (text_of st) (ab_of st) q e m n F1 T En L Pk S) as L'. unfold tr_text.
    rewrite T1, A1. destruct (Bool.eqb (ab_of st) (p_flag q)) eqn:Eb; cbv zeta in *.
    + exists e, (m ++ [q])%list, (p_version q). split; [rewrite E, app_assoc; reflexivity|]. split; [exact F2'|]. split; [exact T'|exact L'].
    + exists (e ++ m)%list, [q], (p_version q). split; [rewrite E; reflexivity|]. split; [exact F2'|]. split; [exact T'|exact L'].
  - rewrite Sg, app_nil_r. destruct Et as [Et|Et]; [unfold tr_text in *; rewrite Ea, Et; exact I|exact (proj1 (tr_text_cleared ps st st' I Ea Et))].
Qed.

Definition tr_inv (h : list (Group * N)) (st : Station) : Prop := s_encoding (text_of st) = EncBasic /\ (steady (parts h) -> tr_text (parts h) st).
Lemma tr_start : forall st, st_radiotext st = RadioText_default -> tr_inv [] st.
Proof.
  intros st E. unfold tr_inv, tr_text, text_of, ab_of. rewrite E. split; [reflexivity|]. intros _. exists [], [], VA.
  split; [reflexivity|]. split; [constructor|]. split; [apply (new_tracks 64)|left; reflexivity].
Qed.
Lemma tr_had : forall h st g, tr_inv h st -> tr_inv h (had st g).
Proof. intros h st g. unfold tr_inv, tr_text, text_of, ab_of. rewrite had_rt. auto. Qed.
Lemma parts_snoc : forall h x, parts (h ++ [x]) = parts h ++ rt_segment x.
Proof. intros h x. unfold parts. rewrite flat_map_app. cbn [flat_map]. rewrite app_nil_r. reflexivity. Qed.
Lemma tr_step : forall env o h st now c g w st' j, tr_inv h st -> st_ok st -> received_group (now, g, w) ->
  bler_ok (prepared o now c g w) -> decoded env o st (prepared o now c g w) = Ok (st', j) -> tr_inv (h ++ [(g, w)]) st'.
Proof.
  intros env o h st now c g w st' j (En & I) So R B D. split.
  - destruct (rt_outcome env o st now c g w st' j En R B D) as [(q & _ & _ & T1 & _)|(_ & _ & [Et|Et] & _)]; [rewrite T1, put_encoding; exact En|congruence|rewrite Et; exact En].
  - rewrite parts_snoc. intros S. apply (tr_text_step env o (parts h) st now c g w st' j); try assumption. exact (I (proj1 (steady_app _ _ S))).
Qed.

(* --- what is shown --- *)
Definition part_shown (s : RDSString) (t : Tag) : list json :=
  if real t then match s_getLastCompleteSubstring s (start t) (chars t) with
    | [] => []
    | x => [JObj [("content-type", JStr (getRTPlusContentTypeString (content t))); ("data", JStr (rtrim x))]]
    end else [].
Lemma tag_pushed : forall rt p t j, rtplus_tag rt p (content t) (start t) (chars t) j = jpush_all (p ++ ["tags"]) (part_shown (rt_text rt) t) j.
Proof.
  intros rt p t j. unfold rtplus_tag, part_shown, real. destruct (s_getLastCompleteSubstring _ _ _) as [|b x]; [destruct (negb _); reflexivity|].
  destruct (content t =? 0); cbn [negb]; [reflexivity|]. cbn [jpush_all]. destruct (jpush _ _ _); reflexivity.
Qed.
Lemma tags_prepared : forall o now c g w, received_group (now, g, w) -> let g' := prepared o now c g w in
  tags_in g = (if g_has g' BLOCK3 then [mkTag (getBits2 6 (g_get g' BLOCK2) (g_get g' BLOCK3) 13) (getBits 6 (g_get g' BLOCK3) 7) (getBits 6 (g_get g' BLOCK3) 1 + 1)] else []) ++
    (if g_has g' BLOCK3 && g_has g' BLOCK4 then [mkTag (getBits2 6 (g_get g' BLOCK3) (g_get g' BLOCK4) 11) (getBits 6 (g_get g' BLOCK4) 5) (getBits 5 (g_get g' BLOCK4) 0 + 1)] else []).
Proof.
  intros o now c g w (_ & R1 & R2 & R3 & R4) g'. unfold tags_in, g', g_has. rewrite !prepared_get, !prepared_block. unfold g_get. cbn [g_block].
  rewrite !getBits2_arith, !getBits_arith by assumption. change (2 ^ 16) with 65536. change (2 ^ 13) with 8192. change (2 ^ 6) with 64. change (2 ^ 7) with 128. change (2 ^ 1) with 2. change (2 ^ 11) with 2048. change (2 ^ 5) with 32. change (2 ^ 0) with 1.
  replace (8 * (blk_data (g_b2 g) mod 8) + blk_data (g_b3 g) / 8192) with ((blk_data (g_b2 g) * 65536 + blk_data (g_b3 g)) / 8192 mod 64) by lia.
  replace (32 * (blk_data (g_b3 g) mod 2) + blk_data (g_b4 g) / 2048) with ((blk_data (g_b3 g) * 65536 + blk_data (g_b4 g)) / 2048 mod 64) by lia.
  rewrite N.div_1_r. reflexivity.
Qed.
Lemma plus_keys : forall o st g, g_has_type g = true -> existsb (String.eqb "radiotext_plus") (type_keys o st g) = true -> plus_group st g.
Proof.
  intros o st g Ht K. unfold plus_group. split; [exact Ht|]. revert K. unfold type_keys, oda_type. cbv zeta.
  destruct (Version_eqb (gt_version (g_type g)) VC) eqn:Vc; [discriminate|].
  destruct (gt_number (g_type g) =? 0) eqn:N0; [destruct (o_show_partial o); discriminate|]. destruct (gt_number (g_type g) =? 1) eqn:N1; [discriminate|].
  destruct (gt_number (g_type g) =? 2) eqn:N2; [destruct (o_show_partial o); discriminate|].
  destruct (gt_number (g_type g) =? 3) eqn:N3; destruct (gt_number (g_type g) =? 4) eqn:N4; destruct (gt_number (g_type g) =? 10) eqn:N10; destruct (gt_number (g_type g) =? 14) eqn:N14; destruct (gt_number (g_type g) =? 15) eqn:N15;
    destruct (gt_version (g_type g)) eqn:Gv; cbn [Version_eqb andb orb negb]; try discriminate; try discriminate Vc; (intros K; split; [reflexivity|]); revert K;
    (destruct (find_type _ _) as [a|]; [|by_cases; discriminate]); unfold app_keys; destruct (N.eqb_spec a 0x4BD7) as [->|_]; try reflexivity; by_cases; discriminate.
Qed.
Lemma parse_tags : forall g rt hdr rt' j p ts, parseRadioTextPlus g rt [p] (JObj hdr) = Ok (rt', j) -> obj_find p hdr = None ->
  ts = (if g_has g BLOCK3 then [mkTag (getBits2 6 (g_get g BLOCK2) (g_get g BLOCK3) 13) (getBits 6 (g_get g BLOCK3) 7) (getBits 6 (g_get g BLOCK3) 1 + 1)] else []) ++
    (if g_has g BLOCK3 && g_has g BLOCK4 then [mkTag (getBits2 6 (g_get g BLOCK3) (g_get g BLOCK4) 11) (getBits 6 (g_get g BLOCK4) 5) (getBits 5 (g_get g BLOCK4) 0 + 1)] else []) ->
  (rt_text rt' = rt_text rt \/ s_last_complete_string (rt_text rt') = []) /\
  jget [p; "tags"] j = match flat_map (part_shown (rt_text rt')) ts with [] => None | e => Some (JArr e) end.
Proof.
  intros g rt hdr rt' j p ts E No ->. unfold parseRadioTextPlus in E. cbv zeta in E.
  match type of E with context [rtplus_tag ?r _ _ _ _ _] => set (rt1 := r) in E end.
  assert (Er : rt_text rt1 = rt_text rt \/ s_last_complete_string (rt_text rt1) = []) by (unfold rt1; destruct (_ || _); [right; reflexivity|left; reflexivity]). clearbody rt1.
  destruct (jset ([p] ++ ["item_running"]) _ (JObj hdr)) as [j1| |] eqn:B1; cbn [bind] in E; try discriminate E.
  destruct (jset ([p] ++ ["item_toggle"]) _ j1) as [j2| |] eqn:B2; cbn [bind] in E; try discriminate E.
  assert (N2 : jget [p; "tags"] j2 = None).
  { erewrite jset_other; [|exact B2|cbn; rewrite String.eqb_refl; reflexivity]. erewrite jset_other; [|exact B1|cbn; rewrite String.eqb_refl; reflexivity]. cbn [jget]. rewrite No. reflexivity. }
  match type of E with context [if g_has g BLOCK3 then rtplus_tag _ _ ?a ?b ?c j2 else _] => set (t1 := mkTag a b c) in *; change (rtplus_tag rt1 [p] a b c j2) with (rtplus_tag rt1 [p] (content t1) (start t1) (chars t1) j2) in E end.
  rewrite tag_pushed in E. cbn [app] in E.
  destruct (if g_has g BLOCK3 then _ else _) as [j3| |] eqn:B3 in E; cbn [bind] in E; try discriminate E.
  assert (N3 : jget [p; "tags"] j3 = match flat_map (part_shown (rt_text rt1)) (if g_has g BLOCK3 then [t1] else []) with [] => None | e => Some (JArr e) end).
  { destruct (g_has g BLOCK3); cbn [flat_map]; [|assert (j3 = j2) as -> by congruence; exact N2]. rewrite app_nil_r, (push_absent _ _ _ _ B3 N2). destruct (part_shown _ _); reflexivity. }
  match type of E with context [rtplus_tag _ _ ?a ?b ?c j3] => set (t2 := mkTag a b c) in *; change (rtplus_tag rt1 [p] a b c j3) with (rtplus_tag rt1 [p] (content t2) (start t2) (chars t2) j3) in E end.
  rewrite tag_pushed in E. cbn [app] in E.
  destruct (if g_has g BLOCK3 && g_has g BLOCK4 then _ else _) as [j4| |] eqn:B4 in E; cbn [bind] in E; try discriminate E.
  assert (j4 = j) as -> by congruence. assert (rt1 = rt') as -> by congruence. split; [exact Er|]. rewrite flat_map_app.
  destruct (g_has g BLOCK3 && g_has g BLOCK4); cbn [flat_map] in *; [|assert (j = j3) as -> by congruence; rewrite app_nil_r; exact N3]. rewrite app_nil_r.
  destruct (flat_map (part_shown (rt_text rt')) (if g_has g BLOCK3 then [t1] else [])) as [|e l] eqn:Ee.
  - cbn [app]. rewrite (push_absent _ _ _ _ B4 N3). destruct (part_shown (rt_text rt') t2); reflexivity.
  - rewrite (push_same _ _ _ (e :: l) _ B4) by (rewrite N3; reflexivity). rewrite N3. cbn [app]. destruct (part_shown (rt_text rt') t2); [rewrite app_nil_r|]; reflexivity.
Qed.

Lemma clean_get : forall p j v, clean j -> jget p j = Some v -> clean v.
Proof.
  induction p as [|k p IH]; intros j v C E; cbn [jget] in E; [congruence|]. destruct j; try discriminate. destruct (obj_find k _) as [x|] eqn:Ex; [|discriminate].
  apply (IH x v); [|exact E]. apply clean_obj in C. exact (clean_find _ _ _ C Ex).
Qed.
Lemma says_clean : forall env j line k p v, host_ok env -> print_json env j = Ok line -> k <> "debug" -> line_at (k :: p) line = Some v -> clean j.
Proof.
  intros env j line k p v H Pr Nk L. destruct (host_env env H) as [Ee FL]. destruct (print_good env j Ee) as (j' & Pj & U & D).
  rewrite Pj in Pr. injection Pr as <-. rewrite line_at_dump in L by exact FL. destruct D as [->|[_ ->]]; [exact U|].
  exfalso. cbn [jget obj_find] in L. destruct (String.eqb k "debug") eqn:E; [apply String.eqb_eq in E; congruence|]. discriminate.
Qed.
Lemma shown_true : forall s l f ts, s_last_complete_string s = rds_text l -> Forall (fun b => b < 256) l -> Forall (fun t => 0 < chars t) ts -> Forall clean (flat_map (part_shown s) ts) ->
  exists keep, Forall2 (shows_tag l) (filter keep ts) (map (value_of f) (flat_map (part_shown s) ts)) /\ Forall (fun t => real t = true /\ fits l t) (filter keep ts).
Proof.
  intros s l f ts El F P C. exists (fun t => match part_shown s t with [] => false | _ => true end). induction ts as [|t ts IH]; [split; constructor|].
  rewrite Forall_cons_iff in P. destruct P as [Pt P]. cbn [flat_map] in C. apply Forall_app in C. destruct C as [Ct C]. destruct (IH P C) as [I1 I2]. clear IH. cbn [flat_map filter]. rewrite map_app.
  destruct (part_shown s t) as [|e r] eqn:Es; [split; assumption|]. unfold part_shown in Es. destruct (real t) eqn:Rt; [|discriminate].
  destruct (s_getLastCompleteSubstring s (start t) (chars t)) as [|b x] eqn:Ex; [discriminate|].
  assert (Ee : JObj [("content-type", JStr (getRTPlusContentTypeString (content t))); ("data", JStr (rtrim (b :: x)))] = e) by congruence. assert (r = []) as -> by congruence. clear Es. subst e.
  rewrite Forall_cons_iff in Ct. destruct Ct as [Ct _]. apply clean_obj in Ct. do 2 rewrite Forall_cons_iff in Ct. destruct Ct as (_ & (_ & Ct) & _). cbn [snd] in Ct. unfold clean in Ct. cbn [json_utf8] in Ct. apply valid_is_utf8 in Ct.
  destruct (part_true s l t El F Pt) as [Ft Eq]; [rewrite Ex; discriminate|rewrite Ex; exact Ct|]. cbv zeta in Eq. rewrite Ex in Eq.
  split; cbn [map app]; constructor; [|exact I1| |exact I2].
  - exists (rtrim (b :: x)). split; [rewrite <- content_same; reflexivity|]. rewrite Eq. apply rtrim_trimmed.
  - split; [exact Rt|exact Ft].
Qed.
Lemma none_shown : forall s ts, s_last_complete_string s = [] -> flat_map (part_shown s) ts = [].
Proof.
  intros s ts E. induction ts as [|t ts IH]; [reflexivity|]. cbn [flat_map]. rewrite IH, app_nil_r. unfold part_shown, s_getLastCompleteSubstring. rewrite E. destruct (real t); [|reflexivity].
  destruct (advance _ _ _) as [a|]; [|reflexivity]. destruct (advance _ _ a) as [b|]; [|reflexivity]. cbn [length]. destruct (b <? _) eqn:X; [apply N.ltb_lt in X; lia|reflexivity].
Qed.
Lemma held_earlier : forall e ps l, held ps l -> held (e ++ ps) l.
Proof. intros e ps l (a & m & f & v & ws & r & -> & X). exists (e ++ a), m, f, v, ws, r. split; [rewrite app_assoc; reflexivity|exact X]. Qed.

Lemma tags_value : forall env o st now c1 g w st' j line v, host_ok env -> received_group (now, g, w) -> st_ok st -> bler_ok (prepared o now c1 g w) ->
  decoded env o st (prepared o now c1 g w) = Ok (st', j) -> print_json env j = Ok line -> says line ["radiotext_plus"; "tags"] v ->
  plus_group st (prepared o now c1 g w) /\ rt_segment (g, w) = [] /\
  forall ps, tr_text ps st' -> exists l keep vs, held ps l /\ v = VArr vs /\ Forall2 (shows_tag l) (filter keep (tags_in g)) vs /\
    Forall (fun t => real t = true /\ fits l t) (filter keep (tags_in g)).
Proof.
  intros env o st now c1 g w st' j line v H R So B Dd Pj S. destruct (host_env env H) as [Ee _].
  set (g' := prepared o now c1 g w) in *. pose proof (says_decoded env j line "radiotext_plus" ["tags"] v H Pj ltac:(discriminate) S) as J.
  pose proof (says_clean env j line "radiotext_plus" ["tags"] v H Pj ltac:(discriminate) S) as Cj.
  assert (Pg : plus_group st g').
  { destruct (g_has_type g') eqn:Ht.
    - destruct (existsb (String.eqb "radiotext_plus") (type_keys o st g')) eqn:K; [exact (plus_keys o st g' Ht K)|].
      exfalso. pose proof (decoded_absent env o st g' _ j "radiotext_plus" Ee So B Dd eq_refl (fun _ => K)) as X.
      cbn [jget] in X, J. destruct j; try discriminate J. destruct (obj_find "radiotext_plus" _); discriminate.
    - exfalso. pose proof (decoded_absent env o st g' _ j "radiotext_plus" Ee So B Dd eq_refl ltac:(rewrite Ht; discriminate)) as X.
      cbn [jget] in X, J. destruct j; try discriminate J. destruct (obj_find "radiotext_plus" _); discriminate. }
  split; [exact Pg|]. split.
  { apply (no_part o now c1 g w R). fold g'. destruct Pg as (_ & Od & _). right. unfold oda_type in Od. cbv zeta in Od. do 2 (apply andb_prop in Od; destruct Od as [Od _]). apply andb_prop in Od. destruct Od as [Od1 Od].
    right. intros X. rewrite X in Od. discriminate. }
  intros ps Tr. destruct (plus_decoded env o st g' _ j Dd Pg) as (rt' & Dp & Es). assert (Et : text_of st' = rt_text rt') by (rewrite Es; reflexivity).
  pose proof (tags_prepared o now c1 g w R) as Tg. cbv zeta in Tg. fold g' in Tg.
  destruct (parse_tags g' _ _ rt' j "radiotext_plus" (tags_in g) Dp (header_no env o st g' "radiotext_plus" B eq_refl) Tg) as [_ Jt].
  rewrite Jt in J. destruct (flat_map (part_shown (rt_text rt')) (tags_in g)) as [|e r] eqn:Ef; [discriminate|].
  assert (Ev : v = VArr (map (value_of (env_float env)) (e :: r))) by (cbn [option_map value_of] in J; congruence).
  destruct Tr as (e0 & m & n & E1 & Un & _ & L). rewrite Et in L.
  destruct L as [L|(a & b & l & Ew & Cl & Fl & El)]; [rewrite none_shown in Ef by exact L; discriminate|].
  assert (Cv : Forall clean (e :: r)) by (apply clean_arr; apply (clean_get ["radiotext_plus"; "tags"] j); [exact Cj|exact Jt]).
  assert (Pc : Forall (fun t => 0 < chars t) (tags_in g)).
  { rewrite Tg. apply Forall_app. split; [destruct (g_has g' BLOCK3)|destruct (_ && _)]; repeat constructor; cbn [chars]; lia. }
  rewrite <- Ef in Cv, Ev. destruct (shown_true (rt_text rt') l (env_float env) (tags_in g) El Fl Pc Cv) as (keep & K1 & K2).
  exists l, keep, (map (value_of (env_float env)) (flat_map (part_shown (rt_text rt')) (tags_in g))). split; [|split; [exact Ev|split; [exact K1|exact K2]]].
  exists e0, m, (ab_of st'), n, a, b. split; [exact E1|]. split; [exact Un|]. split; [exact Ew|exact Cl].
Qed.

Lemma tags_true : forall env o w0 gs now g w c out line v, host_ok env -> o_output_type o = OutJSON -> Forall received_group (gs ++ [(now, g, w)]) ->
  run_groups env o (Channel_new o w0) (gs ++ [(now, g, w)]) = Ok (c, out ++ [Some line]) -> says line ["radiotext_plus"; "tags"] v ->
  let ps := flat_map rt_segment (decoded_in (gs ++ [(now, g, w)]) (out ++ [Some line])) in
  steady ps -> exists l keep vs, held ps l /\ v = VArr vs /\ Forall2 (shows_tag l) (filter keep (tags_in g)) vs /\
    Forall (fun t => real t = true /\ fits l t) (filter keep (tags_in g)).
Proof.
  intros env o w0 gs now g w c out line v H OJ F E S ps Sy.
  destruct (last_group tr_inv env o H OJ (fun w => tr_start (Station_new w) eq_refl) (fun w p => tr_start (Station_new_pi w p) eq_refl) tr_had (fun h st now c g w st' j => tr_step env o h st now c g w st' j) gs now g w w0 c out line F E)
    as (old & h & st & c1 & j & D & I & So & Dd & Pj & B & Hc & _).
  assert (R : received_group (now, g, w)) by (apply Forall_app in F; destruct F as [_ F2]; inversion F2; assumption).
  destruct (tags_value env o st now c1 g w _ j line v H R So B Dd Pj S) as (_ & _ & Tv).
  pose proof (tr_step env o h st now c1 g w _ j I So R B Dd) as [_ I'].
  assert (Ps : ps = parts old ++ parts (h ++ [(g, w)])) by (unfold ps, parts; rewrite D, flat_map_app; reflexivity).
  rewrite Ps in Sy |- *. destruct (Tv _ (I' (proj2 (steady_app _ _ Sy)))) as (l & keep & vs & Hl & X).
  exists l, keep, vs. split; [apply held_earlier; exact Hl|exact X].
Qed.

(* --- since the item began --- *)
Lemma plus_clears : forall g rt p j rt' j', parseRadioTextPlus g rt p j = Ok (rt', j') -> bits_in g <> (plus_toggle (rt_plus rt), plus_item_running (rt_plus rt)) ->
  rt_text rt' = s_clear (rt_text rt) /\ rt_ab rt' = rt_ab rt.
Proof.
  intros g rt p j rt' j' E Nb. unfold parseRadioTextPlus in E. cbv zeta in E. do 4 unbind E. revert E. unfold bits_in in Nb.
  destruct (Bool.eqb_spec (getBool (g_get g BLOCK2) 4) (plus_toggle (rt_plus rt))) as [E1|E1]; destruct (Bool.eqb_spec (getBool (g_get g BLOCK2) 3) (plus_item_running (rt_plus rt))) as [E2|E2]; cbn [negb orb];
    [exfalso; congruence| | |]; intros E; assert (X := f_equal (fun r => match r with Ok (a, _) => rt_text a | _ => rt_text rt' end) E); assert (Y := f_equal (fun r => match r with Ok (a, _) => rt_ab a | _ => rt_ab rt' end) E); cbn in X, Y; split; congruence.
Qed.
Definition item_window (h : list (Group * N)) (st : Station) : Prop :=
  steady (parts h) -> forall h1 x hm y k, filter matters h = h1 ++ x :: hm ++ y :: k -> plus_now h1 x -> plus_now (h1 ++ x :: hm) y ->
    (forall z, In z hm -> of_plus (h1 ++ x :: hm) z -> item_bits (fst z) = item_bits (fst x)) -> item_bits (fst y) <> item_bits (fst x) -> tr_text (parts k) st.
Definition it_inv (u : bytes -> option bytes) (h : list (Group * N)) (st : Station) : Prop := pl u false VA h st /\ tr_inv h st /\ item_window h st.
Lemma it_start : forall u st, st_radiotext st = RadioText_default -> st_oda_app_for_group st = [] -> it_inv u [] st.
Proof.
  intros u st E1 E2. split; [apply pl_new; assumption|]. split; [apply tr_start; exact E1|]. intros _ h1 x hm y k E. destruct h1; discriminate E.
Qed.
Lemma it_had : forall u h st g, it_inv u h st -> it_inv u h (had st g).
Proof.
  intros u h st g (I1 & I2 & I3). split; [apply pl_had; exact I1|]. split; [apply tr_had; exact I2|]. unfold item_window, tr_text, text_of, ab_of in *. rewrite had_rt. exact I3.
Qed.
Lemma it_step : forall env o h st now c g w st' j, it_inv (env_ucs2 env) h st -> st_ok st -> received_group (now, g, w) ->
  bler_ok (prepared o now c g w) -> decoded env o st (prepared o now c g w) = Ok (st', j) -> it_inv (env_ucs2 env) (h ++ [(g, w)]) st'.
Proof.
  intros env o h st now c g w st' j (I1 & I2 & I3) So R B D. split; [exact (pl_step env o false VA h st now c g w st' j I1 So R B D)|]. split; [exact (tr_step env o h st now c g w st' j I2 So R B D)|].
  intros S h1 x hm y k E Px Py Sm Nb. destruct I2 as [En I2]. rewrite parts_snoc in S. pose proof (proj1 (steady_app _ _ S)) as S0. specialize (I3 S0). specialize (I2 S0).
  rewrite filter_app in E. cbn [filter] in E. destruct (matters (g, w)) eqn:M.
  2: { rewrite app_nil_r in E. destruct (matters_cases _ M) as (_ & _ & M3). replace (parts k) with (parts k ++ rt_segment (g, w)) by (rewrite M3, app_nil_r; reflexivity).
       apply (tr_text_step env o (parts k) st now c g w st' j); try assumption; [exact (I3 _ _ _ _ _ E Px Py Sm Nb)|]. rewrite M3, app_nil_r in *.
       rewrite <- filter_parts, E in S0. unfold parts in S0 |- *. rewrite app_comm_cons, app_assoc, flat_map_app in S0. apply steady_app in S0. destruct S0 as [_ S0]. cbn [flat_map] in S0. apply steady_app in S0. exact (proj2 S0). }
  destruct (snoc_cases _ k) as [->|(k' & z & ->)].
  - replace (h1 ++ x :: hm ++ [y]) with ((h1 ++ x :: hm) ++ [y]) in E by (rewrite <- app_assoc; reflexivity). apply app_inj_tail in E. destruct E as [E <-].
    destruct I1 as (_ & Io & _ & _ & W). rewrite E in Io, W.
    destruct (W h1 x hm eq_refl Px) as [Bs _]. { intros z Z1 Z2. apply Sm; assumption. }
    pose proof (proj2 (plus_group_now o now c g w _ st R Io) Py) as Pg. destruct (plus_decoded _ _ _ _ _ _ D Pg) as (rt & Ep & ->).
    assert (w = 0) as -> by (destruct Py as [Px0 _]; unfold app_group in Px0; cbn [fst snd] in Px0; destruct (w =? 0) eqn:Ew; [lia|discriminate Px0]).
    destruct (plus_clears _ _ _ _ _ _ Ep) as [Ct Ca]. { rewrite bits_prepared. fold (bits_of_st st). cbn [fst] in Nb. congruence. }
    apply (tr_text_cleared (parts h) st); [exact I2| |]; unfold ab_of, text_of; cbn [set_radiotext st_radiotext]; assumption.
  - replace (h1 ++ x :: hm ++ y :: k' ++ [z]) with ((h1 ++ x :: hm ++ y :: k') ++ [z]) in E by (rewrite <- !app_assoc; cbn [app]; rewrite <- !app_assoc; reflexivity).
    apply app_inj_tail in E. destruct E as [E <-]. rewrite parts_snoc.
    apply (tr_text_step env o (parts k') st now c g w st' j); try assumption; [exact (I3 _ _ _ _ _ E Px Py Sm Nb)|].
    rewrite <- filter_parts, E in S. unfold parts in S |- *. rewrite app_comm_cons, app_assoc, flat_map_app, <- app_assoc in S. apply steady_app in S. destruct S as [_ S]. cbn [flat_map] in S. rewrite <- app_assoc in S. apply steady_app in S. exact (proj2 S).
Qed.

Section Item.
  Variable env : Env.
  Variable o : Options.
  Hypothesis H : host_ok env.
  Hypothesis HT : host_text env.
  Hypothesis OJ : o_output_type o = OutJSON.

  Lemma tags_of_item : forall w0 gs0 ga now1 g1 gm now2 g2 gb gs1 now g w c out line v p,
    let gs := ga ++ (now1, g1, 0) :: gm ++ (now2, g2, 0) :: gb in
    Forall received_group (gs0 ++ gs) -> p <> 0 -> three p (pis gs0) -> Forall (stays p) gs ->
    Forall (fun x => matters (snd (fst x), snd x) = true -> carried_pi x = Some p) gs ->
    app_group (g1, 0) = true -> assigned_last (g_type g1) (flat_map announcement (groups_of ga)) rtplus ->
    app_group (g2, 0) = true -> assigned_last (g_type g2) (flat_map announcement (groups_of (ga ++ (now1, g1, 0) :: gm))) rtplus ->
    (forall x, In x (groups_of gm) -> of_plus (groups_of (gs0 ++ gs)) x -> item_bits (fst x) = item_bits g1) -> item_bits g2 <> item_bits g1 ->
    gs = gs1 ++ [(now, g, w)] -> carried_pi (now, g, w) = Some p ->
    run_groups env o (Channel_new o w0) (gs0 ++ gs) = Ok (c, out ++ [Some line]) -> says line ["radiotext_plus"; "tags"] v ->
    steady (flat_map rt_segment (decoded_in (gs0 ++ gs) (out ++ [Some line]))) ->
    exists l keep vs, held (flat_map rt_segment (groups_of gb)) l /\ v = VArr vs /\ Forall2 (shows_tag l) (filter keep (tags_in g)) vs /\
      Forall (fun t => real t = true /\ fits l t) (filter keep (tags_in g)).
  Proof.
    intros w0 gs0 ga now1 g1 gm now2 g2 gb gs1 now g w c out line v p gs F Np T3 S P A1 L1 A2 L2 Sm Nb Eg Pg E Sv Sd.
    assert (Gs : groups_of gs = groups_of ga ++ (g1, 0) :: groups_of gm ++ (g2, 0) :: groups_of gb) by (unfold groups_of, gs; rewrite map_app; cbn [map]; rewrite map_app; reflexivity).
    clearbody gs. subst gs.
    destruct (last_shown (it_inv (env_ucs2 env)) env o H HT OJ (fun w => it_start _ (Station_new w) eq_refl eq_refl) (fun w p => it_start _ (Station_new_pi w p) eq_refl eq_refl) (it_had _)
      (fun h st now c g w st' j => it_step env o h st now c g w st' j) w0 gs0 gs1 now g w c _ p F Np T3 S Pg E)
      as (old & h0 & out0 & out1 & ln & c1 & st & j & D0 & Eo & Ln0 & Ln1 & I & So & B & _ & Dd & _ & Pj & Ad).
    rewrite app_assoc in Eo. apply app_inj_tail in Eo. destruct Eo as [-> Eo]. assert (line = ln) as -> by congruence. clear Eo.
    assert (R : received_group (now, g, w)) by (apply Forall_app in F; destruct F as [_ F']; apply Forall_app in F'; destruct F' as [_ F']; inversion F'; assumption).
    destruct (tags_value env o st now c1 g w _ j ln v H R So B Dd Pj Sv) as (_ & _ & Tv). apply Tv. clear Tv.
    pose proof (it_step env o _ st now c1 g w _ j I So R B Dd) as (_ & _ & W).
    assert (Dg : decoded_in (gs1 ++ [(now, g, w)]) (out1 ++ [Some ln]) = decoded_in gs1 out1 ++ [(g, w)]) by (rewrite (decoded_in_app _ _ out1 [Some ln] Ln1); reflexivity).
    assert (Fd : filter matters (decoded_in gs1 out1 ++ [(g, w)]) = filter matters (groups_of ga) ++ (g1, 0) :: filter matters (groups_of gm) ++ (g2, 0) :: filter matters (groups_of gb)).
    { specialize (Ad _ (fun x => if matters x then [x] else [])). rewrite !pick_filter, Dg in Ad. rewrite Ad.
      - assert (Mg1 : matters (g1, 0) = true) by (unfold matters; rewrite A1; reflexivity). assert (Mg2 : matters (g2, 0) = true) by (unfold matters; rewrite A2; reflexivity).
        rewrite Gs, filter_app. cbn [filter]. rewrite Mg1, filter_app. cbn [filter]. rewrite Mg2. reflexivity.
      - rewrite Forall_forall in P |- *. intros x X Y. apply (P x X). change (matters (grp x) = true). destruct (matters (grp x)); [reflexivity|exfalso; apply Y; reflexivity]. }
    change (tr_text (parts (groups_of gb)) (ch_station c)). rewrite <- filter_parts.
    rewrite <- app_assoc in W. set (h1 := filter matters h0 ++ filter matters (groups_of ga)).
    assert (Sub0 : forall x, In x h0 -> In x (groups_of gs0)) by (intros x X; apply (decoded_sub gs0 out0); rewrite D0; apply in_or_app; right; exact X).
    apply (W) with (h1 := h1) (x := (g1, 0)) (hm := filter matters (groups_of gm)) (y := (g2, 0)).
    - rewrite <- app_assoc, (decoded_in_app gs0 _ out0 _ Ln0), flat_map_app in Sd. rewrite Dg, D0, flat_map_app in Sd. rewrite <- app_assoc in Sd. apply steady_app in Sd. destruct Sd as [_ Sd]. unfold parts. rewrite flat_map_app. exact Sd.
    - rewrite filter_app, Fd. unfold h1. rewrite <- app_assoc. reflexivity.
    - split; [exact A1|]. cbn [fst]. unfold h1. rewrite flat_map_app, !filter_ann. apply find_last. exact L1.
    - split; [exact A2|]. cbn [fst]. unfold h1. rewrite <- app_assoc, flat_map_app, filter_ann.
      replace (flat_map announcement (filter matters (groups_of ga) ++ (g1, 0) :: filter matters (groups_of gm))) with (flat_map announcement (groups_of (ga ++ (now1, g1, 0) :: gm))); [apply find_last; exact L2|].
      unfold groups_of. rewrite map_app. cbn [map fst snd]. rewrite !flat_map_app. cbn [flat_map]. rewrite !filter_ann. reflexivity.
    - intros z Z1 [Z2 Z3]. cbn [fst]. apply filter_In in Z1. apply Sm; [apply Z1|]. split; [exact Z2|]. apply in_flat_map in Z3. destruct Z3 as (y & Y1 & Y2). apply in_flat_map. exists y. split; [|exact Y2].
      replace (groups_of (gs0 ++ gs1 ++ [(now, g, w)])) with (groups_of gs0 ++ groups_of ga ++ (g1, 0) :: groups_of gm ++ (g2, 0) :: groups_of gb) by (rewrite <- Gs; unfold groups_of; rewrite <- map_app; reflexivity).
      unfold h1 in Y1. rewrite <- app_assoc in Y1. apply in_app_or in Y1. apply in_or_app. destruct Y1 as [Y1|Y1]; [left; apply filter_In in Y1; apply Sub0, Y1|right].
      apply in_app_or in Y1. apply in_or_app. destruct Y1 as [Y1|Y1]; [left; apply filter_In in Y1; apply Y1|right]. destruct Y1 as [Y1|Y1]; [left; exact Y1|right]. apply in_or_app. left. apply filter_In in Y1. apply Y1.
    - exact Nb.
  Qed.
End Item.
