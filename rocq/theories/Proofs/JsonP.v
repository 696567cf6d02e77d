(* What the serialiser writes is a JSON text and reads back as the value. *)
From Verif.Proofs Require Import Tac Numerals FreqP.
From Verif.Model Require Import Util Float Json.
From Verif.Spec Require Import Numerals Unicode JsonText.

(* Induction over values with nested lists *)
Lemma json_ind' (P : json -> Prop) :
  P JNull -> (forall b, P (JBool b)) -> (forall z, P (JInt z)) -> (forall f, P (JFloat f)) ->
  (forall s, P (JStr s)) -> (forall l, Forall P l -> P (JArr l)) ->
  (forall m, Forall (fun kv => P (snd kv)) m -> P (JObj m)) -> forall j, P j.
Proof.
  intros H1 H2 H3 H4 H5 H6 H7. fix IH 1. intros [|b|z|f|s|l|m].
  - exact H1.
  - apply H2.
  - apply H3.
  - apply H4.
  - apply H5.
  - apply H6. induction l as [|x l IHl]; constructor; [apply IH|exact IHl].
  - apply H7. induction m as [|[k x] m IHm]; constructor; [apply IH|exact IHm].
Qed.

(* Numbers *)
Definition float_text_ok (fl : spec_float -> bytes) : Prop :=
  forall f, fl f = bs "null" \/ json_number (fl f) = true.

Section Dump.
Context (fl : spec_float -> bytes) (Hfl : float_text_ok fl).

Definition float_value (f : spec_float) : jval :=
  if bytes_eqb (fl f) (bs "null") then VNull else VNum (fl f).

(* The value a model value stands for *)
Fixpoint value_of (j : json) : jval :=
  match j with
  | JNull => VNull
  | JBool b => VBool b
  | JInt z => VNum (dec_string_Z z)
  | JFloat f => float_value f
  | JStr s => VStr s
  | JArr l => VArr (map value_of l)
  | JObj m => VObj (map (fun kv => (bs (fst kv), value_of (snd kv))) m)
  end.

Fixpoint jsize (j : json) : nat :=
  match j with
  | JArr l => S (fold_right (fun x a => S (jsize x) + a)%nat 0%nat l)
  | JObj m => S (fold_right (fun kv a => S (jsize (snd kv)) + a)%nat 0%nat m)
  | _ => 1
  end.

(* What may follow a value *)
Definition sep (rest : bytes) : Prop :=
  match rest with [] => True | c :: _ => num_char c = false end.

Lemma span_num_app : forall a rest, Forall (fun c => num_char c = true) a -> sep rest ->
  span_num (a ++ rest) = (a, rest).
Proof.
  induction a as [|c a IH]; intros rest F S; cbn [app span_num].
  - destruct rest as [|c r]; [reflexivity|]. cbn [span_num sep] in *. rewrite S. reflexivity.
  - inversion F; subst. cbn [span_num]. rewrite H1, IH by assumption. reflexivity.
Qed.

Lemma is_digit_num : forall c, is_digit c = true -> num_char c = true.
Proof. intros c H. unfold num_char. rewrite H. reflexivity. Qed.

Lemma drop_digits_app : forall a, Forall (fun c => 48 <= c /\ c <= 57) a -> drop_digits a = [].
Proof.
  induction a as [|c a IH]; intros F; [reflexivity|]. inversion F; subst. cbn [drop_digits].
  replace (is_digit c) with true by (unfold is_digit; lia). apply IH. assumption.
Qed.

Lemma number_int_dec : forall v, number_int (dec_string v) = true.
Proof.
  intros v. pose proof (dec_string_digits v) as D. pose proof (dec_string_no_leading_zero v) as Z.
  pose proof (dec_string_nonempty v) as NE.
  destruct Z as [Z|Z]; [rewrite Z; reflexivity|].
  destruct (dec_string v) as [|d r] eqn:E; [contradiction|].
  unfold number_int. inversion D; subst.
  assert (d <> 48) by (intros ->; exact (Z r eq_refl)).
  replace (match d with 48 => number_frac r | _ => is_digit d && number_frac (drop_digits (d :: r)) end)
    with (is_digit d && number_frac (drop_digits (d :: r))).
  - replace (is_digit d) with true by (unfold is_digit; lia). cbn [andb].
    rewrite drop_digits_app by assumption. reflexivity.
  - destruct d as [|p]; [reflexivity|]. do 6 (destruct p as [p|p|]; try reflexivity). contradiction.
Qed.

Lemma json_number_dec : forall v, json_number (dec_string v) = true.
Proof.
  intros v. pose proof (number_int_dec v) as H. unfold json_number.
  pose proof (dec_string_digits v) as D. destruct (dec_string v) as [|d r]; [exact H|].
  inversion D as [|? ? [Hd1 Hd2] _]; subst.
  destruct d as [|p]; [exact H|]. do 6 (destruct p as [p|p|]; try exact H). exfalso. lia.
Qed.

Lemma json_number_decZ : forall z, json_number (dec_string_Z z) = true.
Proof.
  intros z. unfold dec_string_Z. destruct (z <? 0)%Z; [apply number_int_dec|apply json_number_dec].
Qed.

Lemma dec_string_Z_chars : forall z, Forall (fun c => num_char c = true) (dec_string_Z z).
Proof.
  intros z. assert (Q : forall v, Forall (fun c => num_char c = true) (dec_string v)).
  { intros v. eapply Forall_impl; [|apply dec_string_digits]. cbv beta. intros c Hc.
    apply is_digit_num. unfold is_digit. lia. }
  unfold dec_string_Z. destruct (z <? 0)%Z; [constructor; [reflexivity|apply Q]|apply Q].
Qed.

Lemma drop_digits_spec : forall s, exists a, s = a ++ drop_digits s /\ Forall (fun c => num_char c = true) a.
Proof.
  induction s as [|c s IH]; [exists []; split; [reflexivity|constructor]|]. cbn [drop_digits].
  destruct (is_digit c) eqn:E.
  - destruct IH as (a & E1 & F). exists (c :: a). split; [cbn [app]; f_equal; exact E1|].
    constructor; [apply is_digit_num; exact E|exact F].
  - exists []. split; [reflexivity|constructor].
Qed.

Lemma drop_digits_nil_chars : forall s, drop_digits s = [] -> Forall (fun c => num_char c = true) s.
Proof.
  intros s H. destruct (drop_digits_spec s) as (a & E & F). rewrite H, app_nil_r in E. rewrite E. exact F.
Qed.

Lemma number_exp_chars : forall s, number_exp s = true -> Forall (fun c => num_char c = true) s.
Proof.
  intros [|e r] H; [constructor|]. cbn [number_exp] in H.
  destruct ((e =? 69) || (e =? 101)) eqn:E; [|discriminate].
  constructor; [unfold num_char; lia|].
  assert (Q : forall t, match t with
                        | d :: _ => is_digit d && match drop_digits t with [] => true | _ => false end
                        | [] => false
                        end = true -> Forall (fun c => num_char c = true) t).
  { intros [|d t] Ht; [discriminate|]. apply drop_digits_nil_chars.
    destruct (drop_digits (d :: t)); [reflexivity|]. rewrite andb_false_r in Ht. discriminate. }
  destruct r as [|c r']; [discriminate|].
  destruct ((c =? 43) || (c =? 45)) eqn:E2; [|apply Q; exact H].
  constructor; [unfold num_char; lia|]. apply Q. exact H.
Qed.

Lemma number_frac_chars : forall s, number_frac s = true -> Forall (fun c => num_char c = true) s.
Proof.
  intros s H. destruct s as [|c r]; [constructor|].
  assert (Q : c = 46 \/ number_exp (c :: r) = true).
  { destruct (N.eq_dec c 46) as [->|Hc]; [left; reflexivity|right].
    unfold number_frac in H. destruct c as [|p]; [exact H|].
    do 6 (destruct p as [p|p|]; try exact H). exfalso. apply Hc. reflexivity. }
  destruct Q as [->|Q]; [|apply number_exp_chars; exact Q].
  constructor; [reflexivity|]. cbn [number_frac] in H. destruct r as [|d r']; [discriminate|].
  apply andb_prop in H. destruct H as [_ H].
  destruct (drop_digits_spec (d :: r')) as (a & E & F). rewrite E. apply Forall_app. split; [exact F|].
  apply number_exp_chars. exact H.
Qed.

Lemma number_int_chars : forall s, number_int s = true -> Forall (fun c => num_char c = true) s.
Proof.
  intros s H. destruct s as [|c r]; [discriminate|].
  assert (Q : (c = 48 /\ number_frac r = true) \/ number_frac (drop_digits (c :: r)) = true).
  { destruct (N.eq_dec c 48) as [->|Hc]; [left; split; [reflexivity|exact H]|right].
    unfold number_int in H. destruct c as [|p]; [discriminate H|].
    do 6 (destruct p as [p|p|]; try (apply andb_prop in H; destruct H as [_ H]; exact H)).
    exfalso. apply Hc. reflexivity. }
  destruct Q as [[-> Q]|Q]; [constructor; [reflexivity|apply number_frac_chars; exact Q]|].
  destruct (drop_digits_spec (c :: r)) as (a & E & F). rewrite E. apply Forall_app. split; [exact F|].
  apply number_frac_chars. exact Q.
Qed.

Lemma json_number_chars : forall s, json_number s = true -> s <> [] /\ Forall (fun c => num_char c = true) s.
Proof.
  intros s H. destruct s as [|c r]; [discriminate|]. split; [discriminate|].
  assert (Q : (c = 45 /\ number_int r = true) \/ number_int (c :: r) = true).
  { destruct (N.eq_dec c 45) as [->|Hc]; [left; split; [reflexivity|exact H]|right].
    unfold json_number in H. destruct c as [|p]; [exact H|].
    do 6 (destruct p as [p|p|]; try exact H). exfalso. apply Hc. reflexivity. }
  destruct Q as [[-> Q]|Q]; [constructor; [reflexivity|]|]; apply number_int_chars; exact Q.
Qed.

(* Strings *)
Lemma escape_read : forall b t r t', read_chars r = Some (t', t) -> read_chars (escape_byte b ++ r) = Some (b :: t', t).
Proof.
  intros b t r t' H. unfold escape_byte.
  destruct (b =? 8) eqn:E1; [apply N.eqb_eq in E1; subst; cbn; rewrite H; reflexivity|].
  destruct (b =? 9) eqn:E2; [apply N.eqb_eq in E2; subst; cbn; rewrite H; reflexivity|].
  destruct (b =? 10) eqn:E3; [apply N.eqb_eq in E3; subst; cbn; rewrite H; reflexivity|].
  destruct (b =? 12) eqn:E4; [apply N.eqb_eq in E4; subst; cbn; rewrite H; reflexivity|].
  destruct (b =? 13) eqn:E5; [apply N.eqb_eq in E5; subst; cbn; rewrite H; reflexivity|].
  destruct (b =? 34) eqn:E6; [apply N.eqb_eq in E6; subst; cbn; rewrite H; reflexivity|].
  destruct (b =? 92) eqn:E7; [apply N.eqb_eq in E7; subst; cbn; rewrite H; reflexivity|].
  destruct (b <? 32) eqn:E8.
  - assert (B : In b (nseq 0 32)) by (apply nseq_In; [lia|cbn; lia]).
    cbn [nseq In] in B. cbn in B.
    repeat (destruct B as [B|B]; [subst b; try discriminate; cbn; rewrite H; reflexivity|]). contradiction.
  - cbn [app read_chars]. rewrite E6, E7, E8, H. reflexivity.
Qed.

Lemma read_string : forall s rest, read_chars (flat_map escape_byte s ++ 34 :: rest) = Some (s, rest).
Proof.
  induction s as [|b s IH]; intros rest; [reflexivity|]. cbn [flat_map]. rewrite <- app_assoc.
  apply escape_read. apply IH.
Qed.

Lemma dump_string_eq : forall s rest, dump_string s ++ rest = 34 :: flat_map escape_byte s ++ 34 :: rest.
Proof. intros. unfold dump_string. rewrite <- !app_assoc. reflexivity. Qed.

(* First character of a dumped value *)
Lemma dump_head : forall j rest, exists c r, dump fl j ++ rest = c :: r /\ is_ws c = false /\
  c <> 93 /\ c <> 125.
Proof.
  assert (Num : forall a rest, a <> [] -> Forall (fun c => num_char c = true) a ->
            exists c r, a ++ rest = c :: r /\ is_ws c = false /\ c <> 93 /\ c <> 125).
  { intros [|c a] rest NE F; [contradiction|]. inversion F; subst. exists c, (a ++ rest).
    split; [reflexivity|]. unfold num_char, is_digit, is_ws in *. lia. }
  assert (Nl : forall rest, exists c r, bs "null" ++ rest = c :: r /\ is_ws c = false /\ c <> 93 /\ c <> 125).
  { intros rest. eexists _, _. split; [reflexivity|]. repeat split; discriminate. }
  intros [|b|z|f|s|l|m] rest; cbn [dump].
  - apply Nl.
  - destruct b; eexists _, _; (split; [reflexivity|]); repeat split; discriminate.
  - apply Num; [|apply dec_string_Z_chars]. unfold dec_string_Z. destruct (z <? 0)%Z; [discriminate|apply dec_string_nonempty].
  - destruct (Hfl f) as [E|E]; [rewrite E; apply Nl|]. apply json_number_chars in E. apply Num; tauto.
  - rewrite dump_string_eq. eexists _, _. split; [reflexivity|]. repeat split; discriminate.
  - eexists _, _. split; [reflexivity|]. repeat split; discriminate.
  - eexists _, _. split; [reflexivity|]. repeat split; discriminate.
Qed.

Lemma skip_ws_dump : forall j rest, skip_ws (dump fl j ++ rest) = dump fl j ++ rest.
Proof.
  intros j rest. destruct (dump_head j rest) as (c & r & E & W & _). rewrite E. cbn [skip_ws]. rewrite W. reflexivity.
Qed.

Definition reads (n : nat) (j : json) : Prop :=
  forall rest, sep rest -> read_value n (dump fl j ++ rest) = Some (value_of j, rest).

Lemma read_num_value : forall n a rest, json_number a = true -> sep rest ->
  read_value (S n) (a ++ rest) = Some (VNum a, rest).
Proof.
  intros n a rest H S. destruct (json_number_chars a H) as [NE F].
  destruct a as [|c a]; [contradiction|]. inversion F; subst.
  assert (W : is_ws c = false) by (unfold num_char, is_digit, is_ws in *; lia).
  cbn [app read_value skip_ws]. rewrite W.
  replace (c =? 123) with false by (unfold num_char, is_digit in *; lia).
  replace (c =? 91) with false by (unfold num_char, is_digit in *; lia).
  replace (c =? 34) with false by (unfold num_char, is_digit in *; lia).
  replace (c =? 110) with false by (unfold num_char, is_digit in *; lia).
  replace (c =? 116) with false by (unfold num_char, is_digit in *; lia).
  replace (c =? 102) with false by (unfold num_char, is_digit in *; lia).
  rewrite (span_num_app (c :: a) rest F S : span_num (c :: a ++ rest) = _). rewrite H. reflexivity.
Qed.

Lemma sep_comma : forall r, sep (44 :: r). Proof. intros. reflexivity. Qed.
Lemma sep_rb : forall r, sep (93 :: r). Proof. intros. reflexivity. Qed.
Lemma sep_rc : forall r, sep (125 :: r). Proof. intros. reflexivity. Qed.

Lemma read_elements_ok : forall k l n rest, (length l <= n)%nat -> l <> [] -> Forall (reads k) l ->
  read_elements (read_value k) n (join (map (dump fl) l) [44] ++ 93 :: rest) = Some (map value_of l, rest).
Proof.
  intros k. induction l as [|x l IH]; intros n rest Hn NE F; [contradiction|].
  destruct n as [|n]; [cbn in Hn; lia|]. inversion F as [|? ? Hx Hl]; subst. cbn [read_elements].
  destruct l as [|y l].
  - cbn [map join]. rewrite (Hx (93 :: rest) (sep_rb _)). cbn [skip_ws]. reflexivity.
  - change (join (map (dump fl) (x :: y :: l)) [44]) with
      (dump fl x ++ [44] ++ join (map (dump fl) (y :: l)) [44]).
    rewrite <- !app_assoc. cbn [app]. rewrite (Hx _ (sep_comma _)). cbn [skip_ws].
    change (is_ws 44) with false. cbv iota.
    rewrite (IH n rest); [reflexivity|cbn [length] in *; lia|discriminate|exact Hl].
Qed.

Definition dump_member (kv : string * json) : bytes :=
  dump_string (bs (fst kv)) ++ [58] ++ dump fl (snd kv).

Lemma read_members_ok : forall k m n rest, (length m <= n)%nat -> m <> [] ->
  Forall (fun kv => reads k (snd kv)) m ->
  read_members (read_value k) n (join (map dump_member m) [44] ++ 125 :: rest) =
  Some (map (fun kv => (bs (fst kv), value_of (snd kv))) m, rest).
Proof.
  intros k. induction m as [|[key x] m IH]; intros n rest Hn NE F; [contradiction|].
  destruct n as [|n]; [cbn in Hn; lia|]. inversion F as [|? ? Hx Hm]; subst. cbn [snd] in Hx.
  cbn [read_members].
  assert (Hd : forall t, (dump_member (key, x)) ++ t =
            34 :: flat_map escape_byte (bs key) ++ 34 :: 58 :: dump fl x ++ t).
  { intros t. unfold dump_member. cbn [fst snd]. rewrite <- !app_assoc. rewrite dump_string_eq. reflexivity. }
  destruct m as [|y m].
  - cbn [map join]. rewrite Hd. cbn [skip_ws]. change (is_ws 34) with false. cbv iota.
    rewrite read_string. cbn [skip_ws]. change (is_ws 58) with false. cbv iota.
    rewrite (Hx (125 :: rest) (sep_rc _)). reflexivity.
  - change (join (map dump_member ((key, x) :: y :: m)) [44]) with
      (dump_member (key, x) ++ [44] ++ join (map dump_member (y :: m)) [44]).
    rewrite <- !app_assoc. rewrite Hd. cbn [app skip_ws]. change (is_ws 34) with false. cbv iota.
    rewrite read_string. cbn [skip_ws]. change (is_ws 58) with false. cbv iota.
    rewrite (Hx _ (sep_comma _)). cbn [skip_ws]. change (is_ws 44) with false. cbv iota.
    rewrite (IH n rest); [reflexivity|cbn [length] in *; lia|discriminate|exact Hm].
Qed.

Lemma dump_obj : forall m, dump fl (JObj m) = [123] ++ join (map dump_member m) [44] ++ [125].
Proof. reflexivity. Qed.

Lemma reads_ok : forall j n, (jsize j <= n)%nat -> reads n j.
Proof.
  induction j as [|b|z|f|s|l IH|m IH] using json_ind'; intros n Hn rest HS;
  destruct n as [|n]; try (cbn in Hn; lia).
  - reflexivity.
  - destruct b; reflexivity.
  - cbn [dump value_of]. apply read_num_value; [apply json_number_decZ|exact HS].
  - cbn [dump value_of]. unfold float_value. destruct (Hfl f) as [E|E].
    + rewrite E. reflexivity.
    + rewrite (read_num_value n (fl f) rest E HS).
      destruct (bytes_eqb (fl f) (bs "null")) eqn:Q; [|reflexivity].
      apply bytes_eqb_eq in Q. rewrite Q in E. discriminate.
  - cbn [dump value_of]. rewrite dump_string_eq. cbn [read_value skip_ws].
    change (is_ws 34) with false. cbv iota. rewrite read_string. reflexivity.
  - change (dump fl (JArr l)) with ([91] ++ join (map (dump fl) l) [44] ++ [93]).
    rewrite <- !app_assoc. cbn [app]. destruct l as [|x l]; [reflexivity|].
    assert (Sz : forall l, Forall (fun y => (jsize y <= n)%nat) l \/
              (n < fold_right (fun y a => S (jsize y) + a) 0 l)%nat).
    { clear. induction l as [|y l IH]; [left; constructor|]. cbn [fold_right].
      destruct IH as [F|F]; [|right; lia]. destruct (Nat.le_gt_cases (jsize y) n); [left; constructor; assumption|right; lia]. }
    assert (Ln : forall l, (length l <= fold_right (fun y a => S (jsize y) + a) 0 l)%nat).
    { clear. induction l as [|y l IH]; cbn [length fold_right]; lia. }
    cbn [jsize] in Hn. specialize (Sz (x :: l)). specialize (Ln (x :: l)).
    destruct Sz as [F|F]; [|lia].
    assert (R : Forall (reads n) (x :: l)).
    { apply Forall_forall. intros y Hy. rewrite Forall_forall in IH, F. apply IH; [exact Hy|apply F; exact Hy]. }
    change (value_of (JArr (x :: l))) with (VArr (map value_of (x :: l))).
    pose proof (read_elements_ok n (x :: l) (S n) rest ltac:(lia) ltac:(discriminate) R) as E.
    cbn [read_value skip_ws]. change (is_ws 91) with false. cbv iota.
    change (91 =? 123) with false. change (91 =? 91) with true. cbv iota.
    assert (Hd : exists c r, join (map (dump fl) (x :: l)) [44] ++ 93 :: rest = c :: r /\ is_ws c = false /\ c <> 93).
    { destruct l as [|y l]; [cbn [map join]; destruct (dump_head x (93 :: rest)) as (c & r & Q & W & A & B); eauto|].
      change (join (map (dump fl) (x :: y :: l)) [44]) with (dump fl x ++ [44] ++ join (map (dump fl) (y :: l)) [44]).
      rewrite <- app_assoc. destruct (dump_head x (([44] ++ join (map (dump fl) (y :: l)) [44]) ++ 93 :: rest)) as (c & r & Q & W & A & B).
      eauto. }
    destruct Hd as (c & r & Q & W & A). rewrite Q in *. cbn [skip_ws]. rewrite W.
    replace (match c with 93 => Some (VArr [], r) | _ => match read_elements (read_value n) (S n) (c :: r) with
              | Some (l0, rest0) => Some (VArr l0, rest0) | None => None end end)
      with (match read_elements (read_value n) (S n) (c :: r) with
              | Some (l0, rest0) => Some (VArr l0, rest0) | None => None end).
    + rewrite E. reflexivity.
    + destruct c as [|p]; [reflexivity|]. do 7 (destruct p as [p|p|]; try reflexivity). contradiction.
  - rewrite dump_obj. rewrite <- !app_assoc. cbn [app]. destruct m as [|x m]; [reflexivity|].
    assert (Sz : forall m : list (string * json), Forall (fun y => (jsize (snd y) <= n)%nat) m \/
              (n < fold_right (fun y a => S (jsize (snd y)) + a) 0 m)%nat).
    { clear. induction m as [|y m IH]; [left; constructor|]. cbn [fold_right].
      destruct IH as [F|F]; [|right; lia]. destruct (Nat.le_gt_cases (jsize (snd y)) n); [left; constructor; assumption|right; lia]. }
    assert (Ln : forall m : list (string * json), (length m <= fold_right (fun y a => S (jsize (snd y)) + a) 0 m)%nat).
    { clear. induction m as [|y m IH]; cbn [length fold_right]; lia. }
    cbn [jsize] in Hn. specialize (Sz (x :: m)). specialize (Ln (x :: m)).
    destruct Sz as [F|F]; [|lia].
    assert (R : Forall (fun kv => reads n (snd kv)) (x :: m)).
    { apply Forall_forall. intros y Hy. rewrite Forall_forall in IH, F. apply (IH y Hy). apply F; exact Hy. }
    change (value_of (JObj (x :: m))) with (VObj (map (fun kv => (bs (fst kv), value_of (snd kv))) (x :: m))).
    pose proof (read_members_ok n (x :: m) (S n) rest ltac:(lia) ltac:(discriminate) R) as E.
    cbn [read_value skip_ws]. change (is_ws 123) with false. cbv iota.
    change (123 =? 123) with true. cbv iota.
    assert (Hd : exists r, join (map dump_member (x :: m)) [44] ++ 125 :: rest = 34 :: r).
    { destruct m as [|y m]; [cbn [map join]; unfold dump_member; rewrite <- !app_assoc; rewrite dump_string_eq; eauto|].
      change (join (map dump_member (x :: y :: m)) [44]) with (dump_member x ++ [44] ++ join (map dump_member (y :: m)) [44]).
      unfold dump_member at 1. rewrite <- !app_assoc. rewrite dump_string_eq. eauto. }
    destruct Hd as (r & Q). rewrite Q in *. cbn [skip_ws]. change (is_ws 34) with false. cbv iota.
    rewrite E. reflexivity.
Qed.

Lemma jsize_dump : forall j, (jsize j <= length (dump fl j))%nat.
Proof.
  assert (J : forall (l : list bytes), (length l <= length (join l [44%N]) + 1)%nat /\
    (fold_right (fun x a => length x + a)%nat 0%nat l + (length l - 1) = length (join l [44%N]))%nat).
  { induction l as [|x l [A B]]; [cbn; lia|]. destruct l as [|y l]; [cbn; lia|].
    change (join (x :: y :: l) [44]) with (x ++ [44] ++ join (y :: l) [44]). rewrite !app_length.
    cbn [length fold_right] in *. lia. }
  induction j as [|b|z|f|s|l IH|m IH] using json_ind'.
  - cbn. lia.
  - destruct b; cbn; lia.
  - cbn [jsize dump]. pose proof (json_number_decZ z) as H. apply json_number_chars in H. destruct H as [NE _].
    destruct (dec_string_Z z); [contradiction|cbn; lia].
  - cbn [jsize dump]. destruct (Hfl f) as [E|E]; [rewrite E; cbn; lia|]. apply json_number_chars in E. destruct E as [NE _].
    destruct (fl f); [contradiction|cbn; lia].
  - cbn [jsize dump]. unfold dump_string. rewrite !app_length. cbn. lia.
  - change (dump fl (JArr l)) with ([91] ++ join (map (dump fl) l) [44] ++ [93]).
    rewrite !app_length. destruct (J (map (dump fl) l)) as [A B]. rewrite <- B, map_length. cbn [jsize length].
    assert (Q : (fold_right (fun x a => S (jsize x) + a) 0 l <= fold_right (fun x a => length x + a) 0 (map (dump fl) l) + length l)%nat).
    { clear A B J. induction IH as [|x l Hx Hl IHl]; [cbn; lia|]. cbn [fold_right map length]. lia. }
    destruct l; cbn [length fold_right map] in *; lia.
  - rewrite dump_obj. rewrite !app_length. destruct (J (map dump_member m)) as [A B]. rewrite <- B, map_length. cbn [jsize length].
    assert (Q : (fold_right (fun x a => S (jsize (snd x)) + a) 0 m <= fold_right (fun x a => length x + a) 0 (map dump_member m))%nat).
    { clear A B J. induction IH as [|x l Hx Hl IHl]; [cbn; lia|]. cbn [fold_right map length].
      unfold dump_member at 1. unfold dump_string. rewrite !app_length. cbn [length]. lia. }
    lia.
Qed.

(* Reading back what was written *)
Lemma read_dump : forall j, read_json (dump fl j) = Some (value_of j).
Proof.
  intros j. unfold read_json.
  assert (R : reads (S (length (dump fl j))) j).
  { apply reads_ok. pose proof (jsize_dump j). lia. }
  specialize (R [] I). rewrite app_nil_r in R. rewrite R. reflexivity.
Qed.

(* No control characters in the output: it is one line *)
Definition no_control (s : bytes) : Prop := Forall (fun c => 32 <= c) s.

Lemma no_control_app : forall a b, no_control a -> no_control b -> no_control (a ++ b).
Proof. intros. apply Forall_app. split; assumption. Qed.

Lemma escape_no_control : forall b, no_control (escape_byte b).
Proof.
  intros b. unfold escape_byte.
  repeat match goal with |- no_control (if ?x then _ else _) => destruct x eqn:?E end;
    try (repeat constructor; discriminate).
  - assert (B : In b (nseq 0 32)) by (apply nseq_In; [lia|cbn; lia]).
    cbn in B. repeat (destruct B as [B|B]; [subst b; repeat constructor; discriminate|]). contradiction.
  - constructor; [lia|constructor].
Qed.

Lemma dump_string_no_control : forall s, no_control (dump_string s).
Proof.
  intros s. unfold dump_string. apply no_control_app; [repeat constructor; discriminate|].
  apply no_control_app; [|repeat constructor; discriminate].
  induction s as [|b s IH]; [constructor|]. cbn [flat_map]. apply no_control_app; [apply escape_no_control|exact IH].
Qed.

Lemma num_no_control : forall s, Forall (fun c => num_char c = true) s -> no_control s.
Proof.
  intros s H. eapply Forall_impl; [|exact H]. cbv beta. intros c Hc. unfold num_char, is_digit in Hc. lia.
Qed.

Lemma join_no_control : forall l, Forall no_control l -> no_control (join l [44]).
Proof.
  induction l as [|x l IH]; intros F; [constructor|]. inversion F; subst.
  destruct l as [|y l]; [assumption|].
  change (join (x :: y :: l) [44]) with (x ++ [44] ++ join (y :: l) [44]).
  apply no_control_app; [assumption|]. apply no_control_app; [repeat constructor; discriminate|apply IH; assumption].
Qed.

Lemma dump_no_control : forall j, no_control (dump fl j).
Proof.
  induction j as [|b|z|f|s|l IH|m IH] using json_ind'.
  - repeat constructor; discriminate.
  - destruct b; repeat constructor; discriminate.
  - apply num_no_control, dec_string_Z_chars.
  - cbn [dump]. destruct (Hfl f) as [E|E]; [rewrite E; repeat constructor; discriminate|].
    apply json_number_chars in E. apply num_no_control. tauto.
  - apply dump_string_no_control.
  - change (dump fl (JArr l)) with ([91] ++ join (map (dump fl) l) [44] ++ [93]).
    apply no_control_app; [repeat constructor; discriminate|]. apply no_control_app; [|repeat constructor; discriminate].
    apply join_no_control. apply Forall_map. exact IH.
  - rewrite dump_obj. apply no_control_app; [repeat constructor; discriminate|].
    apply no_control_app; [|repeat constructor; discriminate]. apply join_no_control. apply Forall_map.
    eapply Forall_impl; [|exact IH]. intros [k x] Hx. unfold dump_member. cbn [fst snd] in *.
    apply no_control_app; [apply dump_string_no_control|]. apply no_control_app; [repeat constructor; discriminate|exact Hx].
Qed.
End Dump.

(* Looking up members *)
Lemma bs_inj : forall a b, bs a = bs b -> a = b.
Proof.
  induction a as [|c a IH]; intros [|d b] H; cbn [bs] in H; try discriminate; [reflexivity|].
  injection H as H1 H2. f_equal; [|apply IH; exact H2].
  rewrite <- (ascii_N_embedding c), <- (ascii_N_embedding d). f_equal. exact H1.
Qed.

Lemma bs_eqb : forall a b, bytes_eqb (bs a) (bs b) = String.eqb a b.
Proof.
  intros a b. destruct (String.eqb_spec a b) as [->|N].
  - apply bytes_eqb_eq. reflexivity.
  - destruct (bytes_eqb (bs a) (bs b)) eqn:E; [|reflexivity]. apply bytes_eqb_eq in E.
    apply bs_inj in E. contradiction.
Qed.

Lemma member_value_of : forall fl k m,
  member (bs k) (map (fun kv => (bs (fst kv), value_of fl (snd kv))) m) =
  match obj_find k m with Some v => Some (value_of fl v) | None => None end.
Proof.
  intros fl k. induction m as [|[k' v] m IH]; [reflexivity|]. cbn [map member obj_find fst snd].
  rewrite bs_eqb. destruct (String.eqb k k'); [reflexivity|exact IH].
Qed.

Lemma at_path_value_of : forall fl p j,
  at_path p (value_of fl j) = match jget p j with Some v => Some (value_of fl v) | None => None end.
Proof.
  intros fl. induction p as [|k p IH]; intros j; [reflexivity|].
  cbn [at_path jget]. destruct j as [|b|z|f|s|l|m]; cbn [value_of]; try reflexivity.
  - unfold float_value. destruct (bytes_eqb (fl f) (bs "null")); reflexivity.
  - rewrite member_value_of. destruct (obj_find k m) as [v|]; [apply IH|reflexivity].
Qed.

Lemma line_at_dump : forall fl, float_text_ok fl -> forall p j,
  line_at p (dump fl j) = match jget p j with Some v => Some (value_of fl v) | None => None end.
Proof.
  intros fl H p j. unfold line_at. rewrite read_dump by exact H.
  apply at_path_value_of.
Qed.
