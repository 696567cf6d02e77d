(* The serialiser's acceptance test is exactly UTF-8. *)
From Verif.Proofs Require Import Tac.
From Verif.Model Require Import Util Json.
From Verif.Spec Require Import Unicode.

Lemma encode_cases : forall c, scalar c ->
  (c < 0x80 /\ utf8_encode c = [c]) \/
  (0x80 <= c /\ c < 0x800 /\ utf8_encode c = [0xC0 + c / 0x40; 0x80 + c mod 0x40]) \/
  (0x800 <= c /\ c < 0x10000 /\
     utf8_encode c = [0xE0 + c / 0x1000; 0x80 + (c / 0x40) mod 0x40; 0x80 + c mod 0x40]) \/
  (0x10000 <= c /\ c <= 0x10FFFF /\
     utf8_encode c = [0xF0 + c / 0x40000; 0x80 + (c / 0x1000) mod 0x40; 0x80 + (c / 0x40) mod 0x40; 0x80 + c mod 0x40]).
Proof.
  intros c H. unfold scalar in H. unfold utf8_encode.
  destruct (c <? 0x80) eqn:E1; [left; split; [lia|reflexivity]|right].
  destruct (c <? 0x800) eqn:E2; [left; repeat split; lia|right].
  destruct (c <? 0x10000) eqn:E3; [left|right]; repeat split; lia.
Qed.

Lemma valid_encode : forall c r, scalar c -> utf8_valid (utf8_encode c ++ r) = utf8_valid r.
Proof.
  intros c r H. destruct (encode_cases c H) as [(L & ->)|[(L1 & L2 & ->)|[(L1 & L2 & ->)|(L1 & L2 & ->)]]]; cbn [app].
  - cbn [utf8_valid]. replace (c <? 128) with true by lia. reflexivity.
  - set (a := 0xC0 + c / 0x40). set (b := 0x80 + c mod 0x40).
    assert (Ha : 194 <= a /\ a <= 223) by (unfold a; lia).
    assert (Hb : 128 <= b /\ b <= 191) by (unfold b; lia).
    clearbody a b. cbn [utf8_valid]. replace (a <? 128) with false by lia.
    unfold inr, cont. replace ((194 <=? a) && (a <=? 223)) with true by lia.
    replace ((128 <=? b) && (b <=? 191)) with true by lia. reflexivity.
  - set (a := 0xE0 + c / 0x1000). set (b := 0x80 + (c / 0x40) mod 0x40). set (d := 0x80 + c mod 0x40).
    unfold scalar in H.
    assert (Ha : 224 <= a /\ a <= 239) by (unfold a; lia).
    assert (Hb : 128 <= b /\ b <= 191) by (unfold b; lia).
    assert (Hd : 128 <= d /\ d <= 191) by (unfold d; lia).
    assert (H224 : a = 224 -> 160 <= b) by (unfold a, b; lia).
    assert (H237 : a = 237 -> b <= 159) by (unfold a, b; lia).
    clearbody a b d. cbn [utf8_valid]. replace (a <? 128) with false by lia.
    unfold inr, cont. replace ((194 <=? a) && (a <=? 223)) with false by lia.
    replace ((128 <=? d) && (d <=? 191)) with true by lia.
    replace ((128 <=? b) && (b <=? 191)) with true by lia.
    destruct (a =? 224) eqn:E.
    { replace ((160 <=? b) && (b <=? 191)) with true by lia. reflexivity. }
    destruct (((225 <=? a) && (a <=? 236)) || ((238 <=? a) && (a <=? 239))) eqn:E2; [reflexivity|].
    replace (a =? 237) with true by lia.
    replace ((128 <=? b) && (b <=? 159)) with true by lia. reflexivity.
  - set (a := 0xF0 + c / 0x40000). set (b := 0x80 + (c / 0x1000) mod 0x40).
    set (d := 0x80 + (c / 0x40) mod 0x40). set (e := 0x80 + c mod 0x40).
    assert (Ha : 240 <= a /\ a <= 244) by (unfold a; lia).
    assert (Hb : 128 <= b /\ b <= 191) by (unfold b; lia).
    assert (Hd : 128 <= d /\ d <= 191) by (unfold d; lia).
    assert (He : 128 <= e /\ e <= 191) by (unfold e; lia).
    assert (H240 : a = 240 -> 144 <= b) by (unfold a, b; lia).
    assert (H244 : a = 244 -> b <= 143) by (unfold a, b; lia).
    clearbody a b d e. cbn [utf8_valid]. replace (a <? 128) with false by lia.
    unfold inr, cont. replace ((194 <=? a) && (a <=? 223)) with false by lia.
    replace (a =? 224) with false by lia.
    replace (((225 <=? a) && (a <=? 236)) || ((238 <=? a) && (a <=? 239))) with false by lia.
    replace (a =? 237) with false by lia.
    replace ((128 <=? d) && (d <=? 191)) with true by lia.
    replace ((128 <=? b) && (b <=? 191)) with true by lia.
    replace ((128 <=? e) && (e <=? 191)) with true by lia.
    destruct (a =? 240) eqn:E.
    { replace ((144 <=? b) && (b <=? 191)) with true by lia. reflexivity. }
    destruct ((241 <=? a) && (a <=? 243)) eqn:E2; [reflexivity|].
    replace (a =? 244) with true by lia.
    replace ((128 <=? b) && (b <=? 143)) with true by lia. reflexivity.
Qed.

Lemma is_utf8_valid : forall s, is_utf8 s -> utf8_valid s = true.
Proof.
  intros s (cs & F & ->). induction F as [|c cs Hc F IH]; [reflexivity|].
  unfold utf8_text. cbn [flat_map]. rewrite valid_encode by exact Hc. exact IH.
Qed.

Lemma is_utf8_app : forall a b, is_utf8 a -> is_utf8 b -> is_utf8 (a ++ b).
Proof.
  intros a b (ca & Fa & ->) (cb & Fb & ->). exists (ca ++ cb). split; [apply Forall_app; split; assumption|].
  unfold utf8_text. rewrite flat_map_app. reflexivity.
Qed.

Lemma is_utf8_nil : is_utf8 [].
Proof. exists []. split; [constructor|reflexivity]. Qed.

Lemma is_utf8_one : forall c, scalar c -> is_utf8 (utf8_encode c).
Proof.
  intros c H. exists [c]. split; [constructor; [exact H|constructor]|].
  unfold utf8_text. cbn [flat_map]. symmetry. apply app_nil_r.
Qed.

Lemma one_more : forall c x r, scalar c -> x = utf8_encode c -> is_utf8 r -> is_utf8 (x ++ r).
Proof. intros c x r H -> R. apply is_utf8_app; [apply is_utf8_one; exact H|exact R]. Qed.

Lemma valid_is_utf8_n : forall n s, (length s <= n)%nat -> utf8_valid s = true -> is_utf8 s.
Proof.
  induction n as [|n IH]; intros s Hn V.
  { destruct s; [apply is_utf8_nil|cbn in Hn; lia]. }
  destruct s as [|a r]; [apply is_utf8_nil|]. cbn [utf8_valid] in V. cbn [length] in Hn.
  destruct (a <? 128) eqn:E1.
  { apply (one_more a [a] r); [left; lia| |apply IH; [lia|exact V]].
    unfold utf8_encode. replace (a <? 0x80) with true by lia. reflexivity. }
  unfold inr, cont in V.
  destruct ((194 <=? a) && (a <=? 223)) eqn:E2.
  { destruct r as [|b r]; [discriminate|]. apply andb_prop in V. destruct V as [Hb V]. cbn [length] in Hn.
    apply (one_more ((a - 192) * 64 + (b - 128)) [a; b] r); [left; lia| |apply IH; [lia|exact V]].
    unfold utf8_encode. replace (_ <? 0x80) with false by lia. replace (_ <? 0x800) with true by lia.
    f_equal; [lia|]. f_equal. lia. }
  assert (Three : forall b d, 224 <= a <= 239 -> 128 <= b <= 191 -> 128 <= d <= 191 ->
            (a = 224 -> 160 <= b) -> (a = 237 -> b <= 159) ->
            exists c, scalar c /\ [a; b; d] = utf8_encode c).
  { intros b d Ha Hb Hd H1 H2. exists ((a - 224) * 4096 + (b - 128) * 64 + (d - 128)). split.
    - unfold scalar. lia.
    - unfold utf8_encode. replace (_ <? 0x80) with false by lia. replace (_ <? 0x800) with false by lia.
      replace (_ <? 0x10000) with true by lia. f_equal; [lia|]. f_equal; [|f_equal]; lia. }
  assert (Four : forall b d e, 240 <= a <= 244 -> 128 <= b <= 191 -> 128 <= d <= 191 -> 128 <= e <= 191 ->
            (a = 240 -> 144 <= b) -> (a = 244 -> b <= 143) ->
            exists c, scalar c /\ [a; b; d; e] = utf8_encode c).
  { intros b d e Ha Hb Hd He H1 H2. exists ((a - 240) * 262144 + (b - 128) * 4096 + (d - 128) * 64 + (e - 128)). split.
    - unfold scalar. lia.
    - unfold utf8_encode. replace (_ <? 0x80) with false by lia. replace (_ <? 0x800) with false by lia.
      replace (_ <? 0x10000) with false by lia. f_equal; [lia|]. f_equal; [|f_equal; [|f_equal]]; lia. }
  assert (Tr : forall P b d r0, r = b :: d :: r0 -> P && utf8_valid r0 = true ->
             (P = true -> exists c, scalar c /\ [a; b; d] = utf8_encode c) -> is_utf8 (a :: r)).
  { intros P b d r0 -> Q C. apply andb_prop in Q. destruct Q as [Q1 Q2]. destruct (C Q1) as (c & Sc & Ec).
    apply (one_more c [a; b; d] r0 Sc Ec). apply IH; [cbn [length] in Hn; lia|exact Q2]. }
  assert (Fo : forall P b d e r0, r = b :: d :: e :: r0 -> P && utf8_valid r0 = true ->
             (P = true -> exists c, scalar c /\ [a; b; d; e] = utf8_encode c) -> is_utf8 (a :: r)).
  { intros P b d e r0 -> Q C. apply andb_prop in Q. destruct Q as [Q1 Q2]. destruct (C Q1) as (c & Sc & Ec).
    apply (one_more c [a; b; d; e] r0 Sc Ec). apply IH; [cbn [length] in Hn; lia|exact Q2]. }
  destruct (a =? 224) eqn:E3.
  { destruct r as [|b [|d r]]; try discriminate. eapply Tr; [reflexivity|exact V|]. intros Q. apply Three; lia. }
  destruct (((225 <=? a) && (a <=? 236)) || ((238 <=? a) && (a <=? 239))) eqn:E4.
  { destruct r as [|b [|d r]]; try discriminate. eapply Tr; [reflexivity|exact V|]. intros Q. apply Three; lia. }
  destruct (a =? 237) eqn:E5.
  { destruct r as [|b [|d r]]; try discriminate. eapply Tr; [reflexivity|exact V|]. intros Q. apply Three; lia. }
  destruct (a =? 240) eqn:E6.
  { destruct r as [|b [|d [|e r]]]; try discriminate. eapply Fo; [reflexivity|exact V|]. intros Q. apply Four; lia. }
  destruct ((241 <=? a) && (a <=? 243)) eqn:E7.
  { destruct r as [|b [|d [|e r]]]; try discriminate. eapply Fo; [reflexivity|exact V|]. intros Q. apply Four; lia. }
  destruct (a =? 244) eqn:E8; [|discriminate].
  destruct r as [|b [|d [|e r]]]; try discriminate. eapply Fo; [reflexivity|exact V|]. intros Q. apply Four; lia.
Qed.

Lemma valid_is_utf8 : forall s, utf8_valid s = true <-> is_utf8 s.
Proof. intros s. split; [apply (valid_is_utf8_n (length s)); lia|apply is_utf8_valid]. Qed.

Lemma utf8_valid_app : forall a b, utf8_valid a = true -> utf8_valid b = true -> utf8_valid (a ++ b) = true.
Proof. intros a b A B. apply valid_is_utf8. apply is_utf8_app; apply valid_is_utf8; assumption. Qed.

(* Plain ASCII is UTF-8 *)
Lemma ascii_utf8 : forall s, Forall (fun c => c < 128) s -> utf8_valid s = true.
Proof.
  induction s as [|c s IH]; intros F; [reflexivity|]. inversion F; subst. cbn [utf8_valid].
  replace (c <? 128) with true by lia. apply IH. assumption.
Qed.
