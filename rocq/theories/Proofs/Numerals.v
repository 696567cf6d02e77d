(* Facts about bit fields and number formatting (src/util.hh). *)
From Verif.Proofs Require Import Tac.
From Verif.Model Require Import Util.
From Verif.Spec Require Import Numerals.

Lemma getBits_arith : forall n w s, getBits n w s = (w / 2 ^ s) mod 2 ^ n.
Proof. intros n w s. unfold getBits. rewrite N.land_ones, N.shiftr_div_pow2. reflexivity. Qed.

Lemma getBits_lt : forall n w s, getBits n w s < 2 ^ n.
Proof. intros. rewrite getBits_arith. apply N.mod_lt. apply N.pow_nonzero. discriminate. Qed.

Lemma getBits2_arith : forall n w1 w2 s, w1 < 2 ^ 16 -> w2 < 2 ^ 16 ->
  getBits2 n w1 w2 s = ((w1 * 2 ^ 16 + w2) / 2 ^ s) mod 2 ^ n.
Proof.
  intros n w1 w2 s H1 H2. unfold getBits2. rewrite N.land_ones, N.shiftr_div_pow2.
  rewrite N.shiftl_mul_pow2. unfold u32. change 0x100000000 with (2 ^ 32).
  change (2 ^ 16) with 65536 in *. change (2 ^ 32) with 4294967296.
  rewrite (N.mod_small (w1 * 65536)) by lia.
  rewrite (N.mod_small (w2 + _)) by lia. rewrite (N.add_comm w2). reflexivity.
Qed.

Lemma getBits2_lt : forall n w1 w2 s, getBits2 n w1 w2 s < 2 ^ n.
Proof.
  intros. unfold getBits2. rewrite N.land_ones. apply N.mod_lt. apply N.pow_nonzero. discriminate.
Qed.

Lemma field_bits : forall n w s i, N.testbit ((w / 2 ^ s) mod 2 ^ n) i = (i <? n) && N.testbit w (s + i).
Proof.
  intros n w s i. destruct (i <? n) eqn:L; cbn [andb].
  - apply N.ltb_lt in L. rewrite N.mod_pow2_bits_low by exact L.
    rewrite N.div_pow2_bits. f_equal. lia.
  - apply N.ltb_ge in L. apply N.mod_pow2_bits_high. exact L.
Qed.

Lemma getBool_testbit : forall w s, getBool w s = N.testbit w s.
Proof.
  intros w s. unfold getBool. rewrite getBits_arith.
  pose proof (field_bits 1 w s 0) as F. cbn [N.ltb N.compare andb] in F.
  change (0 <? 1) with true in F. cbn [andb] in F. rewrite N.add_0_r in F.
  rewrite <- F. clear F. set (x := (w / 2 ^ s) mod 2 ^ 1).
  assert (x < 2) by (unfold x; apply N.mod_lt; discriminate).
  assert (C : x = 0 \/ x = 1) by lia. destruct C as [E|E]; rewrite E; reflexivity.
Qed.

(* Digits *)
Fixpoint value_rev (b : N) (l : list N) : N :=
  match l with [] => 0 | d :: r => d + b * value_rev b r end.

Lemma log2_div : forall b v, 2 <= b -> b <= v -> (N.to_nat (N.log2 (v / b)) < N.to_nat (N.log2 v))%nat.
Proof.
  intros b v Hb Hv. assert (N.log2 (v / b) < N.log2 v); [|lia].
  assert (0 < v / b) by (apply N.div_str_pos; lia).
  apply N.log2_lt_pow2; [lia|].
  apply N.lt_le_trans with (m := v / b + 1); [lia|].
  assert (L : v < 2 ^ N.succ (N.log2 v)) by (apply N.log2_spec; lia).
  rewrite N.pow_succ_r' in L.
  assert (v / b <= v / 2) by (apply N.div_le_compat_l; lia).
  lia.
Qed.

Lemma digits_rev_ok : forall b, 2 <= b -> forall f v, (N.to_nat (N.log2 v) < f)%nat ->
  value_rev b (digits_rev f b v) = v /\ Forall (fun d => d < b) (digits_rev f b v) /\
  digits_rev f b v <> [] /\ (last (digits_rev f b v) 0 = 0 -> v = 0) /\
  (forall k : N, v < b ^ k -> N.of_nat (length (digits_rev f b v)) <= N.max 1 k).
Proof.
  intros b Hb. induction f as [|f IH]; intros v Hf; [lia|].
  cbn [digits_rev]. destruct (v <? b) eqn:L.
  - apply N.ltb_lt in L. cbn. repeat split; try lia; try (constructor; [lia|constructor]); try discriminate.
  - apply N.ltb_ge in L. pose proof (log2_div b v Hb L) as Lg.
    destruct (IH (v / b)) as (V & F & NE & La & Len); [lia|].
    assert (v mod b < b) by (apply N.mod_lt; lia).
    cbn [value_rev last length]. rewrite V. repeat split.
    + rewrite N.add_comm. symmetry. apply N.div_mod. lia.
    + constructor; assumption.
    + discriminate.
    + destruct (digits_rev f b (v / b)) as [|d r] eqn:E; [contradiction|].
      intros Z. apply La in Z. assert (0 < v / b) by (apply N.div_str_pos; lia). lia.
    + intros k Hk. destruct (N.eq_dec k 0) as [->|K0]; [cbn in Hk; lia|].
      destruct (N.eq_dec k 1) as [->|K1]; [rewrite N.pow_1_r in Hk; lia|].
      assert (v / b < b ^ (k - 1)).
      { apply N.div_lt_upper_bound; [lia|]. rewrite <- N.pow_succ_r'. replace (N.succ (k - 1)) with k by lia. exact Hk. }
      specialize (Len (k - 1) H0). lia.
Qed.

Lemma digit_of_hexdigit : forall d, d < 16 -> digit_of (hexdigit d) = Some d.
Proof.
  intros d Hd. unfold digit_of, hexdigit. destruct (d <? 10) eqn:L.
  - replace ((48 <=? 48 + d) && (48 + d <=? 57)) with true by lia. f_equal. lia.
  - replace ((48 <=? 55 + d) && (55 + d <=? 57)) with false by lia.
    replace ((65 <=? 55 + d) && (55 + d <=? 70)) with true by lia. f_equal. lia.
Qed.

Lemma hexdigit_dec : forall d, d < 10 -> 48 + d = hexdigit d.
Proof. intros d H. unfold hexdigit. replace (d <? 10) with true by lia. reflexivity. Qed.

Lemma numeral_from_app : forall base s t acc,
  numeral_from base (s ++ t) acc =
  match numeral_from base s acc with Some a => numeral_from base t a | None => None end.
Proof.
  induction s as [|c s IH]; intros t acc; [reflexivity|]. cbn [app numeral_from].
  destruct (digit_of c) as [d|]; [|reflexivity]. destruct (d <? base); [apply IH|reflexivity].
Qed.

Lemma numeral_from_rev : forall base, 2 <= base -> base <= 16 -> forall l, Forall (fun d => d < base) l ->
  forall acc, numeral_from base (map hexdigit (rev l)) acc = Some (acc * base ^ N.of_nat (length l) + value_rev base l).
Proof.
  intros base H1 H2. induction l as [|d l IH]; intros F acc.
  - cbn. f_equal. lia.
  - inversion F as [|? ? Hd Hl]; subst. cbn [rev]. rewrite map_app, numeral_from_app, (IH Hl acc).
    cbn [map numeral_from]. rewrite digit_of_hexdigit by lia.
    replace (d <? base) with true by (symmetry; apply N.ltb_lt; exact Hd).
    cbn [length value_rev]. f_equal. rewrite Nat2N.inj_succ, N.pow_succ_r'. ring.
Qed.

Lemma map_dec_hex : forall l, Forall (fun d => d < 10) l -> map (fun d => 48 + d) l = map hexdigit l.
Proof.
  induction l as [|d l IH]; intros F; [reflexivity|]. inversion F; subst. cbn [map].
  rewrite hexdigit_dec by assumption. f_equal. apply IH. assumption.
Qed.

Lemma digits_facts : forall b v, 2 <= b ->
  exists l, digits b v = rev l /\ value_rev b l = v /\ Forall (fun d => d < b) l /\ l <> [] /\
            (last l 0 = 0 -> v = 0) /\ (forall k : N, v < b ^ k -> N.of_nat (length l) <= N.max 1 k).
Proof.
  intros b v Hb. exists (digits_rev (S (N.to_nat (N.log2 v))) b v). split; [reflexivity|].
  destruct (digits_rev_ok b Hb (S (N.to_nat (N.log2 v))) v) as (A & B & C & D & E); [lia|].
  repeat split; assumption.
Qed.

Lemma digits_bound : forall b v, 2 <= b -> Forall (fun d => d < b) (digits b v).
Proof. intros b v H. destruct (digits_facts b v H) as (l & E & _ & F & _). rewrite E. apply Forall_rev. exact F. Qed.

Lemma digits_nonempty : forall b v, 2 <= b -> digits b v <> [].
Proof.
  intros b v H. destruct (digits_facts b v H) as (l & E & _ & _ & N & _). rewrite E.
  intros C. apply N. rewrite <- (rev_involutive l), C. reflexivity.
Qed.

Lemma digits_numeral : forall b v, 2 <= b -> b <= 16 -> forall acc,
  numeral_from b (map hexdigit (digits b v)) acc = Some (acc * b ^ N.of_nat (length (digits b v)) + v).
Proof.
  intros b v H1 H2 acc. destruct (digits_facts b v H1) as (l & E & V & F & _).
  rewrite E, (numeral_from_rev b H1 H2 l F acc), V, rev_length. reflexivity.
Qed.

Lemma numeral_nonempty : forall b s v, s <> [] -> numeral_from b s 0 = Some v -> numeral b s = Some v.
Proof. intros b s v N H. destruct s; [contradiction|exact H]. Qed.

Lemma map_nonempty : forall {A B} (f : A -> B) l, l <> [] -> map f l <> [].
Proof. intros A B f [|x l] H; [contradiction|discriminate]. Qed.

Lemma dec_string_hex : forall v, dec_string v = map hexdigit (digits 10 v).
Proof. intros v. unfold dec_string. apply map_dec_hex. apply digits_bound. lia. Qed.

Lemma dec_string_value : forall v, numeral 10 (dec_string v) = Some v.
Proof.
  intros v. rewrite dec_string_hex. apply numeral_nonempty.
  - apply map_nonempty, digits_nonempty. lia.
  - rewrite digits_numeral by lia. f_equal.
Qed.

Lemma dec_string_nonempty : forall v, dec_string v <> [].
Proof. intros v. apply map_nonempty, digits_nonempty. lia. Qed.

Lemma dec_string_inj : forall a b, dec_string a = dec_string b -> a = b.
Proof.
  intros a b H. pose proof (dec_string_value a) as A. rewrite H, dec_string_value in A. congruence.
Qed.

Lemma dec_string_digits : forall v, Forall (fun c => 48 <= c /\ c <= 57) (dec_string v).
Proof.
  intros v. unfold dec_string. apply Forall_map. eapply Forall_impl; [|apply (digits_bound 10); lia].
  cbv beta. intros. lia.
Qed.

Lemma dec_string_no_leading_zero : forall v, no_leading_zero (dec_string v).
Proof.
  intros v. unfold no_leading_zero. destruct (N.eq_dec v 0) as [->|Hv]; [left; reflexivity|right].
  unfold dec_string. destruct (digits_facts 10 v) as (l & E & V & F & NE & La & _); [lia|].
  rewrite E. intros r H. apply Hv, La.
  destruct (exists_last NE) as (l' & d & ->). rewrite rev_unit in H. cbn [map] in H. rewrite last_last.
  apply (f_equal (hd 0)) in H. cbn [hd] in H. lia.
Qed.

Lemma dec_string_length : forall v k, v < 10 ^ k -> (1 <= k) -> N.of_nat (length (dec_string v)) <= k.
Proof.
  intros v k H K. unfold dec_string. rewrite map_length.
  destruct (digits_facts 10 v) as (l & E & _ & _ & _ & _ & Len); [lia|].
  rewrite E, rev_length. specialize (Len k H). lia.
Qed.

Lemma numeral_from_zeros : forall b n s acc, 2 <= b ->
  numeral_from b (repeat 48 n ++ s) acc = numeral_from b s (acc * b ^ N.of_nat n).
Proof.
  intros b n s acc Hb. revert acc. induction n as [|n IH]; intros acc.
  - cbn. f_equal. lia.
  - cbn [repeat app numeral_from]. change (digit_of 48) with (Some 0). cbn [N.ltb].
    replace (0 <? b) with true by lia. rewrite IH. f_equal. rewrite Nat2N.inj_succ, N.pow_succ_r'. ring.
Qed.

Lemma pad_left_length : forall c w s, length (pad_left c w s) = Nat.max w (length s).
Proof. intros. unfold pad_left. rewrite app_length, repeat_length. lia. Qed.

(* The hexadecimal text of a number that fits has exactly the asked-for width and the right value. *)
Lemma getHexString_ok : forall w v, v < 16 ^ N.of_nat w -> (1 <= w)%nat ->
  length (getHexString w v) = w /\ numeral 16 (getHexString w v) = Some v.
Proof.
  intros w v Hv Hw. unfold getHexString.
  destruct (digits_facts 16 v) as (l & E & V & F & NE & _ & Len); [lia|].
  specialize (Len _ Hv).
  split.
  - rewrite pad_left_length, map_length, E, rev_length. lia.
  - apply numeral_nonempty.
    + intros C. apply (f_equal (@length N)) in C. rewrite pad_left_length in C. cbn in C. lia.
    + unfold pad_left. rewrite numeral_from_zeros by lia. rewrite digits_numeral by lia. f_equal; lia.
Qed.

Lemma getHexString_inj : forall w a b, (1 <= w)%nat -> a < 16 ^ N.of_nat w -> b < 16 ^ N.of_nat w ->
  getHexString w a = getHexString w b -> a = b.
Proof.
  intros w a b Hw Ha Hb H.
  destruct (getHexString_ok w a Ha Hw) as [_ A]. destruct (getHexString_ok w b Hb Hw) as [_ B].
  rewrite H, B in A. congruence.
Qed.

Definition hex_char (c : N) : Prop := (48 <= c /\ c <= 57) \/ (65 <= c /\ c <= 70).
Lemma getHexString_chars : forall w v, Forall hex_char (getHexString w v).
Proof.
  intros w v. unfold getHexString, pad_left. apply Forall_app. split.
  - apply Forall_forall. intros x H. apply repeat_spec in H. subst. left. lia.
  - apply Forall_map. eapply Forall_impl; [|apply (digits_bound 16); lia]. cbv beta. intros d Hd.
    unfold hexdigit, hex_char. destruct (d <? 10) eqn:L; lia.
Qed.
