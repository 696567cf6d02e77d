(* The concrete host meets the assumptions made about hosts. *)
From Verif.Proofs Require Import Tac Utf8P JsonP TextP CleanP SessionP LinesP.
From Verif.Model Require Import Util Float Json Tmc Station.
From Verif.Spec Require Import Unicode JsonText Calendar Session Host.

Definition real_date (x : date) : Prop :=
  let '(y, m, d) := x in (1 <= m <= 12 /\ 1 <= d <= month_days y m)%Z.

Lemma next_real : forall x, real_date x -> real_date (next_day x).
Proof.
  intros [[y m] d] [Hm Hd]. unfold next_day. destruct (Z.ltb_spec d (month_days y m)); [split; lia|].
  destruct (Z.ltb_spec m 12).
  - split; [lia|]. split; [lia|]. unfold month_days.
    repeat match goal with |- context [if ?b then _ else _] => destruct b end; lia.
  - split; [lia|]. cbn. lia.
Qed.

Ltac consts := repeat match goal with
  | |- context [(Z.pos ?a + Z.pos ?b)%Z] => let v := eval compute in (Z.pos a + Z.pos b)%Z in change (Z.pos a + Z.pos b)%Z with v
  | |- context [(Z.pos ?a <? Z.pos ?b)%Z] => let v := eval compute in (Z.pos a <? Z.pos b)%Z in change (Z.pos a <? Z.pos b)%Z with v
  | |- context [(Z.pos ?a <=? Z.pos ?b)%Z] => let v := eval compute in (Z.pos a <=? Z.pos b)%Z in change (Z.pos a <=? Z.pos b)%Z with v
  | |- context [(Z.pos ?a mod 12)%Z] => let v := eval compute in (Z.pos a mod 12)%Z in change (Z.pos a mod 12)%Z with v
  end; cbv iota.

Lemma next_mjd : forall x, real_date x -> mjd_of_date (next_day x) = (mjd_of_date x + 1)%Z.
Proof.
  intros [[y m] d] [Hm Hd]. unfold next_day.
  assert (M : (m = 1 \/ m = 2 \/ m = 3 \/ m = 4 \/ m = 5 \/ m = 6 \/ m = 7 \/ m = 8 \/ m = 9 \/ m = 10 \/ m = 11 \/ m = 12)%Z) by lia.
  destruct (Z.eq_dec m 2) as [->|N2].
  - clear M. unfold month_days in *. change (2 =? 2)%Z with true in *. cbv iota in *.
    assert (L : leap_year y = true /\ (y mod 4 = 0 /\ (y mod 100 <> 0 \/ y mod 400 = 0))%Z \/
                leap_year y = false /\ (y mod 4 <> 0 \/ (y mod 100 = 0 /\ y mod 400 <> 0))%Z).
    { unfold leap_year. destruct (Z.eqb_spec (y mod 4) 0), (Z.eqb_spec (y mod 100) 0), (Z.eqb_spec (y mod 400) 0); cbn [andb orb negb]; intuition. }
    assert (P4 : ((y - 1) / 4 = y / 4 /\ y mod 4 <> 0 \/ (y - 1) / 4 = y / 4 - 1 /\ y mod 4 = 0)%Z) by lia.
    assert (P100 : ((y - 1) / 100 = y / 100 /\ y mod 100 <> 0 \/ (y - 1) / 100 = y / 100 - 1 /\ y mod 100 = 0)%Z) by lia.
    assert (P400 : ((y - 1) / 400 = y / 400 /\ y mod 400 <> 0 \/ (y - 1) / 400 = y / 400 - 1 /\ y mod 400 = 0)%Z) by lia.
    assert (Q : (y mod 400 = 0 -> y mod 100 = 0)%Z /\ (y mod 100 = 0 -> y mod 4 = 0)%Z) by (split; lia).
    destruct L as [[E L]|[E L]]; rewrite E in *;
      (match goal with |- context [(d <? ?n)%Z] => destruct (Z.ltb_spec d n) end); unfold mjd_of_date; consts; consts;
      change ((153 * 11 + 2) / 5)%Z with 337%Z; change ((153 * 0 + 2) / 5)%Z with 0%Z;
      generalize dependent ((y - 1) / 4)%Z; generalize dependent ((y - 1) / 100)%Z; generalize dependent ((y - 1) / 400)%Z;
      generalize dependent (y / 4)%Z; generalize dependent (y / 100)%Z; generalize dependent (y / 400)%Z;
      generalize dependent (y mod 4)%Z; generalize dependent (y mod 100)%Z; generalize dependent (y mod 400)%Z; intros; lia.
  - assert (D : month_days y m = month_days 1 m) by (unfold month_days; destruct (Z.eqb_spec m 2); [contradiction|reflexivity]).
    rewrite D in *. clear D. 
    destruct M as [->|[->|[->|[->|[->|[->|[->|[->|[->|[->|[->| ->]]]]]]]]]]]; try contradiction;
      unfold month_days in *; cbn in Hd; cbn [Z.eqb Pos.eqb orb];
      (match goal with |- context [(d <? ?n)%Z] => destruct (Z.ltb_spec d n) end); unfold mjd_of_date; consts; consts; lia.
Qed.

Lemma mjd_of_date_of_mjd : forall n, mjd_of_date (date_of_mjd n) = Z.of_N n /\ real_date (date_of_mjd n).
Proof.
  intros n. unfold date_of_mjd. induction n as [|n IH] using N.peano_ind.
  - split; [reflexivity|]. cbn. lia.
  - rewrite N.iter_succ. destruct IH as [I1 I2]. split; [|apply next_real; exact I2]. rewrite next_mjd by exact I2. rewrite I1. lia.
Qed.

Lemma plain_host_clock : plain_clock plain_host.
Proof.
  intros n y m d h mi s _ E _ _ _. cbn [env_localtime plain_host]. unfold utc_normalise. cbn [tm_year tm_mon tm_mday tm_hour tm_min tm_sec].
  replace (y - 1900 + 1900)%Z with y by lia. replace (m - 1 + 1)%Z with m by lia. rewrite <- E.
  rewrite (proj1 (mjd_of_date_of_mjd n)). reflexivity.
Qed.

Lemma plain_host_ok : host_ok plain_host.
Proof.
  split; [intros i k; discriminate|]. split; [intros j; apply valid_is_utf8; reflexivity|]. intros f. right. reflexivity.
Qed.

Lemma plain_host_txt : env_txt plain_host.
Proof.
  split; [reflexivity|]. split.
  - intros f t s E. injection E as <-. apply num_small, dec_string_Z_chars.
  - repeat split; intros; try discriminate; reflexivity.
Qed.
