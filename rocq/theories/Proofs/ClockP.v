(* Clock time: the floating-point calendar formula is the Gregorian calendar. *)
From Verif.Model Require Import Base Util Group Float Json Options RdsString Freq Rft Tmc Station.
From Verif.Spec Require Import Calendar.
From Verif.Proofs Require Import Tac Numerals FloatP Schema StationP.
From Coq Require Import ZArith Lia.
Local Open Scope Z_scope.

Definition yearZ (d : Z) : Z := (20 * d - 301564) / 7305.
Definition ydZ (d : Z) : Z := 1461 * yearZ d / 4.
Definition dayZ (d : Z) : Z := d - 14956 - ydZ d.
Definition monthZ (d : Z) : Z := (10000 * dayZ d - 1000) / 306001.
Definition mdayZ (d : Z) : Z := dayZ d - 306001 * monthZ d / 10000.
Definition dateZ (d : Z) : date :=
  if (monthZ d =? 14) || (monthZ d =? 15) then (yearZ d + 1 + 1900, monthZ d - 12 - 1, mdayZ d)
  else (yearZ d + 1900, monthZ d - 1, mdayZ d).

Lemma year_bounds : forall d, 15079 <= d < 131072 ->
  0 <= yearZ d <= 317 /\ 7305 * yearZ d + 1 <= 20 * d - 301564 <= 7305 * yearZ d + 7301.
Proof. intros d H. unfold yearZ. Z.div_mod_to_equations. lia. Qed.

Lemma day_bounds : forall d, 15079 <= d < 131072 -> 123 <= dayZ d <= 488.
Proof. intros d H. pose proof (year_bounds d H). unfold dayZ, ydZ. Z.div_mod_to_equations. lia. Qed.

Lemma month_bounds : forall d, 15079 <= d < 131072 ->
  4 <= monthZ d <= 15 /\
  306001 * monthZ d + 500 <= 10000 * dayZ d - 1000 <= 306001 * monthZ d + 305501.
Proof.
  intros d H. pose proof (day_bounds d H) as D. unfold monthZ.
  assert (B : 4 <= (10000 * dayZ d - 1000) / 306001 <= 15) by (Z.div_mod_to_equations; lia).
  split; [exact B|].
  pose proof (Z.div_mod (10000 * dayZ d - 1000) 306001 ltac:(lia)) as E.
  pose proof (Z.mod_pos_bound (10000 * dayZ d - 1000) 306001 ltac:(lia)) as R.
  set (q := (10000 * dayZ d - 1000) / 306001) in *. set (r := (10000 * dayZ d - 1000) mod 306001) in *.
  clearbody q r. set (w := dayZ d) in *. clearbody w.
  assert (C : q = 4 \/ q = 5 \/ q = 6 \/ q = 7 \/ q = 8 \/ q = 9 \/ q = 10 \/ q = 11 \/ q = 12 \/ q = 13 \/ q = 14 \/ q = 15) by lia.
  repeat (destruct C as [->|C]; [lia|]). subst q. lia.
Qed.

Lemma e_365 : exact f64_365_25 2 1461.
Proof. exists 6425545952722944%positive, (-44). repeat split; vm_compute; congruence. Qed.
Lemma e_30 : exact f64_30_6001 48 8613162434843745.
Proof. exists 8613162434843745%positive, (-48). repeat split; vm_compute; congruence. Qed.
Lemma e_15078 : exact f64_15078_2 39 8289328112966042.
Proof. exists 8289328112966042%positive, (-39). repeat split; vm_compute; congruence. Qed.
Lemma e_14956 : exact f64_14956_1 39 8222202928090317.
Proof. exists 8222202928090317%positive, (-39). repeat split; vm_compute; congruence. Qed.

Lemma exact_int : forall z, 0 < z < 131072 -> exact (f64_of_Z z) 39 (z * 2 ^ 39).
Proof.
  intros z H. apply (exact_scale _ 0 z 39); [|lia|lia]. apply exact_of_Z. lia.
Qed.

Lemma year_step : forall d, 15079 <= d < 131072 ->
  sf_trunc (f64_div (f64_sub (f64_of_Z d) f64_15078_2) f64_365_25) = Ok (yearZ d).
Proof.
  intros d H. pose proof (year_bounds d H) as [B1 B2].
  destruct (exact_sub (f64_of_Z d) f64_15078_2 39 (d * 2 ^ 39) 8289328112966042 3
              (exact_int d ltac:(lia)) e_15078) as (v & Ev & Hv); try lia.
  apply (div_trunc _ _ 39 2 v 1461 (yearZ d) Ev e_365); lia.
Qed.

Lemma f64_0 : f64_of_Z 0 = S754_zero false. Proof. reflexivity. Qed.

Lemma yd_step : forall y, 0 <= y <= 1000 -> sf_trunc (f64_mul (f64_of_Z y) f64_365_25) = Ok (1461 * y / 4).
Proof.
  intros y H. destruct (Z.eq_dec y 0) as [->|N]; [reflexivity|].
  assert (E := exact_mul (f64_of_Z y) f64_365_25 0 2 y 1461 (exact_of_Z y ltac:(lia)) e_365
                 ltac:(lia) ltac:(lia) ltac:(lia) ltac:(lia) ltac:(lia)).
  rewrite (exact_trunc _ _ _ E) by lia. rewrite (Z.mul_comm y). reflexivity.
Qed.

Lemma month_step : forall d, 15079 <= d < 131072 ->
  sf_trunc (f64_div (f64_sub (f64_sub (f64_of_Z d) f64_14956_1) (f64_of_Z (ydZ d))) f64_30_6001) = Ok (monthZ d).
Proof.
  intros d H. pose proof (year_bounds d H) as [B1 B2]. pose proof (day_bounds d H) as B3.
  pose proof (month_bounds d H) as [B4 B5].
  assert (By : 0 <= ydZ d <= 120000) by (unfold ydZ; Z.div_mod_to_equations; lia).
  destruct (exact_sub (f64_of_Z d) f64_14956_1 39 (d * 2 ^ 39) 8222202928090317 3
              (exact_int d ltac:(lia)) e_14956) as (v & Ev & Hv); try lia.
  assert (E : exact (f64_sub (f64_sub (f64_of_Z d) f64_14956_1) (f64_of_Z (ydZ d))) 39 (v - ydZ d * 2 ^ 39)).
  { destruct (Z.eq_dec (ydZ d) 0) as [->|N].
    - rewrite f64_0. replace (v - 0 * 2 ^ 39) with v by lia.
      destruct Ev as (m & e & Em & Ev). rewrite Em. exists m, e. split; [reflexivity|exact Ev].
    - apply exact_sub0; [exact Ev|apply exact_int; lia|lia| |lia|]; unfold dayZ in B3; lia. }
  unfold dayZ in *. apply (div_trunc _ _ 39 48 _ _ (monthZ d) E e_30); lia.
Qed.

Lemma md_step : forall m, 4 <= m <= 15 -> sf_trunc (f64_mul (f64_of_Z m) f64_30_6001) = Ok (306001 * m / 10000).
Proof.
  intros m H.
  assert (C : m = 4 \/ m = 5 \/ m = 6 \/ m = 7 \/ m = 8 \/ m = 9 \/ m = 10 \/ m = 11 \/ m = 12 \/ m = 13 \/ m = 14 \/ m = 15) by lia.
  repeat (destruct C as [->|C]; [vm_compute; reflexivity|]). subst m. vm_compute. reflexivity.
Qed.

Lemma sub_zero : forall x K v, exact x K v -> f64_sub x (f64_of_Z 0) = x.
Proof. intros x K v (m & e & -> & _). reflexivity. Qed.

Lemma day_step : forall d, 15079 <= d < 131072 ->
  sf_trunc (f64_sub (f64_sub (f64_sub (f64_of_Z d) (f64_of_Z 14956)) (f64_of_Z (ydZ d)))
                    (f64_of_Z (306001 * monthZ d / 10000))) = Ok (mdayZ d).
Proof.
  intros d H. pose proof (day_bounds d H) as B3. pose proof (month_bounds d H) as [B4 B5].
  pose proof (year_bounds d H) as [B1 B2].
  assert (By : 0 <= ydZ d <= 120000) by (unfold ydZ; Z.div_mod_to_equations; lia).
  assert (E1 : exact (f64_sub (f64_of_Z d) (f64_of_Z 14956)) 0 (d - 14956))
    by (apply exact_sub0; try apply exact_of_Z; lia).
  assert (E2 : exact (f64_sub (f64_sub (f64_of_Z d) (f64_of_Z 14956)) (f64_of_Z (ydZ d))) 0 (dayZ d)).
  { destruct (Z.eq_dec (ydZ d) 0) as [Z0|N].
    - unfold dayZ. rewrite Z0, (sub_zero _ _ _ E1), Z.sub_0_r. exact E1.
    - unfold dayZ in *. apply exact_sub0; [exact E1|apply exact_of_Z; lia|lia|lia|lia|lia]. }
  assert (Bm : 0 < 306001 * monthZ d / 10000 < dayZ d) by (Z.div_mod_to_equations; lia).
  assert (E3 : exact (f64_sub (f64_sub (f64_sub (f64_of_Z d) (f64_of_Z 14956)) (f64_of_Z (ydZ d)))
                    (f64_of_Z (306001 * monthZ d / 10000))) 0 (mdayZ d)).
  { unfold mdayZ. apply exact_sub0; [exact E2|apply exact_of_Z; lia|lia|lia|lia|lia]. }
  rewrite (exact_trunc _ _ _ E3) by lia. change (2 ^ 0) with 1. rewrite Z.div_1_r. reflexivity.
Qed.

(* The double-precision formula computes the same as exact rational arithmetic, for every 17-bit date *)
Lemma mjd_formula : forall n, (15079 <= n < 131072)%N -> mjd_to_date n = Ok (dateZ (Z.of_N n)).
Proof.
  intros n H. unfold mjd_to_date. cbv zeta.
  assert (B : 15079 <= Z.of_N n < 131072) by lia.
  pose proof (year_bounds _ B) as [B1 _]. pose proof (month_bounds _ B) as [B4 _].
  rewrite (year_step _ B). cbn [bind]. rewrite yd_step by lia. cbn [bind].
  fold (ydZ (Z.of_N n)). rewrite (month_step _ B). cbn [bind].
  rewrite md_step by lia. cbn [bind]. rewrite (day_step _ B). cbn [bind].
  unfold dateZ. destruct (_ || _)%bool; reflexivity.
Qed.

Lemma mjd_total_holds : mjd_total.
Proof. intros n H. exists (dateZ (Z.of_N n)). split; [apply mjd_formula; exact H|trivial]. Qed.

(* 1 March 1900 + 365 days per year and one more every fourth *)
Lemma date_form : forall Y M D, 0 <= Y <= 200 -> 4 <= M <= 15 ->
  306001 * M + 500 <= 10000 * D - 1000 <= 306001 * M + 305501 ->
  15079 <= D + 14956 + 1461 * Y / 4 < 131072 ->
  123 <= D -> D <= 487 \/ (D = 488 /\ Y mod 4 = 3) ->
  dateZ (D + 14956 + 1461 * Y / 4) =
  if (M =? 14) || (M =? 15) then (Y + 1 + 1900, M - 12 - 1, D - 306001 * M / 10000)
  else (Y + 1900, M - 1, D - 306001 * M / 10000).
Proof.
  intros Y M D HY HM B R H1 H2.
  set (d := D + 14956 + 1461 * Y / 4) in *.
  assert (EY : yearZ d = Y).
  { unfold yearZ. symmetry. apply (Z.div_unique _ _ _ (20 * d - 301564 - 7305 * Y)); [left|lia].
    unfold d. Z.div_mod_to_equations. lia. }
  assert (ED : dayZ d = D) by (unfold dayZ, ydZ; rewrite EY; unfold d; lia).
  assert (EM : monthZ d = M).
  { unfold monthZ. rewrite ED. symmetry. apply (Z.div_unique _ _ _ (10000 * D - 1000 - 306001 * M)); [left|]; lia. }
  unfold dateZ, mdayZ. rewrite EY, ED, EM. reflexivity.
Qed.

Lemma leap_form : forall Y, 0 <= Y < 199 -> leap_year (Y + 1 + 1900) = (Y mod 4 =? 3).
Proof.
  intros Y H. unfold leap_year.
  assert (G : (Y + 1 + 1900) mod 4 = (Y + 1) mod 4) by (rewrite <- (Z.mod_add (Y + 1) 475 4) by lia; f_equal; lia).
  rewrite G. destruct (Y mod 4 =? 3) eqn:E4.
  - apply Z.eqb_eq in E4. replace ((Y + 1) mod 4 =? 0) with true by (symmetry; apply Z.eqb_eq; Z.div_mod_to_equations; lia).
    cbn [andb]. apply Bool.orb_true_iff.
    destruct (Z.eq_dec ((Y + 1 + 1900) mod 100) 0) as [Z0|Z0].
    + right. apply Z.eqb_eq. assert (Y = 99) by (Z.div_mod_to_equations; lia). subst Y. reflexivity.
    + left. apply Bool.negb_true_iff, Z.eqb_neq, Z0.
  - apply Z.eqb_neq in E4. replace ((Y + 1) mod 4 =? 0) with false by (symmetry; apply Z.eqb_neq; Z.div_mod_to_equations; lia).
    reflexivity.
Qed.

Lemma next_date : forall d, 15079 <= d < 88127 -> next_day (dateZ d) = dateZ (d + 1).
Proof.
  intros d H. pose proof (year_bounds d ltac:(lia)) as [B1 B2]. pose proof (month_bounds d ltac:(lia)) as [B4 B5].
  pose proof (day_bounds d ltac:(lia)) as B3.
  assert (Ed : d = dayZ d + 14956 + 1461 * yearZ d / 4) by (unfold dayZ, ydZ; lia).
  generalize dependent (yearZ d). generalize dependent (monthZ d). generalize dependent (dayZ d).
  intros D B3 M B4 B5 Y B1 B2 Ed.
  assert (HY : Y <= 199) by lia.
  assert (HD : D <= 487 \/ (D = 488 /\ Y mod 4 = 3)) by (Z.div_mod_to_equations; lia).
  assert (E1 := date_form Y M D ltac:(lia) B4 B5 ltac:(lia) ltac:(lia) HD).
  rewrite <- Ed in E1. rewrite E1. clear E1.
  assert (Last : Y = 199 -> D <= 486) by (intros ->; clear - Ed H; change (1461 * 199 / 4) with 72684 in Ed; lia).
  clear B2.
  assert (LY : forall x, (if leap_year (Y + 1 + 1900) then x + 1 else x) = (if Y mod 4 =? 3 then x + 1 else x) \/ Y = 199).
  { intro x. destruct (Z.eq_dec Y 199) as [|N]; [right; assumption|left]. rewrite leap_form by lia. reflexivity. }
  replace (d + 1) with ((D + 1) + 14956 + 1461 * Y / 4) by lia. clear Ed H d.
  assert (C : M = 4 \/ M = 5 \/ M = 6 \/ M = 7 \/ M = 8 \/ M = 9 \/ M = 10 \/ M = 11 \/ M = 12 \/ M = 13 \/ M = 14 \/ M = 15) by lia.
  assert (R : 15079 <= D + 1 + 14956 + 1461 * Y / 4 < 131072) by (Z.div_mod_to_equations; lia).
  assert (HD2 : D + 1 <= 487 \/ D = 487 \/ D = 488) by lia.
  destruct (Z_le_gt_dec M 14) as [L14|G14].
  - assert (H86 : D <= 459) by lia. clear HD HD2 Last LY.
    repeat (destruct C as [C|C]; [subst M|]); try lia;
      match goal with |- context[306001 * ?k / 10000] =>
        let k' := eval vm_compute in (k + 1) in
        let v := eval vm_compute in (306001 * k / 10000) in
        let w := eval vm_compute in (306001 * k' / 10000) in
        change (306001 * k / 10000) with v;
        destruct (Z_lt_ge_dec D w) as [Lo|Hi];
        [rewrite (date_form Y k (D + 1)) by lia; change (306001 * k / 10000) with v
        |replace D with w by lia; rewrite (date_form Y k' (w + 1)) by lia; change (306001 * k' / 10000) with w]
      end; cbn [Z.eqb Pos.eqb orb]; unfold next_day; simpl Z.sub; simpl Z.add;
      match goal with |- (if ?c then _ else _) = _ =>
         destruct (Bool.bool_dec c true) as [E|E]; [rewrite E|apply Bool.not_true_is_false in E; rewrite E] end;
      unfold month_days in E; cbn [Z.eqb Pos.eqb orb] in E; try (apply Z.ltb_lt in E; lia); try (apply Z.ltb_ge in E; lia);
      try reflexivity; try (match goal with |- (?a,?b,?c) = (?x,?y,?z) => replace x with a by lia; replace y with b by lia; replace z with c by lia; reflexivity end).
    replace (Y + 1 + 1900) with (Y + 1900 + 1) by lia. reflexivity.
  - assert (M = 15) by lia. subst M. clear C.
    change (306001 * 15 / 10000) with 459. cbn [Z.eqb Pos.eqb orb]. simpl (15 - 12 - 1).
    unfold next_day. unfold month_days. cbn [Z.eqb Pos.eqb orb].
    destruct (Z_le_gt_dec D 486) as [Lo|Hi].
    + replace (D - 459 <? (if leap_year (Y + 1 + 1900) then 29 else 28)) with true
        by (symmetry; apply Z.ltb_lt; destruct (leap_year _); lia).
      rewrite (date_form Y 15 (D + 1)) by lia. change (306001 * 15 / 10000) with 459. cbn [Z.eqb Pos.eqb orb].
      simpl (15 - 12 - 1). f_equal. lia.
    + assert (NY : Y < 199) by lia. rewrite leap_form by lia.
      destruct (Z.eq_dec D 487) as [->|N7].
      * destruct (Y mod 4 =? 3) eqn:E4.
        -- apply Z.eqb_eq in E4. simpl (_ <? _). cbv iota. rewrite (date_form Y 15 (487 + 1)) by lia. reflexivity.
        -- apply Z.eqb_neq in E4. simpl (_ <? _). cbv iota. 
           replace (487 + 1 + 14956 + 1461 * Y / 4) with (123 + 14956 + 1461 * (Y + 1) / 4) in *
             by (Z.div_mod_to_equations; lia).
           rewrite (date_form (Y + 1) 4 123) by lia. change (306001 * 4 / 10000) with 122. reflexivity.
      * assert (D = 488) by lia. subst D. assert (E4 : Y mod 4 = 3) by lia. rewrite E4. simpl (_ <? _). cbv iota.
        replace (488 + 1 + 14956 + 1461 * Y / 4) with (123 + 14956 + 1461 * (Y + 1) / 4) in *
             by (Z.div_mod_to_equations; lia).
        rewrite (date_form (Y + 1) 4 123) by lia. reflexivity.
Qed.

Lemma date_agrees : forall n, (15079 <= n <= 88127)%N -> dateZ (Z.of_N n) = date_of_mjd n.
Proof.
  intros n H. replace n with (15079 + (n - 15079))%N by lia.
  assert (G : forall k : nat, (N.of_nat k <= 73048)%N -> dateZ (Z.of_N (15079 + N.of_nat k)) = date_of_mjd (15079 + N.of_nat k)).
  { induction k as [|k IH]; intro Hk.
    - vm_compute. reflexivity.
    - assert (E : (15079 + N.of_nat (S k) = N.succ (15079 + N.of_nat k))%N) by lia. rewrite E.
      unfold date_of_mjd. rewrite N.iter_succ. fold (date_of_mjd (15079 + N.of_nat k)). rewrite <- IH by lia.
      rewrite next_date by lia. f_equal. lia. }
  specialize (G (N.to_nat (n - 15079))). rewrite N2Nat.id in G. apply G. lia.
Qed.

Lemma mjd_calendar : forall n, (15079 <= n <= 88127)%N -> mjd_to_date n = Ok (date_of_mjd n).
Proof. intros n H. rewrite mjd_formula by lia. rewrite date_agrees by exact H. reflexivity. Qed.
