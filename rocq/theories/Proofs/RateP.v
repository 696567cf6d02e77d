(* Which sample rates the resampler supports: binary32 division by hand. *)
From Verif.Model Require Import Util Float Dsp.
From Verif.Proofs Require Import Tac.

Local Open Scope Z_scope.

Lemma digits_size : forall p, digits2_pos p = Pos.size p.
Proof. induction p as [p IH|p IH|]; cbn [digits2_pos Pos.size]; [rewrite IH|rewrite IH|]; reflexivity. Qed.

Lemma digits_is : forall q k, 1 <= k -> 2 ^ (k - 1) <= q < 2 ^ k -> Zdigits2 q = k.
Proof.
  intros q k K [L U]. destruct q as [|p|p]; try (pose proof (Z.pow_nonneg 2 (k - 1)); pose proof (Z.pow_pos_nonneg 2 (k - 1)); lia).
  cbn [Zdigits2]. rewrite digits_size.
  pose proof (Pos.size_gt p) as G. pose proof (Pos.size_le p) as S.
  assert (G' : Z.pos p < 2 ^ Z.pos (Pos.size p)) by (rewrite <- Pos2Z.inj_pow; exact G).
  assert (S' : 2 ^ Z.pos (Pos.size p) <= 2 * Z.pos p) by (rewrite <- Pos2Z.inj_pow; exact S).
  assert (A : k - 1 < Z.pos (Pos.size p)).
  { apply (Z.pow_lt_mono_r_iff 2); [lia|lia|]. lia. }
  assert (B : Z.pos (Pos.size p) < k + 1).
  { apply (Z.pow_lt_mono_r_iff 2); [lia|lia|]. replace (k + 1) with (Z.succ k) by lia. rewrite Z.pow_succ_r by lia. lia. }
  lia.
Qed.

(* Shifting right *)
Lemma shr_1_is : forall m r s, 0 <= m -> shr_1 {| shr_m := m; shr_r := r; shr_s := s |} = {| shr_m := m / 2; shr_r := Z.odd m; shr_s := r || s |}.
Proof.
  intros m r s P. rewrite <- Z.div2_div. destruct m as [|[p|p|]|p]; try reflexivity. lia.
Qed.
Lemma loc_round : forall m l, loc_of_shr_record (shr_record_of_loc m l) = l.
Proof. intros m [|[| |]]; reflexivity. Qed.
Lemma record_m : forall m l, shr_m (shr_record_of_loc m l) = m.
Proof. intros m [|[| |]]; reflexivity. Qed.
Lemma shift_m : forall j m l, 0 <= m -> (j = 0 \/ j = 1 \/ j = 2) -> forall e, exists r, shr (shr_record_of_loc m l) e j = (r, e + j) /\ shr_m r = m / 2 ^ j.
Proof.
  intros j m l P [->|[->| ->]] e.
  - eexists. split; [cbn [shr]; rewrite Z.add_0_r; reflexivity|]. rewrite record_m, Z.div_1_r. reflexivity.
  - exists (shr_1 (shr_record_of_loc m l)). split; [reflexivity|]. destruct l as [|[| |]]; cbn [shr_record_of_loc]; rewrite shr_1_is by exact P; reflexivity.
  - exists (shr_1 (shr_1 (shr_record_of_loc m l))). split; [reflexivity|]. assert (0 <= m / 2) by (apply Z.div_pos; lia).
    destruct l as [|[| |]]; cbn [shr_record_of_loc]; rewrite !shr_1_is by assumption; cbn [shr_m]; rewrite Z.div_div by lia; reflexivity.
Qed.
Lemma nearest : forall m l, round_nearest_even m l = m \/ round_nearest_even m l = m + 1.
Proof. intros m [|[| |]]; cbn; try destruct (Z.even m); auto. Qed.

(* Rounding a mantissa of 24, 25 or 26 bits *)
Lemma round_is : forall j q e l, (j = 0 \/ j = 1 \/ j = 2) -> 2 ^ (23 + j) <= q < 2 ^ (24 + j) -> -140 <= e <= 90 ->
  exists m e', binary_round_aux 24 128 false q e l = S754_finite false m e' /\
  ((e' = e + j /\ 8388608 <= Z.pos m < 16777216 /\ (Z.pos m = q / 2 ^ j \/ Z.pos m = q / 2 ^ j + 1)) \/
   (e' = e + j + 1 /\ Z.pos m = 8388608 /\ q / 2 ^ j = 16777215)).
Proof.
  intros j q e l J Q Ee.
  assert (D : Zdigits2 q = 24 + j) by (apply digits_is; [lia|]; replace (24 + j - 1) with (23 + j) by lia; exact Q).
  assert (B : 8388608 <= q / 2 ^ j < 16777216).
  { destruct J as [->|[->| ->]]; cbn in Q |- *; lia. }
  unfold binary_round_aux, shr_fexp. rewrite D. replace (fexp 24 128 (24 + j + e) - e) with j by (unfold fexp, emin; lia).
  destruct (shift_m j q l ltac:(lia) J e) as (r & -> & R). cbv iota zeta beta. rewrite R.
  destruct (nearest (q / 2 ^ j) (loc_of_shr_record r)) as [->| ->].
  - assert (D2 : Zdigits2 (q / 2 ^ j) = 24) by (apply digits_is; [lia|exact B]).
    rewrite D2. replace (fexp 24 128 (24 + (e + j)) - (e + j)) with 0 by (unfold fexp, emin; lia). cbn [shr shr_record_of_loc shr_m].
    destruct (q / 2 ^ j) as [|m|m] eqn:M; [lia| |lia]. exists m, (e + j). replace (e + j <=? 128 - 24) with true by (symmetry; apply Z.leb_le; lia).
    split; [reflexivity|]. left. lia.
  - destruct (Z.eq_dec (q / 2 ^ j) 16777215) as [X|X].
    + rewrite X. change (Zdigits2 (16777215 + 1)) with 25. replace (fexp 24 128 (25 + (e + j)) - (e + j)) with 1 by (unfold fexp, emin; lia).
      cbn. exists 8388608%positive, (e + j + 1). replace (e + j + 1 <=? 104) with true by (symmetry; apply Z.leb_le; lia). split; [reflexivity|]. right. split; [reflexivity|]. split; [reflexivity|reflexivity].
    + assert (D2 : Zdigits2 (q / 2 ^ j + 1) = 24) by (apply digits_is; [lia|]; cbn; lia).
      rewrite D2. replace (fexp 24 128 (24 + (e + j)) - (e + j)) with 0 by (unfold fexp, emin; lia). cbn [shr shr_record_of_loc shr_m].
      destruct (q / 2 ^ j + 1) as [|m|m] eqn:M; [lia| |lia]. exists m, (e + j). replace (e + j <=? 128 - 24) with true by (symmetry; apply Z.leb_le; lia).
      split; [reflexivity|]. left. lia.
Qed.

(* Whole numbers as floating-point numbers *)
Lemma of_Z_small : forall z k, 1 <= k <= 24 -> 2 ^ (k - 1) <= z < 2 ^ k ->
  exists m, f32_of_Z z = S754_finite false m (k - 24) /\ Z.pos m = z * 2 ^ (24 - k).
Proof.
  intros z k K Q. destruct z as [|p|p]; try (pose proof (Z.pow_pos_nonneg 2 (k - 1)); lia).
  pose proof (digits_is (Z.pos p) k ltac:(lia) Q) as D. cbn [Zdigits2] in D.
  unfold f32_of_Z, binary_normalize, binary_round. rewrite D. replace (fexp 24 128 (k + 0)) with (k - 24) by (unfold fexp, emin; lia).
  assert (S : exists m, shl_align p 0 (k - 24) = (m, k - 24) /\ Z.pos m = Z.pos p * 2 ^ (24 - k)).
  { unfold shl_align. destruct (k - 24 - 0) as [|d|d] eqn:E; try lia.
    - assert (k = 24) as -> by lia. exists p. split; [reflexivity|]. rewrite Z.mul_1_r. reflexivity.
    - exists (shift_pos d p). split; [reflexivity|]. rewrite shift_pos_correct. replace (24 - k) with (Z.pos d) by lia. rewrite Z.mul_comm. reflexivity. }
  destruct S as (m & -> & V).
  assert (Q2 : 2 ^ (23 + 0) <= Z.pos m < 2 ^ (24 + 0)).
  { rewrite V. replace (23 + 0) with ((k - 1) + (24 - k)) by lia. replace (24 + 0) with (k + (24 - k)) by lia. rewrite !Z.pow_add_r by lia.
    pose proof (Z.pow_pos_nonneg 2 (24 - k)). split; [apply Z.mul_le_mono_nonneg_r|apply Z.mul_lt_mono_pos_r]; lia. }
  exists m. split; [|exact V]. unfold binary_round_aux, shr_fexp. rewrite (digits_is (Z.pos m) 24 ltac:(lia) Q2).
  replace (fexp 24 128 (24 + (k - 24)) - (k - 24)) with 0 by (unfold fexp, emin; lia). cbn [shr shr_record_of_loc loc_of_shr_record round_nearest_even shr_m].
  rewrite (digits_is (Z.pos m) 24 ltac:(lia) Q2). replace (fexp 24 128 (24 + (k - 24)) - (k - 24)) with 0 by (unfold fexp, emin; lia). cbn [shr shr_record_of_loc shr_m].
  replace (k - 24 <=? 128 - 24) with true by (symmetry; apply Z.leb_le; lia). reflexivity.
Qed.
Lemma of_Z_large : forall z j, (j = 1 \/ j = 2) -> 2 ^ (23 + j) <= z < 2 ^ (24 + j) ->
  f32_of_Z z = binary_round_aux 24 128 false z 0 loc_Exact.
Proof.
  intros z j J Q. destruct z as [|p|p]; try (pose proof (Z.pow_pos_nonneg 2 (23 + j)); lia).
  assert (D : Zdigits2 (Z.pos p) = 24 + j) by (apply digits_is; [lia|]; replace (24 + j - 1) with (23 + j) by lia; exact Q). cbn [Zdigits2] in D.
  unfold f32_of_Z, binary_normalize, binary_round. rewrite D. replace (fexp 24 128 (24 + j + 0)) with j by (unfold fexp, emin; lia).
  unfold shl_align. destruct J as [->| ->]; reflexivity.
Qed.

(* 171000 divided by a rate *)
Lemma ratio_is : forall m e, 8388608 <= Z.pos m < 16777216 -> -20 <= e <= 20 ->
  exists q e', f32_div f32_target_rate (S754_finite false m e) = S754_finite false q e' /\
  let Q := 10944000 * 2 ^ 24 / Z.pos m in
  ((2 ^ 24 <= Q /\ ((e' = -29 - e /\ (Z.pos q = Q / 2 \/ Z.pos q = Q / 2 + 1)) \/ (e' = -28 - e /\ Z.pos q = 8388608 /\ 33554430 <= Q))) \/
   (Q < 2 ^ 24 /\ ((e' = -30 - e /\ (Z.pos q = Q \/ Z.pos q = Q + 1)) \/ (e' = -29 - e /\ Z.pos q = 8388608 /\ Q = 16777215)))) /\
  8388608 <= Z.pos q < 16777216.
Proof.
  intros m e M Ee. unfold f32_div, f32_target_rate, SFdiv, SFdiv_core_binary. rewrite (digits_is (Z.pos m) 24 ltac:(lia) M).
  change (Zdigits2 10944000) with 24.
  replace (Z.min (fexp 24 128 (24 + -6 - (24 + e))) (-6 - e)) with (-30 - e) by (unfold fexp, emin; lia).
  replace (-6 - e - (-30 - e)) with 24 by lia. change (Z.shiftl 10944000 24) with (10944000 * 2 ^ 24).
  pose proof (Z.div_mod (10944000 * 2 ^ 24) (Z.pos m) ltac:(lia)) as E. pose proof (Z.mod_pos_bound (10944000 * 2 ^ 24) (Z.pos m) ltac:(lia)) as R.
  assert (P : Z.div_eucl (10944000 * 2 ^ 24) (Z.pos m) = (10944000 * 2 ^ 24 / Z.pos m, (10944000 * 2 ^ 24) mod Z.pos m)) by (unfold Z.div, Z.modulo; destruct (Z.div_eucl _ _); reflexivity).
  rewrite P. clear P. cbv zeta. remember (10944000 * 2 ^ 24 / Z.pos m) as Q eqn:EQ. remember ((10944000 * 2 ^ 24) mod Z.pos m) as r eqn:Er. clear EQ Er.
  change (10944000 * 2 ^ 24) with 183609851904000 in E. change (2 ^ 24) with 16777216.
  assert (B : 8388608 <= Q < 33554432) by nia. change (xorb false false) with false.
  destruct (Z_lt_ge_dec Q 16777216) as [L|L].
  - destruct (round_is 0 Q (-30 - e) (new_location (Z.pos m) r) ltac:(auto) ltac:(cbn; lia) ltac:(lia)) as (q & e' & -> & X).
    rewrite Z.div_1_r in X. exists q, e'. split; [reflexivity|]. lia.
  - destruct (round_is 1 Q (-30 - e) (new_location (Z.pos m) r) ltac:(auto) ltac:(cbn; lia) ltac:(lia)) as (q & e' & -> & X).
    change (2 ^ 1) with 2 in X. exists q, e'. split; [reflexivity|]. lia.
Qed.

Lemma less : forall m e m' e', SFltb (S754_finite false m e) (S754_finite false m' e') = true <-> e < e' \/ (e = e' /\ Z.pos m < Z.pos m').
Proof.
  intros m e m' e'. unfold SFltb, SFcompare. destruct (Z.compare_spec e e') as [X|X|X].
  - destruct (Pos.compare_cont Eq m m') eqn:C; change (Pos.compare_cont Eq m m') with (Pos.compare m m') in C;
      [apply Pos.compare_eq in C; subst m'|rewrite Pos.compare_lt_iff in C|rewrite Pos.compare_gt_iff in C]; split; intros Y; try discriminate; try reflexivity; lia.
  - split; intros _; [left; exact X|reflexivity].
  - split; intros Y; [discriminate|lia].
Qed.

Lemma supported_float : forall m e, 8388608 <= Z.pos m < 16777216 -> -7 <= e <= 2 -> (e = -7 -> 16384000 <= Z.pos m) ->
  SubcarrierSet_create (S754_finite false m e) = Ok tt <-> e < 2 \/ Z.pos m <= 8550000.
Proof.
  intros m e M Ee Lo. destruct (ratio_is m e M ltac:(lia)) as (q & e' & R & X). unfold SubcarrierSet_create, setRatio. rewrite R.
  cbv zeta in X. remember (10944000 * 2 ^ 24 / Z.pos m) as Q eqn:EQ.
  assert (EQ' : Q = 183609851904000 / Z.pos m) by (rewrite EQ; reflexivity). clear EQ R. change (2 ^ 24) with 16777216 in X.
  assert (B : Q * Z.pos m <= 183609851904000 < (Q + 1) * Z.pos m).
  { rewrite EQ'. pose proof (Z.div_mod 183609851904000 (Z.pos m) ltac:(lia)). pose proof (Z.mod_pos_bound 183609851904000 (Z.pos m) ltac:(lia)). nia. }
  clear EQ'.
  assert (HI : SFltb (f32_of_Z 2) (S754_finite false q e') = false).
  { change (f32_of_Z 2) with (S754_finite false 8388608 (-22)). apply Bool.not_true_iff_false. rewrite less. intros Y.
    destruct (Z.eq_dec e (-7)) as [E|E]; [specialize (Lo E); nia|]. lia. }
  rewrite HI, orb_false_r.
  destruct (SFltb (S754_finite false q e') f32_0_005) eqn:LT.
  - apply less in LT. split; [discriminate|]. intros Y. exfalso.
    destruct (Z_lt_ge_dec e 2) as [Y'|Y'].
    + destruct (Z.eq_dec e 1) as [E|E]; [|lia]. assert (10943999 <= Q) by nia. lia.
    + assert (e = 2) as -> by lia. assert (21474836 <= Q) by nia. lia.
  - split; [|reflexivity]. intros _. apply Bool.not_true_iff_false in LT. unfold f32_0_005 in LT. rewrite less in LT.
    destruct (Z_lt_ge_dec e 2) as [Y|Y]; [left; exact Y|right]. assert (e = 2) as -> by lia.
    destruct (Z_le_gt_dec (Z.pos m) 8550000) as [Z|Z]; [exact Z|exfalso]. assert (Q <= 21474833) by nia. assert (8388608 <= Z.pos q) by lia. lia.
Qed.

(* Whole sample rates between 128 kHz and 40 MHz *)
Lemma supported_rate : forall rate, 128000 <= rate <= 40000000 ->
  SubcarrierSet_create (f32_of_Z rate) = Ok tt <-> rate <= 34200002.
Proof.
  intros rate R. destruct (Z_lt_ge_dec rate 16777216) as [S|S].
  - assert (K : exists k, 17 <= k <= 24 /\ 2 ^ (k - 1) <= rate < 2 ^ k).
    { exists (Z.log2 rate + 1). pose proof (Z.log2_spec rate ltac:(lia)) as [L U]. replace (Z.log2 rate + 1 - 1) with (Z.log2 rate) by lia.
      split; [|split; [exact L|exact U]]. split.
      - assert (16 <= Z.log2 rate); [|lia]. change 16 with (Z.log2 65536). apply Z.log2_le_mono. lia.
      - assert (Z.log2 rate < 24); [|lia]. apply Z.log2_lt_pow2; [lia|exact S]. }
    destruct K as (k & K & Q). destruct (of_Z_small rate k ltac:(lia) Q) as (m & -> & V).
    assert (M : 8388608 <= Z.pos m < 16777216).
    { assert (P1 : 2 ^ (k - 1) * 2 ^ (24 - k) = 8388608) by (rewrite <- Z.pow_add_r by lia; replace (k - 1 + (24 - k)) with 23 by lia; reflexivity).
      assert (P2 : 2 ^ k * 2 ^ (24 - k) = 16777216) by (rewrite <- Z.pow_add_r by lia; replace (k + (24 - k)) with 24 by lia; reflexivity).
      pose proof (Z.pow_pos_nonneg 2 (24 - k) ltac:(lia) ltac:(lia)) as P. rewrite V, <- P1, <- P2. clear P1 P2. nia. }
    rewrite supported_float; [lia|exact M|lia|]. intros E. assert (k = 17) as -> by lia. rewrite V. change (2 ^ (24 - 17)) with 128. lia.
  - destruct (Z_lt_ge_dec rate 33554432) as [S'|S'].
    + rewrite (of_Z_large rate 1) by (try (left; reflexivity); cbn; lia).
      destruct (round_is 1 rate 0 loc_Exact ltac:(auto) ltac:(cbn; lia) ltac:(lia)) as (m & e' & -> & X). change (2 ^ 1) with 2 in X.
      destruct X as [X|X]; (rewrite supported_float; [lia|lia|lia|lia]).
    + assert (N1 : rate = 34200001 \/ rate = 34200002 \/ rate = 34200003 \/ (rate <= 34200000 \/ 34200004 <= rate)) by lia.
      destruct N1 as [->|[->|[->|N1]]].
      * split; [lia|]. intros _. vm_compute. reflexivity.
      * split; [lia|]. intros _. vm_compute. reflexivity.
      * split; [|lia]. intros X. vm_compute in X. discriminate X.
      * rewrite (of_Z_large rate 2) by (try (right; reflexivity); cbn; lia).
        destruct (Z.eq_dec rate 34200000) as [->|N2]; [split; [lia|]; intros _; vm_compute; reflexivity|].
        destruct (round_is 2 rate 0 loc_Exact ltac:(auto) ltac:(cbn; lia) ltac:(lia)) as (m & e' & -> & X). change (2 ^ 2) with 4 in X.
        destruct X as [X|X]; (rewrite supported_float; [lia|lia|lia|lia]).
Qed.
