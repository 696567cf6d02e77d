(* Seconds in binary32: when more than ten seconds of bits, or five of samples, have passed. *)
From Verif.Model Require Import Base Util Float Dsp.
From Verif.Proofs Require Import Tac RateP.
From Coq Require Import SpecFloat.
Local Open Scope Z_scope.

Lemma shift_any : forall p r, 0 <= shr_m r -> shr_m (iter_pos shr_1 p r) = shr_m r / 2 ^ Z.pos p.
Proof.
  assert (S1 : forall r, 0 <= shr_m r -> shr_m (shr_1 r) = shr_m r / 2) by (intros [m a b] H; cbn [shr_m] in *; rewrite shr_1_is by exact H; reflexivity).
  induction p as [p IH|p IH|]; intros r H; cbn [iter_pos].
  - assert (H1 : 0 <= shr_m (shr_1 r)) by (rewrite S1 by exact H; apply Z.div_pos; lia).
    assert (H2 : 0 <= shr_m (iter_pos shr_1 p (shr_1 r))) by (rewrite IH by exact H1; apply Z.div_pos; [exact H1|apply Z.pow_pos_nonneg; lia]).
    rewrite IH, IH, S1 by assumption. rewrite !Z.div_div by (try apply Z.pow_nonzero; try apply Z.mul_pos_pos; try apply Z.pow_pos_nonneg; lia). f_equal.
    replace (Z.pos p~1) with (Z.pos p + Z.pos p + 1) by lia. rewrite !Z.pow_add_r by lia. lia.
  - assert (H2 : 0 <= shr_m (iter_pos shr_1 p r)) by (rewrite IH by exact H; apply Z.div_pos; [exact H|apply Z.pow_pos_nonneg; lia]).
    rewrite IH, IH by assumption. rewrite Z.div_div by (try apply Z.pow_nonzero; try apply Z.pow_pos_nonneg; lia). f_equal.
    replace (Z.pos p~0) with (Z.pos p + Z.pos p) by lia. rewrite !Z.pow_add_r by lia. lia.
  - rewrite S1 by exact H. reflexivity.
Qed.
Lemma shift_z : forall j m l e, 0 <= m -> 0 <= j -> exists r, shr (shr_record_of_loc m l) e j = (r, e + j) /\ shr_m r = m / 2 ^ j.
Proof.
  intros j m l e P J. destruct j as [|p|p]; [|eexists; split; [reflexivity|]; rewrite shift_any, record_m by (rewrite record_m; exact P); reflexivity|lia].
  eexists. split; [cbn [shr]; rewrite Z.add_0_r; reflexivity|]. rewrite record_m, Z.div_1_r. reflexivity.
Qed.
Lemma of_Z_big : forall z, 2 ^ 24 <= z < 2 ^ 33 -> exists m e, f32_of_Z z = S754_finite false m e /\ 8388608 <= Z.pos m < 16777216 /\ 1 <= e <= 20.
Proof.
  intros z H. set (j := Z.log2 z - 23). pose proof (Z.log2_spec z ltac:(lia)) as [L U].
  assert (J : 1 <= j <= 9).
  { unfold j. assert (24 <= Z.log2 z) by (change 24 with (Z.log2 (2 ^ 24)); apply Z.log2_le_mono; lia). assert (Z.log2 z < 33) by (apply Z.log2_lt_pow2; lia). lia. }
  assert (Q : 2 ^ (23 + j) <= z < 2 ^ (24 + j)) by (replace (23 + j) with (Z.log2 z) by (unfold j; lia); replace (24 + j) with (Z.succ (Z.log2 z)) by (unfold j; lia); split; assumption). clearbody j. clear L U.
  assert (D : Zdigits2 z = 24 + j) by (apply digits_is; [lia|]; replace (24 + j - 1) with (23 + j) by lia; exact Q).
  assert (B : 8388608 <= z / 2 ^ j < 16777216).
  { rewrite !Z.pow_add_r in Q by lia. change (2 ^ 23) with 8388608 in Q. change (2 ^ 24) with 16777216 in Q. pose proof (Z.pow_pos_nonneg 2 j ltac:(lia) ltac:(lia)) as PP. split; [apply Z.div_le_lower_bound; lia|apply Z.div_lt_upper_bound; lia]. }
  destruct z as [|p|p]; [lia| |lia]. cbn [Zdigits2] in D.
  unfold f32_of_Z, binary_normalize, binary_round. rewrite D. replace (fexp 24 128 (24 + j + 0)) with j by (unfold fexp, emin; lia).
  assert (S : shl_align p 0 j = (p, 0)) by (unfold shl_align; destruct (j - 0) as [|d|d] eqn:E; try lia; reflexivity). rewrite S.
  unfold binary_round_aux, shr_fexp. change (Zdigits2 (Z.pos p)) with (Z.pos (digits2_pos p)). rewrite D. replace (fexp 24 128 (24 + j + 0) - 0) with j by (unfold fexp, emin; lia).
  destruct (shift_z j (Z.pos p) loc_Exact 0 ltac:(lia) ltac:(lia)) as (r & -> & R). cbv iota zeta beta. rewrite R. change (0 + j) with j.
  destruct (nearest (Z.pos p / 2 ^ j) (loc_of_shr_record r)) as [->| ->].
  - rewrite (digits_is (Z.pos p / 2 ^ j) 24) by (try lia; exact B). replace (fexp 24 128 (24 + j) - j) with 0 by (unfold fexp, emin; lia). cbn [shr shr_record_of_loc shr_m].
    destruct (Z.pos p / 2 ^ j) as [|m|m] eqn:M; [lia| |lia]. exists m, j. replace (j <=? 128 - 24) with true by (symmetry; apply Z.leb_le; lia). split; [reflexivity|]. lia.
  - destruct (Z.eq_dec (Z.pos p / 2 ^ j) 16777215) as [X|X].
    + rewrite X. change (Zdigits2 (16777215 + 1)) with 25. replace (fexp 24 128 (25 + j) - j) with 1 by (unfold fexp, emin; lia).
      cbn. exists 8388608%positive, (j + 1). replace (j + 1 <=? 104) with true by (symmetry; apply Z.leb_le; lia). split; [reflexivity|]. lia.
    + rewrite (digits_is (Z.pos p / 2 ^ j + 1) 24) by (cbn; lia). replace (fexp 24 128 (24 + j) - j) with 0 by (unfold fexp, emin; lia). cbn [shr shr_record_of_loc shr_m].
      destruct (Z.pos p / 2 ^ j + 1) as [|m|m] eqn:M; [lia| |lia]. exists m, j. replace (j <=? 128 - 24) with true by (symmetry; apply Z.leb_le; lia). split; [reflexivity|]. lia.
Qed.

(* Division by a constant *)
Lemma by_const : forall c ec m e, 8388608 <= Z.pos c < 16777216 -> -20 <= ec <= 20 -> 8388608 <= Z.pos m < 16777216 -> -24 <= e <= 20 ->
  exists q e', f32_div (S754_finite false m e) (S754_finite false c ec) = S754_finite false q e' /\
  let Q := Z.pos m * 2 ^ 24 / Z.pos c in
  ((2 ^ 24 <= Q /\ ((e' = e - ec - 23 /\ (Z.pos q = Q / 2 \/ Z.pos q = Q / 2 + 1)) \/ (e' = e - ec - 22 /\ Z.pos q = 8388608 /\ 33554430 <= Q))) \/
   (Q < 2 ^ 24 /\ ((e' = e - ec - 24 /\ (Z.pos q = Q \/ Z.pos q = Q + 1)) \/ (e' = e - ec - 23 /\ Z.pos q = 8388608 /\ Q = 16777215)))) /\
  8388608 <= Z.pos q < 16777216.
Proof.
  intros c ec m e C Ec M Ee. unfold f32_div, SFdiv, SFdiv_core_binary. rewrite (digits_is (Z.pos m) 24 ltac:(lia) M), (digits_is (Z.pos c) 24 ltac:(lia) C).
  replace (Z.min (fexp 24 128 (24 + e - (24 + ec))) (e - ec)) with (e - ec - 24) by (unfold fexp, emin; lia).
  replace (e - ec - (e - ec - 24)) with 24 by lia. rewrite Z.shiftl_mul_pow2 by lia.
  pose proof (Z.div_mod (Z.pos m * 2 ^ 24) (Z.pos c) ltac:(lia)) as E. pose proof (Z.mod_pos_bound (Z.pos m * 2 ^ 24) (Z.pos c) ltac:(lia)) as R.
  assert (P : Z.div_eucl (Z.pos m * 2 ^ 24) (Z.pos c) = (Z.pos m * 2 ^ 24 / Z.pos c, (Z.pos m * 2 ^ 24) mod Z.pos c)) by (unfold Z.div, Z.modulo; destruct (Z.div_eucl _ _); reflexivity).
  rewrite P. clear P. cbv zeta. remember (Z.pos m * 2 ^ 24 / Z.pos c) as Q eqn:EQ. remember ((Z.pos m * 2 ^ 24) mod Z.pos c) as r eqn:Er. clear EQ Er.
  change (2 ^ 24) with 16777216 in *.
  assert (B : 8388608 <= Q < 33554432) by nia. change (xorb false false) with false.
  destruct (Z_lt_ge_dec Q 16777216) as [L|L].
  - destruct (round_is 0 Q (e - ec - 24) (new_location (Z.pos c) r) ltac:(auto) ltac:(cbn; lia) ltac:(lia)) as (q & e' & -> & X).
    rewrite Z.div_1_r in X. exists q, e'. split; [reflexivity|]. lia.
  - destruct (round_is 1 Q (e - ec - 24) (new_location (Z.pos c) r) ltac:(auto) ltac:(cbn; lia) ltac:(lia)) as (q & e' & -> & X).
    change (2 ^ 1) with 2 in X. exists q, e'. split; [reflexivity|]. lia.
Qed.

(* A whole number below 2^32 *)
Lemma of_Z_any : forall z, 0 < z < 2 ^ 32 -> exists m e, f32_of_Z z = S754_finite false m e /\ 8388608 <= Z.pos m < 16777216 /\
  ((exists k, 1 <= k <= 24 /\ 2 ^ (k - 1) <= z < 2 ^ k /\ e = k - 24 /\ Z.pos m = z * 2 ^ (24 - k)) \/ (1 <= e <= 20 /\ 2 ^ 24 <= z)).
Proof.
  intros z H. destruct (Z_lt_ge_dec z (2 ^ 24)) as [S|S].
  - set (k := Z.log2 z + 1). pose proof (Z.log2_spec z ltac:(lia)) as [L U].
    assert (Q : 2 ^ (k - 1) <= z < 2 ^ k) by (unfold k; replace (Z.log2 z + 1 - 1) with (Z.log2 z) by lia; split; [exact L|exact U]).
    assert (K : 1 <= k <= 24) by (unfold k; pose proof (Z.log2_nonneg z); assert (Z.log2 z < 24) by (apply Z.log2_lt_pow2; lia); lia). clearbody k.
    destruct (of_Z_small z k K Q) as (m & -> & V). exists m, (k - 24). split; [reflexivity|]. split; [|left; exists k; auto].
    assert (P1 : 2 ^ (k - 1) * 2 ^ (24 - k) = 8388608) by (rewrite <- Z.pow_add_r by lia; replace (k - 1 + (24 - k)) with 23 by lia; reflexivity).
    assert (P2 : 2 ^ k * 2 ^ (24 - k) = 16777216) by (rewrite <- Z.pow_add_r by lia; replace (k + (24 - k)) with 24 by lia; reflexivity).
    pose proof (Z.pow_pos_nonneg 2 (24 - k) ltac:(lia) ltac:(lia)) as P. rewrite V, <- P1, <- P2. clear P1 P2. nia.
  - destruct (of_Z_big z ltac:(lia)) as (m & e & -> & M & E). exists m, e. split; [reflexivity|]. split; [exact M|]. right. lia.
Qed.

Lemma ten_seconds_of_bits : forall n, 0 <= n < 2 ^ 32 -> SFltb (f32_of_Z 10) (f32_div (f32_of_Z n) (S754_finite false 9728000 (-13))) = (11875 <? n).
Proof.
  intros n H. destruct (Z.eq_dec n 0) as [->|N0]; [vm_compute; reflexivity|]. destruct (Z.eq_dec n 11875) as [->|N1]; [vm_compute; reflexivity|].
  destruct (of_Z_any n ltac:(lia)) as (m & e & -> & M & F).
  assert (Ee : -24 <= e <= 20) by (destruct F as [(k & K & _ & -> & _)|[K _]]; lia).
  destruct (by_const 9728000 (-13) m e ltac:(lia) ltac:(lia) M Ee) as (q & e' & -> & X). cbv zeta in X. change (f32_of_Z 10) with (S754_finite false 10485760 (-20)).
  remember (Z.pos m * 2 ^ 24 / 9728000) as Q eqn:EQ. assert (B : Q * 9728000 <= Z.pos m * 16777216 < (Q + 1) * 9728000).
  { rewrite EQ. change (2 ^ 24) with 16777216. pose proof (Z.div_mod (Z.pos m * 16777216) 9728000 ltac:(lia)). pose proof (Z.mod_pos_bound (Z.pos m * 16777216) 9728000 ltac:(lia)). lia. }
  clear EQ. change (2 ^ 24) with 16777216 in X. apply Bool.eq_iff_eq_true. rewrite less, Z.ltb_lt.
  destruct F as [(k & K & Kn & -> & V)|[K Kn]]; [|change (2 ^ 24) with 16777216 in Kn; lia].
  destruct (Z_lt_ge_dec k 14) as [K1|K1].
  { assert (n < 8192) by (assert (2 ^ k <= 2 ^ 13) by (apply Z.pow_le_mono_r; lia); change (2 ^ 13) with 8192 in *; lia). lia. }
  destruct (Z_lt_ge_dec 14 k) as [K2|K2].
  { assert (16384 <= n) by (assert (2 ^ 14 <= 2 ^ (k - 1)) by (apply Z.pow_le_mono_r; lia); change (2 ^ 14) with 16384 in *; lia). lia. }
  assert (k = 14) as -> by lia. change (2 ^ (24 - 14)) with 1024 in V. lia.
Qed.
Lemma five_seconds_of_samples : forall n, 0 <= n < 2 ^ 32 -> SFltb (f32_of_Z 5) (f32_div (f32_of_Z n) f32_target_rate) = (855000 <? n).
Proof.
  intros n H. destruct (Z.eq_dec n 0) as [->|N0]; [vm_compute; reflexivity|]. destruct (Z.eq_dec n 855000) as [->|N1]; [vm_compute; reflexivity|].
  destruct (of_Z_any n ltac:(lia)) as (m & e & -> & M & F). unfold f32_target_rate.
  assert (Ee : -24 <= e <= 20) by (destruct F as [(k & K & _ & -> & _)|[K _]]; lia).
  destruct (by_const 10944000 (-6) m e ltac:(lia) ltac:(lia) M Ee) as (q & e' & -> & X). cbv zeta in X. change (f32_of_Z 5) with (S754_finite false 10485760 (-21)).
  remember (Z.pos m * 2 ^ 24 / 10944000) as Q eqn:EQ. assert (B : Q * 10944000 <= Z.pos m * 16777216 < (Q + 1) * 10944000).
  { rewrite EQ. change (2 ^ 24) with 16777216. pose proof (Z.div_mod (Z.pos m * 16777216) 10944000 ltac:(lia)). pose proof (Z.mod_pos_bound (Z.pos m * 16777216) 10944000 ltac:(lia)). lia. }
  clear EQ. change (2 ^ 24) with 16777216 in X. apply Bool.eq_iff_eq_true. rewrite less, Z.ltb_lt.
  destruct F as [(k & K & Kn & -> & V)|[K Kn]]; [|change (2 ^ 24) with 16777216 in Kn; lia].
  destruct (Z_lt_ge_dec k 20) as [K1|K1].
  { assert (n < 524288) by (assert (2 ^ k <= 2 ^ 19) by (apply Z.pow_le_mono_r; lia); change (2 ^ 19) with 524288 in *; lia). lia. }
  destruct (Z_lt_ge_dec 20 k) as [K2|K2].
  { assert (1048576 <= n) by (assert (2 ^ 20 <= 2 ^ (k - 1)) by (apply Z.pow_le_mono_r; lia); change (2 ^ 20) with 1048576 in *; lia). lia. }
  assert (k = 20) as -> by lia. change (2 ^ (24 - 20)) with 16 in V. lia.
Qed.
