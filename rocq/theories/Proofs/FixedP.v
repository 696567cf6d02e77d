(* Exact arithmetic on binary32 numbers that are small multiples of a power of two. *)
From Coq Require Import ZArith Lia SpecFloat.
From Verif.Model Require Import Base Float Dsp.
From Verif.Spec Require Import Biphase.

Local Open Scope Z_scope.

Lemma digits_bounds : forall p, 2 ^ (Zpos (digits2_pos p) - 1) <= Zpos p < 2 ^ Zpos (digits2_pos p).
Proof.
  induction p as [p IH|p IH|]; cbn [digits2_pos].
  - rewrite Pos2Z.inj_succ. replace (Z.succ (Zpos (digits2_pos p)) - 1) with (Z.succ (Zpos (digits2_pos p) - 1)) by lia. rewrite !Z.pow_succ_r by lia. lia.
  - rewrite Pos2Z.inj_succ. replace (Z.succ (Zpos (digits2_pos p)) - 1) with (Z.succ (Zpos (digits2_pos p) - 1)) by lia. rewrite !Z.pow_succ_r by lia. lia.
  - cbn. lia.
Qed.
Lemma digits_unique : forall p d, 2 ^ (d - 1) <= Zpos p < 2 ^ d -> 0 < d -> Zpos (digits2_pos p) = d.
Proof.
  intros p d [A B] Hd. destruct (digits_bounds p) as [C D].
  assert (Zpos (digits2_pos p) - 1 < d) by (apply (Z.pow_lt_mono_r_iff 2); lia).
  assert (d - 1 < Zpos (digits2_pos p)) by (apply (Z.pow_lt_mono_r_iff 2); lia). lia.
Qed.
Lemma shift_pow : forall d m, Zpos (shift_pos d m) = Zpos m * 2 ^ Zpos d.
Proof. intros d m. rewrite Zpower.shift_pos_correct. rewrite Z.mul_comm. reflexivity. Qed.

(* Shifting out zeros *)
Lemma shr_1_even : forall M, 0 < M -> shr_1 (Build_shr_record (2 * M) false false) = Build_shr_record M false false.
Proof. intros [|p|p] H; [lia|reflexivity|lia]. Qed.
Lemma iter_shr : forall p M, 0 < M -> iter_pos shr_1 p (Build_shr_record (M * 2 ^ Zpos p) false false) = Build_shr_record M false false.
Proof.
  induction p as [p IH|p IH|]; intros M H; cbn [iter_pos].
  - replace (M * 2 ^ Zpos p~1) with (2 * (M * 2 ^ Zpos p * 2 ^ Zpos p)).
    + rewrite shr_1_even by lia. rewrite IH by lia. apply IH, H.
    + replace (Zpos p~1) with (1 + Zpos p + Zpos p) by lia. rewrite !Z.pow_add_r by lia. change (2 ^ 1) with 2. ring.
  - replace (M * 2 ^ Zpos p~0) with (M * 2 ^ Zpos p * 2 ^ Zpos p).
    + rewrite IH by lia. apply IH, H.
    + replace (Zpos p~0) with (Zpos p + Zpos p) by lia. rewrite !Z.pow_add_r by lia. ring.
  - rewrite Z.mul_comm. apply shr_1_even, H.
Qed.
Lemma shr_exact : forall M e n, 0 < M -> 0 <= n -> shr (Build_shr_record (M * 2 ^ n) false false) e n = (Build_shr_record M false false, e + n).
Proof.
  intros M e [|p|p] H Hn; [|unfold shr; rewrite iter_shr by exact H; reflexivity|lia]. cbn [shr Z.pow]. rewrite Z.mul_1_r, Z.add_0_r. reflexivity.
Qed.
Notation fe := (fexp 24 128).
Lemma fe_normal : forall E, -149 <= E -> fe (24 + E) = E.
Proof. intros E H. unfold fexp, emin. lia. Qed.
Lemma zdigits : forall m d, 2 ^ (d - 1) <= m < 2 ^ d -> 0 < d -> Zdigits2 m = d.
Proof. intros [|p|p] d H Hd; [assert (0 < 2 ^ (d - 1)) by (apply Z.pow_pos_nonneg; lia); lia|apply digits_unique; assumption|assert (0 < 2 ^ (d - 1)) by (apply Z.pow_pos_nonneg; lia); lia]. Qed.
Lemma round_aux_exact : forall s M E n, 2 ^ 23 <= Zpos M < 2 ^ 24 -> -149 <= E <= 104 -> 0 <= n ->
  binary_round_aux 24 128 s (Zpos M * 2 ^ n) (E - n) loc_Exact = S754_finite s M E.
Proof.
  intros s M E n HM HE Hn. unfold binary_round_aux, shr_fexp.
  assert (Dn : Zdigits2 (Zpos M * 2 ^ n) = 24 + n).
  { apply zdigits; [|lia]. replace (24 + n - 1) with (23 + n) by lia. rewrite !Z.pow_add_r by lia. assert (0 < 2 ^ n) by (apply Z.pow_pos_nonneg; lia). nia. }
  rewrite Dn. replace (24 + n + (E - n)) with (24 + E) by lia. rewrite fe_normal by lia. replace (E - (E - n)) with n by lia.
  cbn [shr_record_of_loc]. rewrite shr_exact by lia. cbn [loc_of_shr_record round_nearest_even shr_m].
  replace (E - n + n) with E by lia. rewrite (zdigits (Zpos M) 24) by lia. rewrite fe_normal by lia. rewrite Z.sub_diag. cbn [shr shr_m].
  replace (E <=? 128 - 24) with true by lia. reflexivity.
Qed.
Lemma round_exact : forall s m e M E, 2 ^ 23 <= Zpos M < 2 ^ 24 -> -149 <= E <= 104 ->
  (E <= e /\ Zpos M = Zpos m * 2 ^ (e - E)) \/ (e < E /\ Zpos m = Zpos M * 2 ^ (E - e)) ->
  binary_round 24 128 s m e = S754_finite s M E.
Proof.
  intros s m e M E HM HE Hv. unfold binary_round.
  assert (Dm : Zpos (digits2_pos m) + e = 24 + E).
  { destruct Hv as [[L Q]|[L Q]].
    - destruct (digits_bounds m) as [A B]. assert (0 < 2 ^ (e - E)) by (apply Z.pow_pos_nonneg; lia).
      assert (X : Zpos (digits2_pos M) = Zpos (digits2_pos m) + (e - E)).
      { apply digits_unique; [|lia]. rewrite Q. replace (Zpos (digits2_pos m) + (e - E) - 1) with (Zpos (digits2_pos m) - 1 + (e - E)) by lia. rewrite !Z.pow_add_r by lia. nia. }
      rewrite (digits_unique M 24) in X by lia. lia.
    - assert (X : Zpos (digits2_pos m) = 24 + (E - e)); [|lia]. apply digits_unique; [|lia]. rewrite Q. replace (24 + (E - e) - 1) with (23 + (E - e)) by lia. rewrite !Z.pow_add_r by lia.
      assert (0 < 2 ^ (E - e)) by (apply Z.pow_pos_nonneg; lia). nia. }
  rewrite Dm, fe_normal by lia. unfold shl_align. destruct Hv as [[L Q]|[L Q]].
  - destruct (E - e) as [|d|d] eqn:Ed; [|lia|].
    + assert (E = e) by lia. subst E. rewrite Z.sub_diag in Q. change (2 ^ 0) with 1 in Q. rewrite Z.mul_1_r in Q. assert (M = m) as -> by lia.
      pose proof (round_aux_exact s m e 0 HM HE ltac:(lia)) as R. rewrite Z.pow_0_r, Z.mul_1_r, Z.sub_0_r in R. exact R.
    + assert (X : Zpos (shift_pos d m) = Zpos M) by (rewrite shift_pow, Q; f_equal; f_equal; lia). assert (shift_pos d m = M) as -> by lia.
      pose proof (round_aux_exact s M E 0 HM HE ltac:(lia)) as R. rewrite Z.pow_0_r, Z.mul_1_r, Z.sub_0_r in R. exact R.
  - destruct (E - e) as [|d|d] eqn:Ed; [lia| |lia]. rewrite Q.
    pose proof (round_aux_exact s M E (Zpos d) HM HE ltac:(lia)) as R. replace (E - Zpos d) with e in R by lia. exact R.
Qed.

(* The canonical form of a small multiple of 2^u *)
Definition mant (k : Z) : positive := Z.to_pos (Z.abs k * 2 ^ (24 - Zdigits2 k)).
Definition expo (u k : Z) : Z := u + Zdigits2 k - 24.
Definition small (k : Z) : Prop := Z.abs k < 2 ^ 24.
Definition unit_ok (u : Z) : Prop := -110 <= u <= 100.
Lemma digits_small : forall k, small k -> k <> 0 -> 1 <= Zdigits2 k <= 24 /\ 2 ^ (Zdigits2 k - 1) <= Z.abs k < 2 ^ Zdigits2 k.
Proof.
  intros k S N. assert (X : exists p, Z.abs k = Zpos p /\ Zdigits2 k = Zpos (digits2_pos p)) by (destruct k as [|p|p]; [lia|exists p; auto|exists p; auto]).
  destruct X as (p & E & ->). rewrite E. pose proof (digits_bounds p) as B. split; [|exact B]. split; [lia|].
  unfold small in S. rewrite E in S. assert (Zpos (digits2_pos p) - 1 < 24); [|lia]. apply (Z.pow_lt_mono_r_iff 2); lia.
Qed.
Lemma mant_ok : forall k, small k -> k <> 0 -> Zpos (mant k) = Z.abs k * 2 ^ (24 - Zdigits2 k) /\ 2 ^ 23 <= Zpos (mant k) < 2 ^ 24.
Proof.
  intros k S N. destruct (digits_small k S N) as [D [A B]]. assert (P : 0 < 2 ^ (24 - Zdigits2 k)) by (apply Z.pow_pos_nonneg; lia).
  assert (E : Zpos (mant k) = Z.abs k * 2 ^ (24 - Zdigits2 k)) by (unfold mant; rewrite Z2Pos.id; [reflexivity|nia]). split; [exact E|]. rewrite E.
  replace (2 ^ 23) with (2 ^ (Zdigits2 k - 1) * 2 ^ (24 - Zdigits2 k)) by (rewrite <- Z.pow_add_r by lia; f_equal; lia).
  replace (2 ^ 24) with (2 ^ Zdigits2 k * 2 ^ (24 - Zdigits2 k)) by (rewrite <- Z.pow_add_r by lia; f_equal; lia). nia.
Qed.
(* any way of writing k * 2^u is rounded to it *)
Lemma normal : forall u k S e, unit_ok u -> small k -> k <> 0 -> e <= u -> S = k * 2 ^ (u - e) ->
  binary_normalize 24 128 S e false = S754_finite (k <? 0) (mant k) (expo u k).
Proof.
  intros u k S e U Sm N L ES. destruct (digits_small k Sm N) as [D _]. destruct (mant_ok k Sm N) as [EM HM]. unfold unit_ok in U.
  assert (HE : -149 <= expo u k <= 104) by (unfold expo; lia).
  assert (P : 0 < 2 ^ (u - e)) by (apply Z.pow_pos_nonneg; lia).
  assert (R : forall m, Zpos m = Z.abs k * 2 ^ (u - e) -> binary_round 24 128 (k <? 0) m e = S754_finite (k <? 0) (mant k) (expo u k)).
  { intros m Em. apply round_exact; [exact HM|exact HE|]. rewrite EM, Em. unfold expo. destruct (Z.le_gt_cases (u + Zdigits2 k - 24) e) as [X|X].
    - left. split; [exact X|]. rewrite <- Z.mul_assoc, <- Z.pow_add_r by lia. f_equal. f_equal. lia.
    - right. split; [exact X|]. rewrite <- Z.mul_assoc, <- Z.pow_add_r by lia. f_equal. f_equal. lia. }
  destruct S as [|m|m]; cbn [binary_normalize].
  - nia.
  - assert (k <? 0 = false) as K by (destruct (Z.ltb_spec k 0); [nia|reflexivity]). rewrite K in R. rewrite K. apply R. apply Z.ltb_ge in K. nia.
  - assert (k <? 0 = true) as K by (destruct (Z.ltb_spec k 0); [reflexivity|nia]). rewrite K in R. rewrite K. apply R. apply Z.ltb_lt in K. nia.
Qed.
Lemma fixed_form : forall u k, unit_ok u -> small k -> k <> 0 -> fixed u k = S754_finite (k <? 0) (mant k) (expo u k).
Proof. intros u k U S N. apply normal; try assumption; [lia|]. rewrite Z.sub_diag. change (2 ^ 0) with 1. lia. Qed.
Lemma fixed_0 : forall u, fixed u 0 = S754_zero false.
Proof. reflexivity. Qed.

Lemma align : forall u k ez, small k -> k <> 0 -> ez <= expo u k ->
  cond_Zopp (k <? 0) (Zpos (fst (shl_align (mant k) (expo u k) ez))) = k * 2 ^ (u - ez).
Proof.
  intros u k ez S N L. destruct (digits_small k S N) as [D _]. destruct (mant_ok k S N) as [EM _].
  assert (X : Zpos (fst (shl_align (mant k) (expo u k) ez)) = Z.abs k * 2 ^ (u - ez)).
  { unfold shl_align. destruct (ez - expo u k) as [|d|d] eqn:Ed; cbn [fst].
    - rewrite EM. f_equal. f_equal. unfold expo in *. lia.
    - lia.
    - rewrite shift_pow, EM, <- Z.mul_assoc, <- Z.pow_add_r by lia. f_equal. f_equal. unfold expo in *. lia. }
  rewrite X. destruct (Z.ltb_spec k 0); cbn [cond_Zopp]; nia.
Qed.
Lemma expo_le : forall u k, small k -> k <> 0 -> expo u k <= u.
Proof. intros u k S N. destruct (digits_small k S N) as [D _]. unfold expo. lia. Qed.
Lemma digits_opp : forall k, Zdigits2 (- k) = Zdigits2 k.
Proof. intros [|p|p]; reflexivity. Qed.
Lemma mant_opp : forall k, mant (- k) = mant k.
Proof. intros k. unfold mant. rewrite digits_opp, Z.abs_opp. reflexivity. Qed.
Lemma expo_opp : forall u k, expo u (- k) = expo u k.
Proof. intros u k. unfold expo. rewrite digits_opp. reflexivity. Qed.
Lemma small_opp : forall k, small k -> small (- k).
Proof. intros k S. unfold small in *. rewrite Z.abs_opp. exact S. Qed.

Lemma fixed_add : forall u a b, unit_ok u -> small a -> small b -> small (a + b) -> f32_add (fixed u a) (fixed u b) = fixed u (a + b).
Proof.
  intros u a b U A B AB. destruct (Z.eq_dec a 0) as [->|Na]; [destruct (Z.eq_dec b 0) as [->|Nb]; [reflexivity|]|destruct (Z.eq_dec b 0) as [->|Nb]].
  - rewrite fixed_0, (fixed_form u b), Z.add_0_l, (fixed_form u b) by assumption. reflexivity.
  - rewrite fixed_0, (fixed_form u a), Z.add_0_r, (fixed_form u a) by assumption. reflexivity.
  - rewrite (fixed_form u a), (fixed_form u b) by assumption. unfold f32_add, SFadd. cbv zeta.
    pose proof (expo_le u a A Na) as La. pose proof (expo_le u b B Nb) as Lb.
    rewrite !align by (assumption || lia). rewrite <- Z.mul_add_distr_r. set (ez := Z.min (expo u a) (expo u b)).
    destruct (Z.eq_dec (a + b) 0) as [E|N]; [rewrite E; reflexivity|]. rewrite (fixed_form u (a + b)) by assumption. apply normal; try assumption; [lia|reflexivity].
Qed.
Lemma fixed_sub : forall u a b, unit_ok u -> small a -> small b -> small (a - b) -> f32_sub (fixed u a) (fixed u b) = fixed u (a - b).
Proof.
  intros u a b U A B AB. destruct (Z.eq_dec a 0) as [->|Na]; [destruct (Z.eq_dec b 0) as [->|Nb]; [reflexivity|]|destruct (Z.eq_dec b 0) as [->|Nb]].
  - rewrite fixed_0, (fixed_form u b), Z.sub_0_l, (fixed_form u (- b)), mant_opp, expo_opp by (assumption || lia || apply small_opp; assumption). cbn [f32_sub SFsub]. unfold f32_sub, SFsub. f_equal. destruct (Z.ltb_spec b 0), (Z.ltb_spec (- b) 0); try reflexivity; lia.
  - rewrite fixed_0, (fixed_form u a), Z.sub_0_r, (fixed_form u a) by assumption. reflexivity.
  - rewrite (fixed_form u a), (fixed_form u b) by assumption. unfold f32_sub, SFsub. cbv zeta.
    pose proof (expo_le u a A Na) as La. pose proof (expo_le u b B Nb) as Lb.
    rewrite !align by (assumption || lia). rewrite <- Z.mul_sub_distr_r. set (ez := Z.min (expo u a) (expo u b)).
    destruct (Z.eq_dec (a - b) 0) as [E|N]; [rewrite E; reflexivity|]. rewrite (fixed_form u (a - b)) by assumption. apply normal; try assumption; [lia|reflexivity].
Qed.
Lemma fixed_half : forall u a, unit_ok u -> unit_ok (u - 1) -> small a -> f32_mul (fixed u a) f32_half = fixed (u - 1) a.
Proof.
  intros u a U U1 A. destruct (Z.eq_dec a 0) as [->|N]; [reflexivity|]. rewrite !fixed_form by assumption. unfold f32_mul, f32_half, SFmul. rewrite xorb_false_r.
  destruct (mant_ok a A N) as [_ HM]. destruct (digits_small a A N) as [D _]. unfold unit_ok in *.
  pose proof (round_aux_exact (a <? 0) (mant a) (expo (u - 1) a) 23 HM ltac:(unfold expo; lia) ltac:(lia)) as R.
  replace (Zpos (mant a * 8388608)) with (Zpos (mant a) * 2 ^ 23) by reflexivity. replace (expo u a + -24) with (expo (u - 1) a - 23) by (unfold expo; lia). exact R.
Qed.
Lemma fixed_abs : forall u a, unit_ok u -> small a -> SFabs (fixed u a) = fixed u (Z.abs a).
Proof.
  intros u a U A. destruct (Z.eq_dec a 0) as [->|N]; [reflexivity|]. rewrite (fixed_form u a), (fixed_form u (Z.abs a)) by (assumption || lia || (unfold small in *; lia)).
  cbn [SFabs]. replace (Z.abs a <? 0) with false by lia. assert (Z.abs a = a \/ Z.abs a = - a) as [-> | ->] by lia; rewrite ?mant_opp, ?expo_opp; reflexivity.
Qed.
Lemma fixed_nonneg : forall u a, unit_ok u -> small a -> SFleb (S754_zero false) (fixed u a) = (0 <=? a).
Proof.
  intros u a U A. destruct (Z.eq_dec a 0) as [->|N]; [reflexivity|]. rewrite fixed_form by assumption. unfold SFleb, SFcompare.
  destruct (Z.ltb_spec a 0), (Z.leb_spec 0 a); try reflexivity; lia.
Qed.
Lemma fixed_lt : forall u a b, unit_ok u -> small a -> small b -> 0 <= a -> 0 <= b -> SFltb (fixed u a) (fixed u b) = (a <? b).
Proof.
  intros u a b U A B Pa Pb. destruct (Z.eq_dec a 0) as [->|Na]; [destruct (Z.eq_dec b 0) as [->|Nb]; [reflexivity|]|destruct (Z.eq_dec b 0) as [->|Nb]].
  - rewrite fixed_0, (fixed_form u b) by assumption. unfold SFltb, SFcompare. replace (b <? 0) with false by lia. replace (0 <? b) with true by lia. reflexivity.
  - rewrite fixed_0, (fixed_form u a) by assumption. unfold SFltb, SFcompare. replace (a <? 0) with false by lia. reflexivity.
  - rewrite (fixed_form u a), (fixed_form u b) by assumption. unfold SFltb, SFcompare. replace (a <? 0) with false by lia. replace (b <? 0) with false by lia.
    destruct (mant_ok a A Na) as [Ea _]. destruct (mant_ok b B Nb) as [Eb _]. destruct (digits_small a A Na) as [Da [La Ga]]. destruct (digits_small b B Nb) as [Db [Lb Gb]].
    rewrite !Z.abs_eq in * by lia. unfold expo. destruct (Z.compare_spec (u + Zdigits2 a - 24) (u + Zdigits2 b - 24)) as [E|E|E].
    + assert (Zdigits2 a = Zdigits2 b) as Ed by lia. rewrite Ed in Ea. assert (P : 0 < 2 ^ (24 - Zdigits2 b)) by (apply Z.pow_pos_nonneg; lia).
      change (Pos.compare_cont Eq (mant a) (mant b)) with (Pos.compare (mant a) (mant b)). destruct (Pos.compare_spec (mant a) (mant b)) as [X|X|X].
      * rewrite X in Ea. assert (a = b) by nia. lia.
      * assert (Zpos (mant a) < Zpos (mant b)) by lia. assert (a < b) by nia. lia.
      * assert (Zpos (mant b) < Zpos (mant a)) by lia. assert (b < a) by nia. lia.
    + assert (2 ^ Zdigits2 a <= 2 ^ (Zdigits2 b - 1)) by (apply Z.pow_le_mono_r; lia). lia.
    + assert (2 ^ Zdigits2 b <= 2 ^ (Zdigits2 a - 1)) by (apply Z.pow_le_mono_r; lia). lia.
Qed.
