(* Rounding of the standard library's SpecFloat operations, in integers. *)
From Verif.Proofs Require Import Tac.
From Verif.Model Require Import Float.
From Coq Require Import Arith SpecFloat.
Local Open Scope Z_scope.

Lemma iter_add : forall (A : Type) (f : A -> A) n m x, Nat.iter (n + m) f x = Nat.iter n f (Nat.iter m f x).
Proof. intros A f. induction n as [|n IH]; intros m x; [reflexivity|]. cbn. f_equal. apply IH. Qed.

Lemma iter_pos_nat : forall (A : Type) (f : A -> A) p x, iter_pos f p x = Nat.iter (Pos.to_nat p) f x.
Proof.
  intros A f. induction p as [p IH|p IH|]; intros x; cbn [iter_pos].
  - rewrite !IH. replace (Pos.to_nat p~1) with (Pos.to_nat p + (Pos.to_nat p + 1))%nat by lia.
    rewrite !iter_add. reflexivity.
  - rewrite !IH. replace (Pos.to_nat p~0) with (Pos.to_nat p + Pos.to_nat p)%nat by lia.
    rewrite iter_add. reflexivity.
  - reflexivity.
Qed.

Lemma digits2_bounds : forall p, 2 ^ (Z.pos (digits2_pos p) - 1) <= Z.pos p < 2 ^ Z.pos (digits2_pos p).
Proof.
  induction p as [p IH|p IH|]; cbn [digits2_pos].
  - rewrite Pos2Z.inj_succ. replace (Z.succ (Z.pos (digits2_pos p)) - 1) with (Z.succ (Z.pos (digits2_pos p) - 1)) by lia.
    rewrite !Z.pow_succ_r by lia. rewrite Pos2Z.inj_xI. lia.
  - rewrite Pos2Z.inj_succ. replace (Z.succ (Z.pos (digits2_pos p)) - 1) with (Z.succ (Z.pos (digits2_pos p) - 1)) by lia.
    rewrite !Z.pow_succ_r by lia. rewrite (Pos2Z.inj_xO p). lia.
  - cbn. lia.
Qed.

Lemma digits2_unique : forall p d, 2 ^ (d - 1) <= Z.pos p < 2 ^ d -> Z.pos (digits2_pos p) = d.
Proof.
  intros p d H. pose proof (digits2_bounds p) as B. set (d' := Z.pos (digits2_pos p)) in *.
  assert (0 < d') by (subst d'; lia).
  destruct (Z_lt_le_dec d d') as [L|L].
  - assert (2 ^ d <= 2 ^ (d' - 1)) by (apply Z.pow_le_mono_r; lia). lia.
  - destruct (Z_lt_le_dec d' d) as [L'|L']; [|lia].
    assert (2 ^ d' <= 2 ^ (d - 1)) by (apply Z.pow_le_mono_r; lia). lia.
Qed.

Lemma digits2_le : forall p d, Z.pos p < 2 ^ d -> Z.pos (digits2_pos p) <= d.
Proof.
  intros p d H. pose proof (digits2_bounds p) as B.
  destruct (Z_le_gt_dec (Z.pos (digits2_pos p)) d) as [|G]; [assumption|].
  destruct (Z_lt_le_dec d 0) as [N|N]; [rewrite Z.pow_neg_r in H by lia; lia|].
  assert (2 ^ d <= 2 ^ (Z.pos (digits2_pos p) - 1)) by (apply Z.pow_le_mono_r; lia). lia.
Qed.

Lemma shr_1_m : forall mrs, 0 <= shr_m mrs -> shr_m (shr_1 mrs) = shr_m mrs / 2.
Proof.
  intros [m r s]. cbn [shr_m]. intros H. destruct m as [|p|p]; [reflexivity| |lia].
  destruct p as [p|p|]; cbn [shr_1 shr_m]; [|  |reflexivity].
  - rewrite (Pos2Z.inj_xI p). lia.
  - rewrite (Pos2Z.inj_xO p). lia.
Qed.

Lemma shr_m_iter : forall n mrs, 0 <= shr_m mrs -> shr_m (Nat.iter n shr_1 mrs) = shr_m mrs / 2 ^ Z.of_nat n.
Proof.
  induction n as [|n IH]; intros mrs H; [cbn; rewrite Z.div_1_r; reflexivity|].
  change (Nat.iter (S n) shr_1 mrs) with (shr_1 (Nat.iter n shr_1 mrs)).
  assert (P : 0 < 2 ^ Z.of_nat n) by (apply Z.pow_pos_nonneg; lia).
  rewrite shr_1_m; rewrite IH by exact H.
  - rewrite Nat2Z.inj_succ, Z.pow_succ_r by lia. rewrite Z.div_div by lia. f_equal. lia.
  - apply Z.div_pos; lia.
Qed.

(* Exact as long as zero bits are shifted out *)
Lemma shr_exact_iter : forall n m, 0 <= m ->
  Nat.iter n shr_1 (Build_shr_record (m * 2 ^ Z.of_nat n) false false) = Build_shr_record m false false.
Proof.
  induction n as [|n IH]; intros m H; [cbn; rewrite Z.mul_1_r; reflexivity|].
  change (Nat.iter (S n) shr_1 ?x) with (shr_1 (Nat.iter n shr_1 x)). cbn beta.
  replace (m * 2 ^ Z.of_nat (S n)) with ((2 * m) * 2 ^ Z.of_nat n) by (rewrite Nat2Z.inj_succ, Z.pow_succ_r by lia; lia).
  change (shr_1 (Nat.iter n shr_1 {| shr_m := 2 * m * 2 ^ Z.of_nat n; shr_r := false; shr_s := false |}) =
          Build_shr_record m false false).
  rewrite IH by lia. destruct m as [|p|p]; [reflexivity|reflexivity|lia].
Qed.

Definition shift_amount (prec emax mx ex : Z) : Z := Z.max 0 (fexp prec emax (Zdigits2 mx + ex) - ex).

Lemma shr_fexp_spec : forall prec emax m e l, 0 <= m ->
  let n := shift_amount prec emax m e in
  exists mrs, shr_fexp prec emax m e l = (mrs, e + n) /\ shr_m mrs = m / 2 ^ n /\
              (l = loc_Exact -> m mod 2 ^ n = 0 -> mrs = Build_shr_record (m / 2 ^ n) false false) /\
              (n = 0 -> mrs = shr_record_of_loc m l).
Proof.
  intros prec emax m e l H n. unfold shr_fexp.
  assert (R0 : shr_m (shr_record_of_loc m l) = m) by (destruct l as [|[]]; reflexivity).
  destruct (fexp prec emax (Zdigits2 m + e) - e) as [|p|p] eqn:E; subst n; unfold shift_amount; rewrite E; cbn [shr].
  - exists (shr_record_of_loc m l). change (Z.max 0 0) with 0. rewrite Z.add_0_r, Z.div_1_r, R0.
    repeat split. intros -> _. reflexivity.
  - rewrite Z.max_r by lia. exists (iter_pos shr_1 p (shr_record_of_loc m l)). rewrite iter_pos_nat.
    split; [reflexivity|]. rewrite shr_m_iter by lia. rewrite R0, positive_nat_Z. split; [reflexivity|].
    split; [|lia]. intros -> Hm. cbn [shr_record_of_loc].
    replace m with (m / 2 ^ Z.pos p * 2 ^ Z.of_nat (Pos.to_nat p)) at 1
      by (rewrite positive_nat_Z; pose proof (Z.div_mod m (2 ^ Z.pos p) ltac:(apply Z.pow_nonzero; lia)); lia).
    apply shr_exact_iter. apply Z.div_pos; [exact H|apply Z.pow_pos_nonneg; lia].
  - rewrite Z.max_l by lia. exists (shr_record_of_loc m l). rewrite Z.add_0_r, Z.div_1_r, R0.
    repeat split. intros -> _. reflexivity.
Qed.

Lemma digits_div : forall m n, 0 < m -> 0 <= n -> 0 < m / 2 ^ n -> Zdigits2 (m / 2 ^ n) = Zdigits2 m - n.
Proof.
  intros m n Hm Hn Hq. destruct (m / 2 ^ n) as [|q|] eqn:E; [lia| |lia]. destruct m as [|p|]; [lia| |lia].
  cbn [Zdigits2]. pose proof (digits2_bounds p) as B. set (d := Z.pos (digits2_pos p)) in *.
  assert (P : 0 < 2 ^ n) by (apply Z.pow_pos_nonneg; lia).
  assert (Hd : n < d).
  { destruct (Z_lt_le_dec n d); [assumption|]. assert (2 ^ d <= 2 ^ n) by (apply Z.pow_le_mono_r; lia).
    rewrite Z.div_small in E by lia. discriminate. }
  apply digits2_unique. rewrite <- E. split.
  - apply Z.div_le_lower_bound; [lia|]. rewrite <- Z.pow_add_r by lia. replace (n + (d - n - 1)) with (d - 1) by lia. lia.
  - apply Z.div_lt_upper_bound; [lia|]. rewrite <- Z.pow_add_r by lia. replace (n + (d - n)) with d by lia. lia.
Qed.

Lemma fexp_mono1 : forall prec emax d, fexp prec emax (d + 1) <= fexp prec emax d + 1.
Proof. intros. unfold fexp. lia. Qed.

Lemma digits_succ : forall m, 0 < m ->
  Zdigits2 (m + 1) = Zdigits2 m \/ (Zdigits2 (m + 1) = Zdigits2 m + 1 /\ m + 1 = 2 ^ Zdigits2 m).
Proof.
  intros m H. destruct m as [|p|]; [lia| |lia]. change (Z.pos p + 1) with (Z.pos (p + 1)).
  cbn [Zdigits2]. pose proof (digits2_bounds p) as B. remember (Z.pos (digits2_pos p)) as d eqn:Ed.
  destruct (Z.eq_dec (Z.pos (p + 1)) (2 ^ d)) as [Eq|Ne].
  - right. split; [|exact Eq]. apply digits2_unique. rewrite Eq. replace (d + 1 - 1) with d by lia.
    split; [lia|]. apply Z.pow_lt_mono_r; lia.
  - left. apply digits2_unique. lia.
Qed.

Lemma Zdigits2_pos : forall m, 0 < m -> 1 <= Zdigits2 m /\ 2 ^ (Zdigits2 m - 1) <= m < 2 ^ Zdigits2 m.
Proof. intros [|p|] H; try lia. cbn [Zdigits2]. split; [lia|apply digits2_bounds]. Qed.

(* The result of rounding mx * 2^ex (with the part below given by lx): the mantissa cut to the
   precision, or that plus one. *)
Lemma bra_spec : forall prec emax sx mx ex lx,
  0 < prec -> 0 < mx -> let n := shift_amount prec emax mx ex in
  0 < mx / 2 ^ n -> ex + n + 1 <= emax - prec ->
  exists m k, binary_round_aux prec emax sx mx ex lx = S754_finite sx m (ex + n + k) /\ (k = 0 \/ k = 1) /\
    (Z.pos m * 2 ^ k = mx / 2 ^ n \/ Z.pos m * 2 ^ k = mx / 2 ^ n + 1) /\
    (lx = loc_Exact -> mx mod 2 ^ n = 0 -> k = 0 /\ Z.pos m = mx / 2 ^ n) /\
    fexp prec emax (Z.pos (digits2_pos m) + (ex + n + k)) <= ex + n + k.
Proof.
  intros prec emax sx mx ex lx Hp Hm n Hq He. unfold binary_round_aux.
  destruct (shr_fexp_spec prec emax mx ex lx ltac:(lia)) as (mrs & E & Em & Ex & E0).
  fold n in E, Em, Ex, E0. rewrite E. clear E.
  set (m1 := round_nearest_even (shr_m mrs) (loc_of_shr_record mrs)).
  set (m0 := mx / 2 ^ n) in *.
  assert (H1 : m1 = m0 \/ m1 = m0 + 1).
  { subst m1. rewrite Em. unfold round_nearest_even.
    destruct (loc_of_shr_record mrs) as [|[]]; try tauto. destruct (Z.even m0); tauto. }
  assert (Hx : lx = loc_Exact -> mx mod 2 ^ n = 0 -> m1 = m0).
  { intros A B. subst m1. rewrite (Ex A B). reflexivity. }
  assert (Hn : 0 <= n) by (subst n; unfold shift_amount; lia).
  assert (Hd : Zdigits2 m0 = Zdigits2 mx - n) by (apply digits_div; lia).
  assert (Fle : fexp prec emax (Zdigits2 m0 + (ex + n)) <= ex + n).
  { rewrite Hd. replace (Zdigits2 mx - n + (ex + n)) with (Zdigits2 mx + ex) by lia.
    subst n. unfold shift_amount. lia. }
  destruct (shr_fexp_spec prec emax m1 (ex + n) loc_Exact ltac:(lia)) as (mrs2 & E2 & Em2 & Ex2 & E02).
  set (k := shift_amount prec emax m1 (ex + n)) in *.
  (* digits of m1 *)
  assert (D1 : Zdigits2 m1 = Zdigits2 m0 \/ (Zdigits2 m1 = Zdigits2 m0 + 1 /\ m1 = 2 ^ Zdigits2 m0)).
  { destruct H1 as [-> | ->]; [left; reflexivity|apply digits_succ; exact Hq]. }
  assert (Hd0 : 1 <= Zdigits2 m0) by (apply Zdigits2_pos; exact Hq).
  assert (K : k = 0 \/ (k = 1 /\ m1 mod 2 = 0 /\ m1 = m0 + 1)).
  { subst k. unfold shift_amount. destruct D1 as [-> | [-> P]].
    - left. lia.
    - pose proof (fexp_mono1 prec emax (Zdigits2 m0 + (ex + n))) as F.
      replace (Zdigits2 m0 + (ex + n) + 1) with (Zdigits2 m0 + 1 + (ex + n)) in F by lia.
      destruct (Z.eq_dec (fexp prec emax (Zdigits2 m0 + 1 + (ex + n)) - (ex + n)) 1) as [E1|N1]; [|left; lia].
      right. rewrite E1. split; [reflexivity|]. split.
      + rewrite P. replace (Zdigits2 m0) with (Z.succ (Zdigits2 m0 - 1)) by lia. rewrite Z.pow_succ_r by lia.
        rewrite Z.mul_comm. apply Z.mod_mul. lia.
      + destruct H1 as [H1|H1]; [|exact H1]. exfalso.
        pose proof (Zdigits2_pos m0 Hq). lia. }
  change (shr_fexp prec emax m1 (ex + n) loc_Exact) with (shr_fexp prec emax m1 (ex + n) loc_Exact) in E2.
  rewrite E2. rewrite Em2.
  destruct (m1 / 2 ^ k) as [|m|m] eqn:Q.
  - exfalso. destruct K as [->|(-> & _ & K1)]; [rewrite Z.div_1_r in Q; lia|].
    change (2 ^ 1) with 2 in Q. assert (1 <= m0) by lia. lia.
  - replace (Z.leb (ex + n + k) (emax - prec)) with true by lia.
    exists m, k. split; [reflexivity|]. split; [lia|].
    assert (V : Z.pos m * 2 ^ k = m1).
    { rewrite <- Q. destruct K as [->|(-> & Hm2 & _)].
      - change (2 ^ 0) with 1. rewrite Z.div_1_r. lia.
      - change (2 ^ 1) with 2. lia. }
    split; [rewrite V; lia|].
    split.
    + intros A B. specialize (Hx A B). destruct K as [K0|(_ & _ & K1)]; [|lia]. split; [exact K0|].
      rewrite K0 in V. change (2 ^ 0) with 1 in V. lia.
    + pose proof (digits_div m1 k ltac:(lia) ltac:(lia) ltac:(lia)) as Dk. rewrite Q in Dk. cbn [Zdigits2] in Dk.
      rewrite Dk. replace (Zdigits2 m1 - k + (ex + n + k)) with (Zdigits2 m1 + (ex + n)) by lia.
      subst k. unfold shift_amount. lia.
  - exfalso. assert (0 <= m1 / 2 ^ k) by (apply Z.div_pos; [lia|apply Z.pow_pos_nonneg; lia]). lia.
Qed.

(* binary64: the value of f is exactly v / 2^K *)
Definition exact (f : spec_float) (K v : Z) : Prop :=
  exists m e, f = S754_finite false m e /\ Z.pos m < 2 ^ 53 /\ -1000 <= e /\
              Z.pos m * 2 ^ (e + 1000) = v * 2 ^ (1000 - K).

Lemma pow2_pos : forall k, 0 <= k -> 0 < 2 ^ k.
Proof. intros k H. apply Z.pow_pos_nonneg; lia. Qed.

Lemma exact_trunc : forall f K v, exact f K v -> 0 <= K <= 1000 -> sf_trunc f = Ok (v / 2 ^ K).
Proof.
  intros f K v (m & e & -> & Hm & He & V) HK. cbn [sf_trunc]. f_equal.
  assert (PK : 0 < 2 ^ K) by (apply pow2_pos; lia).
  destruct (0 <=? e) eqn:S.
  - apply Z.div_unique_exact; [lia|].
    apply (Z.mul_cancel_r _ _ (2 ^ (1000 - K))); [pose proof (pow2_pos (1000 - K)); lia|].
    rewrite <- V. replace (e + 1000) with (K + e + (1000 - K)) by lia. rewrite !Z.pow_add_r by lia. lia.
  - assert (Pe : 0 < 2 ^ (- e)) by (apply pow2_pos; lia).
    assert (Q : Z.pos m * 2 ^ K = v * 2 ^ (- e)).
    { assert (QA : 2 ^ (e + 1000) * 2 ^ (- e) = 2 ^ 1000) by (rewrite <- Z.pow_add_r by lia; f_equal; lia).
      assert (QB : 2 ^ (1000 - K) * 2 ^ K = 2 ^ 1000) by (rewrite <- Z.pow_add_r by lia; f_equal; lia).
      pose proof (pow2_pos (e + 1000) ltac:(lia)) as PA. pose proof (pow2_pos (1000 - K) ltac:(lia)) as PB.
      clear - V QA QB PA PB. generalize dependent (2 ^ (e + 1000)). generalize dependent (2 ^ (1000 - K)).
      generalize (2 ^ K) (2 ^ (- e)) (2 ^ 1000) (Z.pos m). intros C D T M B QB PB A V QA PA.
      apply (Z.mul_cancel_r _ _ (A * B)); [nia|].
      replace (M * C * (A * B)) with (M * A * (B * C)) by ring. rewrite V, QB, <- QA. ring. }
    rewrite <- (Z.div_mul_cancel_r (Z.pos m) (2 ^ (- e)) (2 ^ K)) by lia.
    rewrite Q. rewrite (Z.mul_comm (2 ^ (- e))). apply Z.div_mul_cancel_r; lia.
Qed.

(* Rounding an integer multiple of 2^ex *)
Lemma shift_normal : forall mx ex, 0 < mx -> -1000 <= ex -> 2 ^ 53 <= mx ->
  shift_amount 53 1024 mx ex = Zdigits2 mx - 53.
Proof.
  intros mx ex H He Hm. unfold shift_amount, fexp, emin.
  pose proof (Zdigits2_pos mx H) as [D1 D2].
  assert (53 < Zdigits2 mx).
  { destruct (Z_lt_le_dec 53 (Zdigits2 mx)); [assumption|].
    assert (2 ^ Zdigits2 mx <= 2 ^ 53) by (apply Z.pow_le_mono_r; lia). lia. }
  lia.
Qed.

Lemma shift_exact : forall p d, 1 <= d <= 53 -> 2 ^ (d - 1) <= Z.pos p < 2 ^ d ->
  2 ^ 52 <= Z.pos p * 2 ^ (53 - d) < 2 ^ 53.
Proof.
  intros p d H B. pose proof (pow2_pos (53 - d)).
  replace 52 with ((d - 1) + (53 - d)) by lia. rewrite Z.pow_add_r by lia.
  replace (2 ^ 53) with (2 ^ d * 2 ^ (53 - d)) by (rewrite <- Z.pow_add_r by lia; f_equal; lia).
  split; [apply Z.mul_le_mono_nonneg_r; lia|apply Z.mul_lt_mono_pos_r; lia].
Qed.

Lemma round_spec : forall mx ex t, 0 < mx -> -900 <= ex <= 500 -> 0 <= t <= 300 -> mx < 2 ^ (53 + t) ->
  exists m e v, binary_round 53 1024 false (Z.to_pos mx) ex = S754_finite false m e /\ Z.pos m < 2 ^ 53 /\
    -1000 <= e /\ Z.pos m * 2 ^ (e + 1000) = v * 2 ^ (ex + 1000) /\ Z.abs (v - mx) < 2 ^ t /\
    (forall n u, 0 <= n -> mx = u * 2 ^ n -> u < 2 ^ 53 -> v = mx) /\
    (forall n, 0 <= n -> 2 ^ (53 + n) <= mx -> exists u, v = u * 2 ^ n).
Proof.
  intros mx ex t H He Ht Hb. destruct mx as [|p|]; [lia| |lia]. cbn [Z.to_pos].
  unfold binary_round, shl_align.
  pose proof (digits2_bounds p) as B. remember (Z.pos (digits2_pos p)) as d eqn:Ed.
  assert (Hd : d <= 53 + t) by (subst d; apply digits2_le; exact Hb).
  assert (Hd1 : 1 <= d) by lia.
  assert (F : fexp 53 1024 (d + ex) = d + ex - 53) by (unfold fexp, emin; lia).
  rewrite F. destruct (Z_lt_le_dec d 53) as [Small|Big].
  - replace (d + ex - 53 - ex) with (Z.neg (Z.to_pos (53 - d))) by lia.
    set (q := Z.to_pos (53 - d)). assert (Hq : Z.pos q = 53 - d) by (subst q; lia).
    assert (Sh : Z.pos (shift_pos q p) = Z.pos p * 2 ^ (53 - d)).
    { rewrite shift_pos_correct. change (Z.pow_pos 2 q) with (2 ^ Z.pos q). rewrite Hq. lia. }
    pose proof (shift_exact p d ltac:(lia) B) as R. rewrite <- Sh in R.
    assert (D : Z.pos (digits2_pos (shift_pos q p)) = 53) by (apply digits2_unique; exact R).
    destruct (bra_spec 53 1024 false (Z.pos (shift_pos q p)) (d + ex - 53) loc_Exact) as (m & k & E & Hk & _ & Hx & _).
    + lia.
    + lia.
    + unfold shift_amount. cbn [Zdigits2]. rewrite D. unfold fexp, emin.
      rewrite Z.max_l by lia. rewrite Z.div_1_r. lia.
    + unfold shift_amount. cbn [Zdigits2]. rewrite D. unfold fexp, emin. lia.
    + assert (N0 : shift_amount 53 1024 (Z.pos (shift_pos q p)) (d + ex - 53) = 0)
        by (unfold shift_amount; cbn [Zdigits2]; rewrite D; unfold fexp, emin; lia).
      rewrite N0 in *. change (2 ^ 0) with 1 in Hx. rewrite Z.div_1_r in Hx.
      destruct (Hx eq_refl (Z.mod_1_r _)) as [-> Em].
      exists m, (d + ex - 53), (Z.pos p). split; [rewrite E; f_equal; lia|]. rewrite Em. split; [apply R|].
      split; [lia|]. split.
      * rewrite Sh. rewrite <- Z.mul_assoc, <- Z.pow_add_r by lia. f_equal. f_equal. lia.
      * split; [rewrite Z.sub_diag; apply pow2_pos; lia|]. split; [reflexivity|].
        intros n Hn Hp. exfalso. assert (2 ^ d <= 2 ^ (53 + n)) by (apply Z.pow_le_mono_r; lia). lia.
  - assert (A : match d + ex - 53 - ex with Z.neg q => (shift_pos q p, d + ex - 53) | _ => (p, ex) end = (p, ex)).
    { destruct (d + ex - 53 - ex) eqn:Q; [reflexivity|reflexivity|lia]. }
    rewrite A. clear A.
    assert (N0 : shift_amount 53 1024 (Z.pos p) ex = d - 53)
      by (unfold shift_amount; cbn [Zdigits2]; rewrite <- Ed; unfold fexp, emin; lia).
    assert (P : 0 < 2 ^ (d - 53)) by (apply pow2_pos; lia).
    assert (M0 : 2 ^ 52 <= Z.pos p / 2 ^ (d - 53) < 2 ^ 53).
    { split; [apply Z.div_le_lower_bound; [lia|]|apply Z.div_lt_upper_bound; [lia|]]; rewrite <- Z.pow_add_r by lia.
      - replace (d - 53 + 52) with (d - 1) by lia. lia.
      - replace (d - 53 + 53) with d by lia. lia. }
    destruct (bra_spec 53 1024 false (Z.pos p) ex loc_Exact) as (m & k & E & Hk & Hv & Hx & Hc); rewrite ?N0 in *;
      [lia|lia|lia|lia|].
    exists m, (ex + (d - 53) + k), (Z.pos m * 2 ^ k * 2 ^ (d - 53)).
    split; [exact E|]. split.
    { pose proof (digits2_bounds m) as Bm. unfold fexp, emin in Hc.
      assert (2 ^ Z.pos (digits2_pos m) <= 2 ^ 53) by (apply Z.pow_le_mono_r; lia). lia. }
    split; [lia|]. split.
    { rewrite <- !Z.mul_assoc, <- !Z.pow_add_r by lia. f_equal. f_equal. lia. }
    pose proof (Z.div_mod (Z.pos p) (2 ^ (d - 53)) ltac:(lia)) as DM.
    pose proof (Z.mod_pos_bound (Z.pos p) (2 ^ (d - 53)) P) as MB.
    assert (T : 2 ^ (d - 53) <= 2 ^ t) by (apply Z.pow_le_mono_r; lia).
    split.
    + destruct (Z.eq_dec (Z.pos p mod 2 ^ (d - 53)) 0) as [Z0|NZ].
      * destruct (Hx eq_refl Z0) as [-> Em]. rewrite Em. change (2 ^ 0) with 1. rewrite Z.mul_1_r.
        replace (Z.pos p / 2 ^ (d - 53) * 2 ^ (d - 53) - Z.pos p) with 0 by lia. cbn [Z.abs]. lia.
      * destruct Hv as [Hv|Hv]; rewrite Hv; nia.
    + split; [|intros n Hn Hp; exists (Z.pos m * 2 ^ k * 2 ^ (d - 53 - n));
                 rewrite <- !Z.mul_assoc, <- !Z.pow_add_r; try lia;
                 [f_equal; f_equal; lia|];
                 assert (2 ^ (53 + n) < 2 ^ d) as Lt by lia; apply Z.pow_lt_mono_r_iff in Lt; lia].
      intros n u Hn Eu Hu.
      assert (Hn' : d - 53 <= n).
      { destruct (Z_le_gt_dec (d - 53) n); [assumption|].
        assert (2 ^ (n + 53) <= 2 ^ (d - 1)) by (apply Z.pow_le_mono_r; lia).
        rewrite Z.pow_add_r in H0 by lia. pose proof (pow2_pos n Hn). nia. }
      assert (Z0 : Z.pos p mod 2 ^ (d - 53) = 0).
      { rewrite Eu. replace n with ((n - (d - 53)) + (d - 53)) by lia. rewrite Z.pow_add_r by lia.
        rewrite Z.mul_assoc. apply Z.mod_mul. lia. }
      destruct (Hx eq_refl Z0) as [-> Em]. rewrite Em. change (2 ^ 0) with 1. lia.
Qed.

Lemma pow2_cancel : forall a b k, 0 <= k -> a * 2 ^ k = b * 2 ^ k -> a = b.
Proof. intros a b k H E. apply (Z.mul_cancel_r a b (2 ^ k)); [pose proof (pow2_pos k H); lia|exact E]. Qed.

Lemma round_exact : forall mx ex K v, 0 < mx -> -900 <= ex <= 500 -> mx < 2 ^ 353 -> 0 <= K <= 900 ->
  mx * 2 ^ (ex + 1000) = v * 2 ^ (1000 - K) -> 0 < v < 2 ^ 53 ->
  exact (binary_round 53 1024 false (Z.to_pos mx) ex) K v.
Proof.
  intros mx ex K v H He Hb HK V Hv.
  destruct (round_spec mx ex 300 H He ltac:(lia) Hb) as (m & e & w & E & Hm & Hl & Vw & _ & Hx & _).
  assert (W : w = mx).
  { destruct (Z_le_gt_dec (- K) ex) as [L|G].
    - apply (Hx 0 mx); [lia|cbn; lia|].
      assert (v = mx * 2 ^ (ex + K)).
      { apply (pow2_cancel _ _ (1000 - K)); [lia|]. rewrite <- V, <- Z.mul_assoc, <- Z.pow_add_r by lia. f_equal. f_equal. lia. }
      pose proof (pow2_pos (ex + K) ltac:(lia)). nia.
    - apply (Hx (- K - ex) v); [lia| |apply Hv].
      apply (pow2_cancel _ _ (ex + 1000)); [lia|]. rewrite V, <- Z.mul_assoc, <- Z.pow_add_r by lia. f_equal. f_equal. lia. }
  exists m, e. split; [exact E|]. split; [exact Hm|]. split; [exact Hl|]. rewrite Vw, W. exact V.
Qed.

Lemma exact_of_Z : forall z, 0 < z < 2 ^ 53 -> exact (f64_of_Z z) 0 z.
Proof.
  intros z H. unfold f64_of_Z, binary_normalize. destruct z as [|p|]; [lia| |lia].
  apply (round_exact (Z.pos p) 0 0 (Z.pos p)); [lia|lia| |lia|reflexivity|exact H].
  apply Z.lt_trans with (2 ^ 53); [apply H|]. apply Z.pow_lt_mono_r; lia.
Qed.

Lemma exact_scale : forall f K v j, exact f K v -> 0 <= j -> K + j <= 1000 -> exact f (K + j) (v * 2 ^ j).
Proof.
  intros f K v j (m & e & E & Hm & Hl & V) Hj HK. exists m, e. repeat split; try assumption.
  rewrite V, <- Z.mul_assoc, <- Z.pow_add_r by lia. f_equal. f_equal. lia.
Qed.

(* Exponent range of a value between 2^-100 and 2^100 *)
Lemma exact_exponent : forall f K v m e, f = S754_finite false m e -> Z.pos m < 2 ^ 53 -> -1000 <= e ->
  Z.pos m * 2 ^ (e + 1000) = v * 2 ^ (1000 - K) -> 0 <= K <= 100 -> 0 < v < 2 ^ 100 -> -153 <= e <= 100.
Proof.
  intros f K v m e _ Hm Hl V HK Hv. split.
  - destruct (Z_lt_le_dec e (-153)) as [L|]; [|assumption]. exfalso.
    assert (A : 2 ^ (e + 1000) * 2 ^ 53 <= 2 ^ (1000 - K)).
    { rewrite <- Z.pow_add_r by lia. apply Z.pow_le_mono_r; lia. }
    pose proof (pow2_pos (e + 1000) ltac:(lia)). pose proof (pow2_pos (1000 - K) ltac:(lia)).
    assert (Z.pos m * 2 ^ (e + 1000) < 2 ^ 53 * 2 ^ (e + 1000)) by (apply Z.mul_lt_mono_pos_r; lia).
    nia.
  - destruct (Z_lt_le_dec 100 e) as [L|]; [|assumption]. exfalso.
    assert (A : 2 ^ 100 * 2 ^ (1000 - K) <= 2 ^ (e + 1000)).
    { rewrite <- Z.pow_add_r by lia. apply Z.pow_le_mono_r; lia. }
    pose proof (pow2_pos (e + 1000) ltac:(lia)). pose proof (pow2_pos (1000 - K) ltac:(lia)).
    assert (v * 2 ^ (1000 - K) < 2 ^ 100 * 2 ^ (1000 - K)) by (apply Z.mul_lt_mono_pos_r; lia).
    nia.
Qed.

Lemma shl_align_min : forall m e ez, ez <= e -> Z.pos (fst (shl_align m e ez)) = Z.pos m * 2 ^ (e - ez).
Proof.
  intros m e ez H. unfold shl_align. destruct (ez - e) as [|q|q] eqn:E; cbn [fst]; try lia.
  - replace (e - ez) with 0 by lia. cbn. lia.
  - rewrite shift_pos_correct. change (Z.pow_pos 2 q) with (2 ^ Z.pos q). replace (e - ez) with (Z.pos q) by lia. lia.
Qed.

(* Subtraction of two exact values *)
Lemma exact_sub : forall x y K X Y t, exact x K X -> exact y K Y -> 0 <= K <= 100 -> 0 < Y < X -> X < 2 ^ 100 ->
  0 <= t <= 47 -> X - Y < 2 ^ (53 + t) ->
  exists v, exact (f64_sub x y) K v /\ Z.abs (v - (X - Y)) < 2 ^ t.
Proof.
  intros x y K X Y t (m1 & e1 & -> & Hm1 & Hl1 & V1) (m2 & e2 & -> & Hm2 & Hl2 & V2) HK HY HX Ht HD.
  assert (E1 := exact_exponent _ K X m1 e1 eq_refl Hm1 Hl1 V1 HK ltac:(lia)).
  assert (E2 := exact_exponent _ K Y m2 e2 eq_refl Hm2 Hl2 V2 HK ltac:(lia)).
  cbn [f64_sub SFsub]. unfold f64_sub. cbn [SFsub cond_Zopp].
  set (ez := Z.min e1 e2).
  assert (S1 : Z.pos (fst (shl_align m1 e1 ez)) * 2 ^ (ez + 1000) = X * 2 ^ (1000 - K)).
  { rewrite shl_align_min by lia. rewrite <- V1, <- Z.mul_assoc, <- Z.pow_add_r by lia. f_equal. f_equal. lia. }
  assert (S2 : Z.pos (fst (shl_align m2 e2 ez)) * 2 ^ (ez + 1000) = Y * 2 ^ (1000 - K)).
  { rewrite shl_align_min by lia. rewrite <- V2, <- Z.mul_assoc, <- Z.pow_add_r by lia. f_equal. f_equal. lia. }
  assert (B1 : Z.pos (fst (shl_align m1 e1 ez)) < 2 ^ 306).
  { rewrite shl_align_min by lia. assert (2 ^ (e1 - ez) <= 2 ^ 253) by (apply Z.pow_le_mono_r; lia).
    change (2 ^ 306) with (2 ^ 53 * 2 ^ 253). pose proof (pow2_pos (e1 - ez) ltac:(lia)).
    apply Z.lt_le_trans with (2 ^ 53 * 2 ^ (e1 - ez)); [apply Z.mul_lt_mono_pos_r; lia|apply Z.mul_le_mono_nonneg_l; lia]. }
  set (D := Z.pos (fst (shl_align m1 e1 ez)) - Z.pos (fst (shl_align m2 e2 ez))).
  assert (VD : D * 2 ^ (ez + 1000) = (X - Y) * 2 ^ (1000 - K)) by (unfold D; rewrite !Z.mul_sub_distr_r, S1, S2; reflexivity).
  assert (PD : 0 < D).
  { pose proof (pow2_pos (ez + 1000) ltac:(lia)). pose proof (pow2_pos (1000 - K) ltac:(lia)). nia. }
  change (exists v, exact (binary_normalize 53 1024 D ez false) K v /\ Z.abs (v - (X - Y)) < 2 ^ t).
  clearbody D. clear S1 S2 B1 V1 V2.
  replace (binary_normalize 53 1024 D ez false) with (binary_round 53 1024 false (Z.to_pos D) ez)
    by (destruct D; [lia|reflexivity|lia]).
  destruct (Z_le_gt_dec (- K) ez) as [L|G].
  - pose (s := Z.max 0 (t - (ez + K))).
    assert (DX : X - Y = D * 2 ^ (ez + K)).
    { apply (pow2_cancel _ _ (1000 - K)); [lia|]. rewrite <- VD, <- Z.mul_assoc, <- Z.pow_add_r by lia. f_equal. f_equal. lia. }
    pose proof (pow2_pos (ez + K) ltac:(lia)) as PE.
    destruct (round_spec D ez s PD ltac:(lia) ltac:(lia)) as (m & e & w & E & Hm & Hl & Vw & Ha & _ & _).
    { apply (Z.mul_lt_mono_pos_r (2 ^ (ez + K))); [exact PE|]. rewrite <- DX, <- Z.pow_add_r by lia.
      apply Z.lt_le_trans with (2 ^ (53 + t)); [exact HD|]. apply Z.pow_le_mono_r; lia. }
    exists (w * 2 ^ (ez + K)). split.
    + exists m, e. split; [exact E|]. split; [exact Hm|]. split; [exact Hl|]. rewrite Vw, <- Z.mul_assoc, <- Z.pow_add_r by lia.
      f_equal. f_equal. lia.
    + rewrite DX, <- Z.mul_sub_distr_r, Z.abs_mul, (Z.abs_eq (2 ^ (ez + K))) by lia.
      destruct (Z_le_gt_dec 0 (t - (ez + K))) as [Ls|Gs].
      * replace (2 ^ t) with (2 ^ s * 2 ^ (ez + K)); [apply Z.mul_lt_mono_pos_r; assumption|].
        rewrite <- Z.pow_add_r by lia. f_equal. lia.
      * replace s with 0 in Ha by lia. change (2 ^ 0) with 1 in Ha. replace (Z.abs (w - D)) with 0 by lia.
        pose proof (pow2_pos t ltac:(lia)). lia.
  - pose (j := - K - ez).
    assert (DX : D = (X - Y) * 2 ^ j).
    { apply (pow2_cancel _ _ (ez + 1000)); [lia|]. rewrite VD, <- Z.mul_assoc, <- Z.pow_add_r by lia. f_equal. f_equal. lia. }
    pose proof (pow2_pos j ltac:(lia)) as PJ.
    destruct (round_spec D ez (t + j) PD ltac:(lia) ltac:(lia)) as (m & e & w & E & Hm & Hl & Vw & Ha & Hx & Hg).
    { rewrite DX. replace (53 + (t + j)) with (53 + t + j) by lia. rewrite (Z.pow_add_r 2 (53 + t) j) by lia.
      apply Z.mul_lt_mono_pos_r; [exact PJ|exact HD]. }
    assert (Ex : exists u, w = u * 2 ^ j /\ Z.abs (u - (X - Y)) < 2 ^ t).
    { destruct (Z_lt_le_dec (X - Y) (2 ^ 53)) as [Sm|Bg].
      - exists (X - Y). rewrite (Hx j (X - Y) ltac:(lia) DX Sm). split; [exact DX|]. rewrite Z.sub_diag. apply pow2_pos. lia.
      - destruct (Hg j ltac:(lia)) as (u & Eu).
        { rewrite DX, Z.pow_add_r by lia. apply Z.mul_le_mono_nonneg_r; lia. }
        exists u. split; [exact Eu|]. apply (Z.mul_lt_mono_pos_r (2 ^ j)); [exact PJ|].
        rewrite <- (Z.abs_eq (2 ^ j)) at 1 by lia. rewrite <- Z.abs_mul, Z.mul_sub_distr_r, <- Eu, <- DX.
        rewrite <- Z.pow_add_r by lia. exact Ha. }
    destruct Ex as (u & Eu & Hu). exists u. split; [|exact Hu].
    exists m, e. split; [exact E|]. split; [exact Hm|]. split; [exact Hl|].
    rewrite Vw, Eu, <- Z.mul_assoc, <- Z.pow_add_r by lia. f_equal. f_equal. lia.
Qed.

Lemma exact_sub0 : forall x y K X Y, exact x K X -> exact y K Y -> 0 <= K <= 100 -> 0 < Y < X -> X < 2 ^ 100 ->
  X - Y < 2 ^ 53 -> exact (f64_sub x y) K (X - Y).
Proof.
  intros x y K X Y Hx Hy HK H1 H2 H3.
  destruct (exact_sub x y K X Y 0 Hx Hy HK H1 H2 ltac:(lia) H3) as (v & E & A).
  change (2 ^ 0) with 1 in A. replace (X - Y) with v by lia. exact E.
Qed.

Lemma aux_exact : forall mx ex K v, 0 < mx -> -900 <= ex <= 500 -> mx < 2 ^ 353 -> 0 <= K <= 900 ->
  mx * 2 ^ (ex + 1000) = v * 2 ^ (1000 - K) -> 0 < v < 2 ^ 53 ->
  exact (binary_round_aux 53 1024 false mx ex loc_Exact) K v.
Proof.
  intros mx ex K v H He Hb HK V Hv.
  pose proof (Zdigits2_pos mx H) as [D1 D2]. remember (Zdigits2 mx) as d eqn:Ed.
  assert (Hd : d <= 353).
  { destruct (Z_le_gt_dec d 353); [assumption|]. assert (2 ^ 353 <= 2 ^ (d - 1)) by (apply Z.pow_le_mono_r; lia). lia. }
  assert (N0 : shift_amount 53 1024 mx ex = Z.max 0 (d - 53)) by (unfold shift_amount, fexp, emin; lia).
  set (n := Z.max 0 (d - 53)) in *.
  assert (P : 0 < 2 ^ n) by (apply pow2_pos; lia).
  assert (Dv : mx mod 2 ^ n = 0 /\ mx / 2 ^ n < 2 ^ 53 /\ 0 < mx / 2 ^ n).
  { destruct (Z_le_gt_dec d 53) as [L|G].
    - replace n with 0 by lia. change (2 ^ 0) with 1. rewrite Z.div_1_r. split; [apply Z.mod_1_r|]. split; [|lia].
      assert (2 ^ d <= 2 ^ 53) by (apply Z.pow_le_mono_r; lia). lia.
    - assert (Dm : mx mod 2 ^ n = 0).
      { destruct (Z_le_gt_dec (- K) ex) as [L|G'].
        - exfalso. assert (v = mx * 2 ^ (ex + K)).
          { apply (pow2_cancel _ _ (1000 - K)); [lia|]. rewrite <- V, <- Z.mul_assoc, <- Z.pow_add_r by lia. f_equal. f_equal. lia. }
          assert (2 ^ 53 <= 2 ^ (d - 1)) by (apply Z.pow_le_mono_r; lia).
          pose proof (pow2_pos (ex + K) ltac:(lia)). nia.
        - assert (E : mx = v * 2 ^ (- K - ex)).
          { apply (pow2_cancel _ _ (ex + 1000)); [lia|]. rewrite V, <- Z.mul_assoc, <- Z.pow_add_r by lia. f_equal. f_equal. lia. }
          assert (Hn : n <= - K - ex).
          { destruct (Z_le_gt_dec n (- K - ex)); [assumption|].
            assert (A : 2 ^ (53 + (- K - ex)) <= 2 ^ (d - 1)) by (apply Z.pow_le_mono_r; lia).
            rewrite Z.pow_add_r in A by lia. pose proof (pow2_pos (- K - ex) ltac:(lia)). nia. }
          rewrite E. replace (- K - ex) with ((- K - ex - n) + n) by lia. rewrite Z.pow_add_r by lia.
          rewrite Z.mul_assoc. apply Z.mod_mul. lia. }
      split; [exact Dm|]. split.
      + apply Z.div_lt_upper_bound; [lia|]. rewrite <- Z.pow_add_r by lia. replace (n + 53) with d by lia. lia.
      + apply Z.lt_le_trans with (2 ^ 52); [reflexivity|]. apply Z.div_le_lower_bound; [lia|].
        rewrite <- Z.pow_add_r by lia. replace (n + 52) with (d - 1) by lia. lia. }
  destruct Dv as (Dm & Du & Dp).
  destruct (bra_spec 53 1024 false mx ex loc_Exact) as (m & k & E & Hk & _ & Hx & _); rewrite ?N0 in *; [lia|lia|lia|lia|].
  destruct (Hx eq_refl Dm) as [-> Em].
  exists m, (ex + n). split; [rewrite E; f_equal; lia|]. rewrite Em. split; [exact Du|]. split; [lia|].
  rewrite <- V. replace (ex + n + 1000) with (n + (ex + 1000)) by lia. rewrite Z.pow_add_r, Z.mul_assoc by lia. f_equal.
  pose proof (Z.div_mod mx (2 ^ n) ltac:(lia)). lia.
Qed.

Lemma exact_mul : forall x y K L X Y, exact x K X -> exact y L Y -> 0 <= K <= 100 -> 0 <= L <= 100 ->
  0 < X < 2 ^ 100 -> 0 < Y < 2 ^ 100 -> X * Y < 2 ^ 53 -> exact (f64_mul x y) (K + L) (X * Y).
Proof.
  intros x y K L X Y (m1 & e1 & -> & Hm1 & Hl1 & V1) (m2 & e2 & -> & Hm2 & Hl2 & V2) HK HL HX HY HD.
  assert (E1 := exact_exponent _ K X m1 e1 eq_refl Hm1 Hl1 V1 HK ltac:(lia)).
  assert (E2 := exact_exponent _ L Y m2 e2 eq_refl Hm2 Hl2 V2 HL ltac:(lia)).
  unfold f64_mul. cbn [SFmul xorb].
  assert (V : Z.pos (m1 * m2) * 2 ^ (e1 + e2 + 1000) = X * Y * 2 ^ (1000 - (K + L))).
  { rewrite Pos2Z.inj_mul.
    assert (P : 2 ^ (e1 + e2 + 1000) * 2 ^ 1000 = 2 ^ (e1 + 1000) * 2 ^ (e2 + 1000))
      by (rewrite <- !Z.pow_add_r by lia; f_equal; lia).
    assert (Q : 2 ^ (1000 - (K + L)) * 2 ^ 1000 = 2 ^ (1000 - K) * 2 ^ (1000 - L))
      by (rewrite <- !Z.pow_add_r by lia; f_equal; lia).
    apply (pow2_cancel _ _ 1000); [lia|]. rewrite <- !Z.mul_assoc, P, Q.
    clear P Q. generalize dependent (2 ^ (e1 + 1000)). generalize dependent (2 ^ (e2 + 1000)).
    generalize (2 ^ (1000 - K)) (2 ^ (1000 - L)). intros a b c V2 d V1.
    replace (Z.pos m1 * (Z.pos m2 * (d * c))) with ((Z.pos m1 * d) * (Z.pos m2 * c)) by ring. rewrite V1, V2. ring. }
  change (exact (binary_round_aux 53 1024 false (Z.pos (m1 * m2)) (e1 + e2) loc_Exact) (K + L) (X * Y)).
  apply aux_exact; [lia|lia| |lia|exact V|nia].
  rewrite Pos2Z.inj_mul. apply Z.lt_le_trans with (2 ^ 53 * 2 ^ 53); [nia|]. rewrite <- Z.pow_add_r by lia.
  apply Z.pow_le_mono_r; lia.
Qed.

(* A quotient's truncation, when the exact quotient is at least N and not too close below N+1 *)
Lemma div_trunc : forall x y K L X Y N, exact x K X -> exact y L Y -> 0 <= K <= 100 -> 0 <= L <= 100 ->
  0 < X < 2 ^ 100 -> 0 < Y < 2 ^ 100 -> 0 <= N < 2 ^ 49 ->
  N * (Y * 2 ^ K) <= X * 2 ^ L -> X * 2 ^ L * (2 ^ 52 + 1) < (N + 1) * (Y * 2 ^ K) * 2 ^ 52 ->
  sf_trunc (f64_div x y) = Ok N.
Proof.
  intros x y K L X Y N (m1 & e1 & -> & Hm1 & Hl1 & V1) (m2 & e2 & -> & Hm2 & Hl2 & V2) HK HL HX HY HN Lo Hi.
  assert (E1 := exact_exponent _ K X m1 e1 eq_refl Hm1 Hl1 V1 HK ltac:(lia)).
  assert (E2 := exact_exponent _ L Y m2 e2 eq_refl Hm2 Hl2 V2 HL ltac:(lia)).
  unfold f64_div. cbn [SFdiv xorb].
  pose proof (Zdigits2_pos (Z.pos m1) ltac:(lia)) as [A1 A2].
  pose proof (Zdigits2_pos (Z.pos m2) ltac:(lia)) as [B1 B2].
  unfold SFdiv_core_binary. cbv zeta.
  set (d1 := Zdigits2 (Z.pos m1)) in *. set (d2 := Zdigits2 (Z.pos m2)) in *.
  assert (P1 : 1 <= d1 <= 53).
  { split; [unfold d1; cbn; lia|]. destruct (Z_le_gt_dec d1 53); [assumption|].
    assert (2 ^ 53 <= 2 ^ (d1 - 1)) by (apply Z.pow_le_mono_r; lia). lia. }
  assert (P2 : 1 <= d2 <= 53).
  { split; [unfold d2; cbn; lia|]. destruct (Z_le_gt_dec d2 53); [assumption|].
    assert (2 ^ 53 <= 2 ^ (d2 - 1)) by (apply Z.pow_le_mono_r; lia). lia. }
  clearbody d1 d2.
  set (s := 53 - (d1 - d2)).
  assert (Es : Z.min (fexp 53 1024 (d1 + e1 - (d2 + e2))) (e1 - e2) = e1 - e2 - Z.max 0 s)
    by (unfold fexp, emin; lia).
  rewrite Es. clear Es. replace (e1 - e2 - (e1 - e2 - Z.max 0 s)) with (Z.max 0 s) by lia.
  assert (S1 : 1 <= s <= 105) by lia. rewrite Z.max_r by lia.
  replace (match s with 0 => Z.pos m1 | Z.pos _ => Z.shiftl (Z.pos m1) s | Z.neg _ => 0 end)
    with (Z.pos m1 * 2 ^ s) by (rewrite <- Z.shiftl_mul_pow2 by lia; destruct s; lia).
  rewrite (surjective_pairing (Z.div_eucl (Z.pos m1 * 2 ^ s) (Z.pos m2))).
  change (fst (Z.div_eucl (Z.pos m1 * 2 ^ s) (Z.pos m2))) with (Z.pos m1 * 2 ^ s / Z.pos m2).
  set (q := Z.pos m1 * 2 ^ s / Z.pos m2).
  set (lz := new_location _ _). clearbody lz.
  assert (Hq : 2 ^ 52 <= q < 2 ^ 160).
  { split.
    - unfold q. apply Z.div_le_lower_bound; [lia|].
      apply Z.le_trans with (2 ^ (d1 - 1) * 2 ^ s); [|apply Z.mul_le_mono_nonneg_r; [apply Z.lt_le_incl, pow2_pos; lia|lia]].
      rewrite <- Z.pow_add_r by lia. replace (d1 - 1 + s) with (d2 + 52) by lia. rewrite Z.pow_add_r by lia.
      pose proof (pow2_pos 52 ltac:(lia)). nia.
    - unfold q. apply Z.div_lt_upper_bound; [lia|].
      assert (2 ^ s <= 2 ^ 105) by (apply Z.pow_le_mono_r; lia).
      apply Z.lt_le_trans with (2 ^ 53 * 2 ^ 105); [pose proof (pow2_pos s ltac:(lia)); nia|].
      assert (2 ^ 53 * 2 ^ 105 <= 2 ^ 160) by (vm_compute; discriminate). nia. }
  pose proof (Zdigits2_pos q ltac:(lia)) as [Q1 Q2]. set (d := Zdigits2 q) in *.
  assert (Hd : 53 <= d <= 160).
  { split.
    - destruct (Z_le_gt_dec 53 d); [assumption|]. assert (2 ^ d <= 2 ^ 52) by (apply Z.pow_le_mono_r; lia). lia.
    - destruct (Z_le_gt_dec d 160); [assumption|]. assert (2 ^ 160 <= 2 ^ (d - 1)) by (apply Z.pow_le_mono_r; lia). lia. }
  assert (N0 : shift_amount 53 1024 q (e1 - e2 - s) = d - 53) by (unfold shift_amount, fexp, emin; fold d; lia).
  clearbody d.
  set (n := d - 53) in *.
  assert (Pn := pow2_pos n ltac:(lia)).
  assert (Ps := pow2_pos s ltac:(lia)).
  assert (Hq0 : 2 ^ 52 <= q / 2 ^ n).
  { apply Z.div_le_lower_bound; [lia|]. rewrite <- Z.pow_add_r by lia. replace (n + 52) with (d - 1) by lia. lia. }
  destruct (bra_spec 53 1024 false q (e1 - e2 - s) lz) as (m & k & E & Hk & Hv & _ & _); rewrite ?N0 in *; [lia|lia|lia|lia|].
  rewrite E. clear E.
  set (q0 := q / 2 ^ n) in *.
  assert (Lq : q0 * (Z.pos m2 * 2 ^ n) <= Z.pos m1 * 2 ^ s < (q0 + 1) * (Z.pos m2 * 2 ^ n)).
  { assert (Eq : q0 = Z.pos m1 * 2 ^ s / (Z.pos m2 * 2 ^ n)) by (unfold q0, q; rewrite Z.div_div by lia; reflexivity).
    pose proof (Z.div_mod (Z.pos m1 * 2 ^ s) (Z.pos m2 * 2 ^ n) ltac:(lia)) as Dm.
    pose proof (Z.mod_pos_bound (Z.pos m1 * 2 ^ s) (Z.pos m2 * 2 ^ n) ltac:(lia)) as Db.
    rewrite <- Eq in Dm. clear Eq. set (c := Z.pos m2 * 2 ^ n) in *. clearbody c.
    replace ((q0 + 1) * c) with (c * q0 + c) by ring. replace (q0 * c) with (c * q0) by ring. lia. }
  clearbody q0. clear Q1 Q2 Hq. clearbody q.
  set (EE := e1 - e2 - s + n) in *.
  (* scaled by a power of two *)
  assert (T : q0 * (Y * 2 ^ K) * 2 ^ (EE + 500) <= X * 2 ^ L * 2 ^ 500 < (q0 + 1) * (Y * 2 ^ K) * 2 ^ (EE + 500)).
  { assert (G : forall Z0, Z0 * (Z.pos m2 * 2 ^ n) * (2 ^ (e1 - s + 1000) * 2 ^ (K + L)) = Z0 * (Y * 2 ^ K) * 2 ^ (EE + 500) * 2 ^ 500).
    { intro Z0.
      assert (R1 : 2 ^ n * (2 ^ (e1 - s + 1000) * 2 ^ (K + L)) = 2 ^ (e2 + 1000) * (2 ^ L * (2 ^ K * 2 ^ EE)) \/ EE < 0).
      { destruct (Z_lt_ge_dec EE 0); [right; assumption|left].
        rewrite <- !Z.pow_add_r by lia. f_equal. lia. }
      clear R1.
      assert (R : 2 ^ n * (2 ^ (e1 - s + 1000) * 2 ^ (K + L)) * 2 ^ 500 = 2 ^ (e2 + 1000) * (2 ^ L * (2 ^ K * 2 ^ (EE + 500)))).
      { rewrite <- !Z.pow_add_r by lia. f_equal. lia. }
      assert (R' : Y * 2 ^ (1000 - L) * 2 ^ L = Y * 2 ^ 1000).
      { rewrite <- Z.mul_assoc, <- Z.pow_add_r by lia. f_equal. f_equal. lia. }
      rewrite <- V2 in R'.
      apply (pow2_cancel _ _ 500); [lia|].
      transitivity (Z0 * Z.pos m2 * (2 ^ n * (2 ^ (e1 - s + 1000) * 2 ^ (K + L)) * 2 ^ 500)).
      { generalize (2 ^ n) (2 ^ (e1 - s + 1000)) (2 ^ (K + L)) (2 ^ 500). intros; ring. }
      rewrite R.
      transitivity (Z0 * (Z.pos m2 * 2 ^ (e2 + 1000) * 2 ^ L) * (2 ^ K * 2 ^ (EE + 500))).
      { generalize (2 ^ (e2 + 1000)) (2 ^ L) (2 ^ K) (2 ^ (EE + 500)). intros; ring. }
      rewrite R'. replace (2 ^ 1000) with (2 ^ 500 * 2 ^ 500) by (rewrite <- Z.pow_add_r by lia; reflexivity).
      generalize (2 ^ 500) (2 ^ K) (2 ^ (EE + 500)). intros; ring. }
    assert (G1 : Z.pos m1 * 2 ^ s * (2 ^ (e1 - s + 1000) * 2 ^ (K + L)) = X * 2 ^ L * 2 ^ 500 * 2 ^ 500).
    { assert (R : 2 ^ s * (2 ^ (e1 - s + 1000) * 2 ^ (K + L)) = 2 ^ (e1 + 1000) * (2 ^ K * 2 ^ L)).
      { rewrite <- !Z.pow_add_r by lia. f_equal. lia. }
      assert (R' : X * 2 ^ (1000 - K) * 2 ^ K = X * 2 ^ 1000).
      { rewrite <- Z.mul_assoc, <- Z.pow_add_r by lia. f_equal. f_equal. lia. }
      rewrite <- V1 in R'. rewrite <- Z.mul_assoc, R.
      transitivity (Z.pos m1 * 2 ^ (e1 + 1000) * 2 ^ K * 2 ^ L).
      { generalize (2 ^ (e1 + 1000)) (2 ^ K) (2 ^ L). intros; ring. }
      rewrite R'. replace (2 ^ 1000) with (2 ^ 500 * 2 ^ 500) by (rewrite <- Z.pow_add_r by lia; reflexivity).
      generalize (2 ^ 500) (2 ^ L). intros; ring. }
    assert (W : 0 < 2 ^ (e1 - s + 1000) * 2 ^ (K + L)) by (apply Z.mul_pos_pos; apply pow2_pos; lia).
    assert (W5 : 0 < 2 ^ 500) by (apply pow2_pos; lia).
    pose proof (G q0) as Ga. pose proof (G (q0 + 1)) as Gb. clear G.
    generalize dependent (2 ^ (e1 - s + 1000) * 2 ^ (K + L)). intros w G1 W Ga Gb.
    split.
    - apply (Z.mul_le_mono_pos_r _ _ (2 ^ 500)); [assumption|]. rewrite <- Ga, <- G1. apply Z.mul_le_mono_nonneg_r; lia.
    - apply (Z.mul_lt_mono_pos_r (2 ^ 500)); [assumption|]. rewrite <- Gb, <- G1. apply Z.mul_lt_mono_pos_r; lia. }
  set (b := Y * 2 ^ K) in *. set (a := X * 2 ^ L) in *.
  assert (Hb : 0 < b) by (unfold b; apply Z.mul_pos_pos; [lia|apply pow2_pos; lia]).
  assert (Hab : a < (N + 1) * b).
  { assert (0 <= a) by (unfold a; apply Z.mul_nonneg_nonneg; [lia|apply Z.lt_le_incl, pow2_pos; lia]).
    clear - Hi H. set (c := (N + 1) * b) in *. clearbody c a. change (2 ^ 52) with 4503599627370496 in Hi. lia. }
  clearbody a b. clear Lq V1 V2.
  assert (HE : EE <= -2).
  { destruct (Z_le_gt_dec EE (-2)); [assumption|exfalso]. destruct T as [T _].
    assert (2 ^ 499 <= 2 ^ (EE + 500)) by (apply Z.pow_le_mono_r; lia).
    assert (2 ^ 500 = 2 * 2 ^ 499) by (rewrite <- Z.pow_succ_r by lia; reflexivity).
    assert (W5 : 0 < 2 ^ 499) by (apply pow2_pos; lia).
    assert (C : q0 * b * 2 ^ 499 <= a * 2 ^ 500) by nia.
    clear - C Hq0 Hab HN Hb W5 H0.
    assert (C2 : q0 * b <= 2 * a) by (rewrite H0 in C; generalize dependent (2 ^ 499); intros; nia).
    clear - C2 Hq0 Hab HN Hb. assert (2 ^ 52 * b <= q0 * b) by (apply Z.mul_le_mono_nonneg_r; lia).
    assert ((N + 1) * b <= 2 ^ 49 * b) by (apply Z.mul_le_mono_nonneg_r; lia). lia. }
  set (F := - EE). assert (EF : EE = - F) by lia.
  assert (T2 : q0 * b <= a * 2 ^ F < (q0 + 1) * b).
  { assert (R : 2 ^ 500 = 2 ^ F * 2 ^ (EE + 500)) by (rewrite <- Z.pow_add_r by lia; f_equal; lia).
    rewrite R in T. rewrite Z.mul_assoc in T.
    assert (0 < 2 ^ (EE + 500)) by (apply pow2_pos; lia).
    split; [apply (Z.mul_le_mono_pos_r _ _ (2 ^ (EE + 500)))|apply (Z.mul_lt_mono_pos_r (2 ^ (EE + 500)))]; tauto. }
  clear T. clearbody F.
  assert (PF : 0 < 2 ^ F) by (apply pow2_pos; lia).
  assert (L1 : N * 2 ^ F <= q0).
  { clear - T2 Lo PF Hb. set (f := 2 ^ F) in *. clearbody f.
    assert (A : N * b * f <= a * f) by (apply Z.mul_le_mono_nonneg_r; lia).
    assert (B : N * f * b < (q0 + 1) * b) by (replace (N * f * b) with (N * b * f) by ring; lia).
    apply Z.mul_lt_mono_pos_r in B; lia. }
  assert (L2 : q0 + 1 < (N + 1) * 2 ^ F).
  { assert (U : (q0 + 1) * 2 ^ 52 <= q0 * (2 ^ 52 + 1)) by lia.
    assert (U2 : (q0 + 1) * 2 ^ 52 * b <= a * 2 ^ F * (2 ^ 52 + 1)) .
    { apply Z.le_trans with (q0 * (2 ^ 52 + 1) * b); [apply Z.mul_le_mono_nonneg_r; lia|].
      replace (q0 * (2 ^ 52 + 1) * b) with (q0 * b * (2 ^ 52 + 1)) by ring. apply Z.mul_le_mono_nonneg_r; lia. }
    assert (U3 : (a * (2 ^ 52 + 1)) * 2 ^ F < ((N + 1) * b * 2 ^ 52) * 2 ^ F) by (apply Z.mul_lt_mono_pos_r; lia).
    assert (U4 : ((q0 + 1) * (2 ^ 52 * b) < ((N + 1) * 2 ^ F) * (2 ^ 52 * b))).
    { replace ((q0 + 1) * (2 ^ 52 * b)) with ((q0 + 1) * 2 ^ 52 * b) by ring.
      replace ((N + 1) * 2 ^ F * (2 ^ 52 * b)) with ((N + 1) * b * 2 ^ 52 * 2 ^ F) by (generalize (2 ^ F) (2 ^ 52); intros; ring).
      replace (a * (2 ^ 52 + 1) * 2 ^ F) with (a * 2 ^ F * (2 ^ 52 + 1)) in U3 by (generalize (2 ^ F) (2 ^ 52); intros; ring).
      lia. }
    apply Z.mul_lt_mono_pos_r in U4; [assumption|]. apply Z.mul_pos_pos; [apply pow2_pos; lia|lia]. }
  cbn [sf_trunc].
  replace (0 <=? EE + k) with false by (symmetry; apply Z.leb_gt; lia).
  f_equal.
  assert (R : 2 ^ F = 2 ^ (- (EE + k)) * 2 ^ k) by (rewrite <- Z.pow_add_r by lia; f_equal; lia).
  assert (Pk : 0 < 2 ^ k) by (apply pow2_pos; lia).
  assert (Pf : 0 < 2 ^ (- (EE + k))) by (apply pow2_pos; lia).
  rewrite R in L1, L2. rewrite Z.mul_assoc in L1, L2.
  assert (N * 2 ^ (- (EE + k)) <= Z.pos m < (N + 1) * 2 ^ (- (EE + k))).
  { split; [apply (Z.mul_le_mono_pos_r _ _ (2 ^ k))|apply (Z.mul_lt_mono_pos_r (2 ^ k))]; lia. }
  symmetry. apply (Z.div_unique _ _ _ (Z.pos m - N * 2 ^ (- (EE + k)))); [left|]; lia.
Qed.

(* Results of moderate size are finite *)
Definition moderate (lo hi : Z) (f : spec_float) : Prop :=
  f = S754_zero false \/ exists m e, f = S754_finite false m e /\ Z.pos m < 2 ^ 53 /\ lo <= e <= hi.

Lemma finite_round : forall mx ex lx, 0 < mx -> mx < 2 ^ 300 -> -700 <= ex <= 700 ->
  moderate ex (ex + 250) (binary_round_aux 53 1024 false mx ex lx).
Proof.
  intros mx ex lx H Hb He. right.
  pose proof (Zdigits2_pos mx H) as [D1 D2]. remember (Zdigits2 mx) as d eqn:Ed.
  assert (Hd : d <= 300).
  { destruct (Z_le_gt_dec d 300); [assumption|]. assert (2 ^ 300 <= 2 ^ (d - 1)) by (apply Z.pow_le_mono_r; lia). lia. }
  assert (N0 : shift_amount 53 1024 mx ex = Z.max 0 (d - 53)) by (unfold shift_amount, fexp, emin; lia).
  set (n := Z.max 0 (d - 53)) in *.
  assert (P : 0 < 2 ^ n) by (apply pow2_pos; lia).
  assert (Dp : 0 < mx / 2 ^ n).
  { apply Z.div_str_pos. split; [lia|]. destruct (Z_le_gt_dec d 53).
    - replace n with 0 by lia. change (2 ^ 0) with 1. lia.
    - assert (2 ^ n <= 2 ^ (d - 1)) by (apply Z.pow_le_mono_r; lia). lia. }
  destruct (bra_spec 53 1024 false mx ex lx) as (m & k & E & Hk & _ & _ & F); rewrite ?N0 in *; [lia|lia|lia|lia|].
  exists m, (ex + n + k). split; [exact E|]. split; [|lia].
  unfold fexp in F. assert (Hm : Z.pos (digits2_pos m) <= 53) by lia.
  pose proof (Zdigits2_pos (Z.pos m) ltac:(lia)) as [_ D]. cbn [Zdigits2] in D.
  assert (2 ^ Z.pos (digits2_pos m) <= 2 ^ 53) by (apply Z.pow_le_mono_r; lia). lia.
Qed.

Lemma moderate_weaken : forall lo hi lo' hi' f, moderate lo hi f -> lo' <= lo -> hi <= hi' -> moderate lo' hi' f.
Proof.
  intros lo hi lo' hi' f [->|(m & e & -> & H)] A B; [left; reflexivity|]. right. exists m, e. repeat split; lia.
Qed.

Lemma mul_moderate : forall lo hi x y, -500 <= lo -> hi <= 600 -> moderate lo hi x -> moderate (-160) 100 y ->
  moderate (lo - 160) (hi + 350) (f64_mul x y).
Proof.
  intros lo hi x y Hl Hh [->|(m1 & e1 & -> & Hm1 & He1)] [->|(m2 & e2 & -> & Hm2 & He2)]; try (left; reflexivity).
  unfold f64_mul. cbn [SFmul xorb].
  apply (moderate_weaken (e1 + e2) (e1 + e2 + 250)); [|lia|lia].
  apply finite_round; [lia| |lia].
  rewrite Pos2Z.inj_mul. apply Z.lt_le_trans with (2 ^ 53 * 2 ^ 53); [apply Z.mul_lt_mono_nonneg; lia|].
  rewrite <- Z.pow_add_r by lia. apply Z.pow_le_mono_r; lia.
Qed.

Lemma of_Z_moderate : forall z, 0 <= z < 2 ^ 53 -> moderate (-160) 100 (f64_of_Z z).
Proof.
  intros z H. destruct (Z.eq_dec z 0) as [->|N]; [left; reflexivity|].
  destruct (exact_of_Z z ltac:(lia)) as (m & e & E & Hm & Hl & V). right. exists m, e.
  split; [exact E|]. split; [exact Hm|].
  assert (X := exact_exponent _ 0 z m e E Hm Hl V ltac:(lia) ltac:(lia)). lia.
Qed.

Lemma div_moderate : forall x y, moderate (-160) 100 x -> moderate (-160) 100 y -> y <> S754_zero false ->
  moderate (-370) 510 (f64_div x y).
Proof.
  intros x y Hx [->|(m2 & e2 & -> & Hm2 & He2)] Hy; [contradiction|].
  destruct Hx as [->|(m1 & e1 & -> & Hm1 & He1)]; [left; reflexivity|].
  unfold f64_div. cbn [SFdiv xorb]. unfold SFdiv_core_binary. cbv zeta.
  pose proof (Zdigits2_pos (Z.pos m1) ltac:(lia)) as [A1 A2].
  pose proof (Zdigits2_pos (Z.pos m2) ltac:(lia)) as [B1 B2].
  set (d1 := Zdigits2 (Z.pos m1)) in *. set (d2 := Zdigits2 (Z.pos m2)) in *.
  assert (P1 : 1 <= d1 <= 53).
  { split; [unfold d1; cbn; lia|]. destruct (Z_le_gt_dec d1 53); [assumption|].
    assert (2 ^ 53 <= 2 ^ (d1 - 1)) by (apply Z.pow_le_mono_r; lia). lia. }
  assert (P2 : 1 <= d2 <= 53).
  { split; [unfold d2; cbn; lia|]. destruct (Z_le_gt_dec d2 53); [assumption|].
    assert (2 ^ 53 <= 2 ^ (d2 - 1)) by (apply Z.pow_le_mono_r; lia). lia. }
  clearbody d1 d2. set (s := 53 - (d1 - d2)).
  assert (Es : Z.min (fexp 53 1024 (d1 + e1 - (d2 + e2))) (e1 - e2) = e1 - e2 - Z.max 0 s)
    by (unfold fexp, emin; lia).
  rewrite Es. clear Es. replace (e1 - e2 - (e1 - e2 - Z.max 0 s)) with (Z.max 0 s) by lia.
  assert (S1 : 1 <= s <= 105) by lia. rewrite Z.max_r by lia.
  replace (match s with 0 => Z.pos m1 | Z.pos _ => Z.shiftl (Z.pos m1) s | Z.neg _ => 0 end)
    with (Z.pos m1 * 2 ^ s) by (rewrite <- Z.shiftl_mul_pow2 by lia; destruct s; lia).
  rewrite (surjective_pairing (Z.div_eucl (Z.pos m1 * 2 ^ s) (Z.pos m2))).
  change (fst (Z.div_eucl (Z.pos m1 * 2 ^ s) (Z.pos m2))) with (Z.pos m1 * 2 ^ s / Z.pos m2).
  apply (moderate_weaken (e1 - e2 - s) (e1 - e2 - s + 250)); [|lia|lia].
  apply finite_round; [| |lia].
  - apply Z.div_str_pos. split; [lia|]. apply Z.le_trans with (2 ^ (d1 - 1) * 2 ^ s).
    + rewrite <- Z.pow_add_r by lia. assert (2 ^ d2 <= 2 ^ (d1 - 1 + s)) by (apply Z.pow_le_mono_r; lia). lia.
    + apply Z.mul_le_mono_nonneg_r; [apply Z.lt_le_incl, pow2_pos; lia|lia].
  - apply Z.div_lt_upper_bound; [lia|].
    assert (2 ^ s <= 2 ^ 105) by (apply Z.pow_le_mono_r; lia).
    apply Z.le_lt_trans with (2 ^ 53 * 2 ^ 105).
    { pose proof (pow2_pos s ltac:(lia)). apply Z.mul_le_mono_nonneg; lia. }
    apply Z.lt_le_trans with (1 * 2 ^ 300); [reflexivity|]. apply Z.mul_le_mono_nonneg_r; [apply Z.lt_le_incl, pow2_pos|]; lia.
Qed.

Lemma trunc_moderate : forall lo hi f, moderate lo hi f -> exists z, sf_trunc f = Ok z.
Proof. intros lo hi f [->|(m & e & -> & _)]; eexists; reflexivity. Qed.
