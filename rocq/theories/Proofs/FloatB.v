(* Rounding in binary32 never crosses a number that can be represented. *)
From Verif.Model Require Import Util Float.
From Verif.Proofs Require Import Tac RateP.

Local Open Scope Z_scope.

(* Values, in units of 2^-1000 *)
Definition V (m e : Z) : Z := m * 2 ^ (e + 1000).
Definition S (f : spec_float) : Z :=
  match f with S754_finite s m e => if s then - V (Z.pos m) e else V (Z.pos m) e | _ => 0 end.
(* Numbers: neither infinite nor NaN, and in the form all operations give *)
Definition good (f : spec_float) : Prop :=
  match f with S754_zero _ => True | S754_finite _ m e => bounded 24 128 m e = true | _ => False end.

Lemma pow_pos : forall n, 0 <= n -> 0 < 2 ^ n.
Proof. intros. apply Z.pow_pos_nonneg; lia. Qed.

Lemma V_up : forall m e e', -1000 <= e <= e' -> V m e' = V (m * 2 ^ (e' - e)) e.
Proof. intros m e e' L. unfold V. rewrite <- Z.mul_assoc, <- Z.pow_add_r by lia. do 2 f_equal. lia. Qed.
Lemma V_le : forall a b e, -1000 <= e -> V a e <= V b e <-> a <= b.
Proof. intros a b e L. unfold V. pose proof (pow_pos (e + 1000) ltac:(lia)). nia. Qed.
Lemma V_lt : forall a b e, -1000 <= e -> V a e < V b e <-> a < b.
Proof. intros a b e L. unfold V. pose proof (pow_pos (e + 1000) ltac:(lia)). nia. Qed.

Lemma digits_range : forall p, 2 ^ (Zdigits2 (Z.pos p) - 1) <= Z.pos p < 2 ^ Zdigits2 (Z.pos p).
Proof.
  intros p. cbn [Zdigits2]. rewrite digits_size. pose proof (Pos.size_gt p) as G. pose proof (Pos.size_le p) as L.
  assert (G' : Z.pos p < 2 ^ Z.pos (Pos.size p)) by (rewrite <- Pos2Z.inj_pow; exact G).
  assert (L' : 2 ^ Z.pos (Pos.size p) <= 2 * Z.pos p) by (rewrite <- Pos2Z.inj_pow; exact L).
  assert (2 ^ Z.pos (Pos.size p) = 2 * 2 ^ (Z.pos (Pos.size p) - 1)); [|lia].
  rewrite <- Z.pow_succ_r by lia. f_equal. lia.
Qed.
Lemma digits_pos : forall p, 1 <= Zdigits2 (Z.pos p).
Proof. intros p. cbn. lia. Qed.

Lemma fexp_is : forall x, fexp 24 128 x = Z.max (x - 24) (-149).
Proof. reflexivity. Qed.

(* Canonical numbers *)
Lemma bounded_is : forall m e, bounded 24 128 m e = true <->
  -149 <= e <= 104 /\ Z.pos m < 2 ^ 24 /\ (e = -149 \/ 2 ^ 23 <= Z.pos m).
Proof.
  intros m e. unfold bounded, canonical_mantissa. rewrite andb_true_iff, <- Zeq_is_eq_bool. rewrite fexp_is.
  pose proof (digits_range m) as R. change (Zdigits2 (Z.pos m)) with (Z.pos (digits2_pos m)) in R. remember (Z.pos (digits2_pos m)) as d eqn:D.
  assert (1 <= d) by lia. rewrite <- Zle_is_le_bool. change (128 - 24) with 104. clear D. split.
  - intros [A B]. assert (d <= 24) by lia. assert (2 ^ d <= 2 ^ 24) by (apply Z.pow_le_mono_r; lia).
    split; [lia|]. split; [lia|]. destruct (Z.eq_dec e (-149)) as [E|E]; [left; exact E|right]. assert (d = 24) as -> by lia. exact (proj1 R).
  - intros (A & B & C). assert (d <= 24).
    { destruct (Z_le_gt_dec d 24) as [L|L]; [exact L|exfalso]. assert (2 ^ 24 <= 2 ^ (d - 1)) by (apply Z.pow_le_mono_r; lia). lia. }
    destruct C as [C|C]; [lia|]. assert (24 <= d); [|lia].
    destruct (Z_le_gt_dec 24 d) as [L|L]; [exact L|exfalso]. assert (2 ^ d <= 2 ^ 23) by (apply Z.pow_le_mono_r; lia). lia.
Qed.

Lemma good_order : forall s1 m1 e1 s2 m2 e2, good (S754_finite s1 m1 e1) -> good (S754_finite s2 m2 e2) -> e1 < e2 ->
  V (Z.pos m1) e1 < V (Z.pos m2) e2.
Proof.
  intros s1 m1 e1 s2 m2 e2 G1 G2 L. apply bounded_is in G1, G2. destruct G1 as (A1 & B1 & _), G2 as (A2 & _ & [C2|C2]); [lia|].
  rewrite (V_up (Z.pos m2) e1 e2) by lia. apply V_lt; [lia|].
  assert (2 ^ (e2 - e1) = 2 * 2 ^ (e2 - e1 - 1)) by (rewrite <- Z.pow_succ_r by lia; f_equal; lia).
  pose proof (pow_pos (e2 - e1 - 1) ltac:(lia)). change (2 ^ 24) with (2 * 2 ^ 23) in B1. nia.
Qed.

Lemma V_pos : forall m e, -1000 <= e -> 0 < V (Z.pos m) e.
Proof. intros m e L. unfold V. pose proof (pow_pos (e + 1000) ltac:(lia)). nia. Qed.

Lemma good_e : forall s m e, good (S754_finite s m e) -> -149 <= e <= 104.
Proof. intros s m e G. apply bounded_is in G. tauto. Qed.

Lemma ltb_is : forall a b, good a -> good b -> SFltb a b = (S a <? S b).
Proof.
  assert (M : forall m1 e1 m2 e2 s1 s2, good (S754_finite s1 m1 e1) -> good (S754_finite s2 m2 e2) ->
    match Z.compare e1 e2 with Lt => Lt | Gt => Gt | Eq => Pos.compare_cont Eq m1 m2 end = Z.compare (V (Z.pos m1) e1) (V (Z.pos m2) e2)).
  { intros m1 e1 m2 e2 s1 s2 G1 G2. destruct (Z.compare_spec e1 e2) as [E|E|E].
    - subst e2. change (Pos.compare_cont Eq m1 m2) with (Z.compare (Z.pos m1) (Z.pos m2)). unfold V.
      pose proof (good_e _ _ _ G1). symmetry. destruct (Z.compare_spec (Z.pos m1) (Z.pos m2)) as [X|X|X].
      + rewrite X. apply Z.compare_refl.
      + apply Z.compare_lt_iff. apply (V_lt (Z.pos m1) (Z.pos m2) e1); lia.
      + apply Z.compare_gt_iff. apply (V_lt (Z.pos m2) (Z.pos m1) e1); lia.
    - symmetry. apply Z.compare_lt_iff. exact (good_order _ _ _ _ _ _ G1 G2 E).
    - symmetry. apply Z.compare_gt_iff. exact (good_order _ _ _ _ _ _ G2 G1 E). }
  intros [sa|sa| |sa ma ea] [sb|sb| |sb mb eb] Ga Gb; try contradiction Ga; try contradiction Gb; unfold SFltb, SFcompare, S.
  - reflexivity.
  - pose proof (V_pos mb eb ltac:(pose proof (good_e _ _ _ Gb); lia)). destruct sb; symmetry; [apply Z.ltb_ge|apply Z.ltb_lt]; lia.
  - pose proof (V_pos ma ea ltac:(pose proof (good_e _ _ _ Ga); lia)). destruct sa; symmetry; [apply Z.ltb_lt|apply Z.ltb_ge]; lia.
  - specialize (M _ _ _ _ _ _ Ga Gb). pose proof (V_pos ma ea ltac:(pose proof (good_e _ _ _ Ga); lia)). pose proof (V_pos mb eb ltac:(pose proof (good_e _ _ _ Gb); lia)).
    destruct sa, sb.
    + replace (match ea ?= eb with Eq => CompOpp (Pos.compare_cont Eq ma mb) | Lt => Gt | Gt => Lt end)
        with (CompOpp (match Z.compare ea eb with Lt => Lt | Gt => Gt | Eq => Pos.compare_cont Eq ma mb end)) by (destruct (ea ?= eb); reflexivity).
      rewrite M. destruct (Z.compare_spec (V (Z.pos ma) ea) (V (Z.pos mb) eb)); cbn [CompOpp]; symmetry; first [apply Z.ltb_lt; lia|apply Z.ltb_ge; lia].
    + symmetry. apply Z.ltb_lt. lia.
    + symmetry. apply Z.ltb_ge. lia.
    + rewrite M. destruct (Z.compare_spec (V (Z.pos ma) ea) (V (Z.pos mb) eb)); symmetry; first [apply Z.ltb_lt; lia|apply Z.ltb_ge; lia].
Qed.

(* Shifting right by any amount *)
Lemma even_pos : forall p, 0 < 2 ^ (2 * Z.pos p).
Proof. intros p. apply pow_pos. lia. Qed.
Lemma odd_pow : forall p, 2 ^ Z.pos p~1 = 2 * 2 ^ (2 * Z.pos p).
Proof. intros p. replace (Z.pos p~1) with (Z.succ (2 * Z.pos p)) by lia. apply Z.pow_succ_r. lia. Qed.
Lemma odd_shift : forall m p, m / 2 / 2 ^ (2 * Z.pos p) = m / 2 ^ Z.pos p~1.
Proof. intros m p. rewrite odd_pow. apply Z.div_div; [lia|apply even_pos]. Qed.
Lemma shr_many : forall p m r s, 0 <= m -> exists r' s', SpecFloat.iter_pos shr_1 p {| shr_m := m; shr_r := r; shr_s := s |} = {| shr_m := m / 2 ^ Z.pos p; shr_r := r'; shr_s := s' |} /\
  (r' = false /\ s' = false <-> r = false /\ s = false /\ (2 ^ Z.pos p | m)).
Proof.
  assert (Two : forall p m, 0 <= m -> (m / 2 ^ Z.pos p) / 2 ^ Z.pos p = m / 2 ^ (2 * Z.pos p)).
  { intros p m P. rewrite Z.div_div by (try apply pow_pos; try apply Z.neq_sym; try apply Z.lt_neq; try apply pow_pos; lia). rewrite <- Z.pow_add_r by lia. do 2 f_equal. lia. }
  assert (Div : forall p m, 0 <= m -> (2 ^ Z.pos p | m) /\ (2 ^ Z.pos p | m / 2 ^ Z.pos p) <-> (2 ^ (2 * Z.pos p) | m)).
  { intros p m P. pose proof (pow_pos (Z.pos p) ltac:(lia)) as Q. replace (2 ^ (2 * Z.pos p)) with (2 ^ Z.pos p * 2 ^ Z.pos p) by (rewrite <- Z.pow_add_r by lia; f_equal; lia).
    remember (2 ^ Z.pos p) as a eqn:A. clear A. split.
    - intros [[k ->] [j E]]. rewrite Z.div_mul in E by lia. subst k. exists j. lia.
    - intros [k ->]. split; [exists (k * a); lia|]. rewrite Z.mul_assoc, Z.div_mul by lia. exists k. reflexivity. }
  induction p as [p IH|p IH|]; intros m r s P; cbn [SpecFloat.iter_pos].
  - rewrite shr_1_is by exact P. assert (P1 : 0 <= m / 2) by (apply Z.div_pos; lia).
    destruct (IH (m / 2) (Z.odd m) (r || s)%bool P1) as (r1 & s1 & -> & E1).
    assert (P2 : 0 <= m / 2 / 2 ^ Z.pos p) by (apply Z.div_pos; [exact P1|apply pow_pos; lia]).
    destruct (IH _ r1 s1 P2) as (r2 & s2 & -> & E2). exists r2, s2. split.
    + f_equal. rewrite Two by exact P1. apply odd_shift.
    + rewrite E2, <- and_assoc, E1, !and_assoc, Div by exact P1. rewrite orb_false_iff.
      rewrite odd_pow. pose proof (even_pos p) as Q. remember (2 ^ (2 * Z.pos p)) as a eqn:A. clear A E1 E2 IH Two Div.
      rewrite (Z.div2_odd m) at 3. rewrite <- Z.div2_div. split.
      * intros (O & (R & S') & [k K]). split; [exact R|]. split; [exact S'|]. rewrite O, K. cbn [Z.b2z]. exists k. lia.
      * intros (R & S' & [k K]). assert (O : Z.odd m = false).
        { destruct (Z.odd m); [exfalso; cbn [Z.b2z] in K; lia|reflexivity]. }
        split; [exact O|]. split; [split; assumption|]. rewrite O in K. cbn [Z.b2z] in K. exists k. lia.
  - destruct (IH m r s P) as (r1 & s1 & -> & E1).
    assert (P2 : 0 <= m / 2 ^ Z.pos p) by (apply Z.div_pos; [exact P|apply pow_pos; lia]).
    destruct (IH _ r1 s1 P2) as (r2 & s2 & -> & E2). exists r2, s2. split.
    + f_equal. rewrite Two by exact P. replace (Z.pos p~0) with (2 * Z.pos p) by lia. reflexivity.
    + rewrite E2, <- and_assoc, E1, !and_assoc, Div by exact P. replace (Z.pos p~0) with (2 * Z.pos p) by lia. reflexivity.
  - rewrite shr_1_is by exact P. exists (Z.odd m), (r || s)%bool. split; [reflexivity|]. rewrite orb_false_iff. change (2 ^ 1) with 2.
    rewrite (Z.div2_odd m) at 2. split.
    + intros (O & R & S'). split; [exact R|]. split; [exact S'|]. rewrite O. exists (Z.div2 m). cbn [Z.b2z]. lia.
    + intros (R & S' & [k K]). split; [|split; assumption]. destruct (Z.odd m); [exfalso; cbn [Z.b2z] in K; lia|reflexivity].
Qed.

Lemma shr_is : forall n m l e, 0 <= m -> 0 <= n -> exists r, shr (shr_record_of_loc m l) e n = (r, e + n) /\ shr_m r = m / 2 ^ n /\
  (loc_of_shr_record r = loc_Exact <-> l = loc_Exact /\ (2 ^ n | m)).
Proof.
  intros n m l e P N. destruct n as [|p|p]; [| |lia].
  - exists (shr_record_of_loc m l). split; [cbn; f_equal; lia|]. rewrite record_m, loc_round, Z.div_1_r. split; [reflexivity|]. split; [|tauto].
    intros ->. split; [reflexivity|]. exists m. lia.
  - assert (R : exists r s, shr_record_of_loc m l = {| shr_m := m; shr_r := r; shr_s := s |} /\ (l = loc_Exact <-> r = false /\ s = false)).
    { destruct l as [|[| |]]; cbn; eexists _, _; (split; [reflexivity|]); split; try tauto; try discriminate; intros [A B]; discriminate. }
    destruct R as (r & s & -> & L). cbn [shr]. destruct (shr_many p m r s P) as (r' & s' & -> & E). eexists. split; [reflexivity|]. split; [reflexivity|].
    rewrite L, and_assoc, <- E. cbn [loc_of_shr_record]. destruct r', s'; split; try tauto; try discriminate; intros [A B]; discriminate.
Qed.

(* A mantissa: positive, or 0 with a small exponent *)
Definition mant (mx ex : Z) : Prop := 0 < mx \/ (mx = 0 /\ ex <= -149).
Lemma mant_range : forall mx ex, mant mx ex -> 0 <= mx /\ mx < 2 ^ Zdigits2 mx /\ 0 <= Zdigits2 mx /\ (fexp 24 128 (Zdigits2 mx + ex) <> -149 -> 2 ^ (Zdigits2 mx - 1) <= mx /\ 1 <= Zdigits2 mx).
Proof.
  intros mx ex [P|[-> Q]].
  - destruct mx as [|p|p]; try lia. pose proof (digits_range p). pose proof (digits_pos p). repeat split; try lia; tauto.
  - split; [lia|]. split; [reflexivity|]. split; [reflexivity|]. rewrite fexp_is. change (Zdigits2 0) with 0. lia.
Qed.

(* Rounding: the mantissa is cut off or one more; one more only if something is cut off *)
Lemma round_form : forall s mx ex lx, let e1 := fexp 24 128 (Zdigits2 mx + ex) in
  mant mx ex -> ex <= e1 ->
  exists q, (q = mx / 2 ^ (e1 - ex) \/ (q = mx / 2 ^ (e1 - ex) + 1 /\ ~ (lx = loc_Exact /\ (2 ^ (e1 - ex) | mx)))) /\
   -149 <= e1 /\ 0 <= q /\
   ((q = 0 /\ binary_round_aux 24 128 s mx ex lx = S754_zero s) \/
    (0 < q /\ exists m e, (e = e1 /\ Z.pos m = q \/ e = e1 + 1 /\ 2 * Z.pos m = q) /\
       Z.pos m < 2 ^ 24 /\ (e = -149 \/ 2 ^ 23 <= Z.pos m) /\
       binary_round_aux 24 128 s mx ex lx = if e <=? 104 then S754_finite s m e else S754_infinity s)).
Proof.
  intros s mx ex lx e1 Mt L. destruct (mant_range mx ex Mt) as (R0 & R1 & D1 & R). fold e1 in R.
  destruct (shr_is (e1 - ex) mx lx ex R0 ltac:(lia)) as (r & Sh & Rm & Re).
  assert (Q : 0 <= mx / 2 ^ (e1 - ex) < 2 ^ 24 /\ (e1 = -149 \/ 2 ^ 23 <= mx / 2 ^ (e1 - ex))).
  { pose proof (pow_pos (e1 - ex) ltac:(lia)) as PP. assert (E1 : e1 = Z.max (Zdigits2 mx + ex - 24) (-149)) by apply fexp_is. split; [split|].
    - apply Z.div_pos; [exact R0|exact PP].
    - apply Z.div_lt_upper_bound; [exact PP|]. assert (2 ^ Zdigits2 mx <= 2 ^ (e1 - ex) * 2 ^ 24); [|lia]. rewrite <- Z.pow_add_r by lia. apply Z.pow_le_mono_r; lia.
    - destruct (Z.eq_dec e1 (-149)) as [X|X]; [left; exact X|right]. specialize (R X). apply Z.div_le_lower_bound; [exact PP|].
      rewrite <- Z.pow_add_r by lia. replace (e1 - ex + 23) with (Zdigits2 mx - 1) by lia. exact (proj1 R). }
  destruct Q as [Q Qn]. assert (M149 : -149 <= e1) by (subst e1; rewrite fexp_is; lia).
  set (q := round_nearest_even (shr_m r) (loc_of_shr_record r)).
  assert (Qq : q = mx / 2 ^ (e1 - ex) \/ (q = mx / 2 ^ (e1 - ex) + 1 /\ ~ (lx = loc_Exact /\ (2 ^ (e1 - ex) | mx)))).
  { subst q. rewrite Rm. destruct (nearest (mx / 2 ^ (e1 - ex)) (loc_of_shr_record r)) as [X|X]; [left; exact X|].
    right. split; [exact X|]. rewrite <- Re. intros Y. rewrite Y in X. cbn in X. lia. }
  exists q. split; [exact Qq|]. split; [exact M149|]. split; [lia|].
  assert (Un : binary_round_aux 24 128 s mx ex lx =
    (let '(mrs, e2) := shr_fexp 24 128 q e1 loc_Exact in
     match shr_m mrs with Z0 => S754_zero s | Z.pos m => if e2 <=? 104 then S754_finite s m e2 else S754_infinity s | Z.neg _ => S754_nan end)).
  { unfold binary_round_aux. unfold shr_fexp at 1. fold e1. rewrite Sh. replace (ex + (e1 - ex)) with e1 by lia. fold q. reflexivity. }
  clearbody q. clear Sh Rm Re r. destruct (Z.eq_dec q 0) as [Z0|Z0].
  - left. split; [exact Z0|]. rewrite Un, Z0. unfold shr_fexp. change (Zdigits2 0) with 0. rewrite fexp_is. replace (Z.max (0 + e1 - 24) (-149) - e1) with (Z.max (-24) (-149 - e1)) by lia.
    destruct (Z.max (-24) (-149 - e1)) eqn:X; try reflexivity. lia.
  - right. assert (0 < q) by lia. split; [assumption|]. destruct (Z.eq_dec q (2 ^ 24)) as [Big|Big].
    + exists 8388608%positive, (e1 + 1). split; [right; split; [reflexivity|]; rewrite Big; reflexivity|]. split; [reflexivity|]. split; [right; discriminate|].
      rewrite Un, Big. unfold shr_fexp. change (Zdigits2 (2 ^ 24)) with 25. rewrite fexp_is. replace (Z.max (25 + e1 - 24) (-149) - e1) with 1 by lia. reflexivity.
    + destruct q as [|m|m]; try lia. exists m, e1. split; [left; split; reflexivity|]. split; [lia|]. split; [destruct Qn; [left|right]; lia|].
      rewrite Un. unfold shr_fexp. pose proof (digits_range m) as Rd. rewrite fexp_is.
      assert (Dl : Zdigits2 (Z.pos m) <= 24).
      { destruct (Z_le_gt_dec (Zdigits2 (Z.pos m)) 24) as [Y|Y]; [exact Y|exfalso]. assert (2 ^ 24 <= 2 ^ (Zdigits2 (Z.pos m) - 1)) by (apply Z.pow_le_mono_r; lia). lia. }
      replace (shr (shr_record_of_loc (Z.pos m) loc_Exact) e1 (Z.max (Zdigits2 (Z.pos m) + e1 - 24) (-149) - e1)) with (shr_record_of_loc (Z.pos m) loc_Exact, e1); [reflexivity|].
      destruct (Z.max (Zdigits2 (Z.pos m) + e1 - 24) (-149) - e1) eqn:X; try reflexivity. lia.
Qed.

Definition bound_ok (M E : Z) : Prop := 0 < M < 2 ^ 24 /\ -149 <= E <= 104.

(* What is at most a bound stays so *)
Lemma round_le : forall s mx ex lx M E, mant mx ex -> -1000 <= ex -> ex <= fexp 24 128 (Zdigits2 mx + ex) -> bound_ok M E ->
  V mx ex < V M E \/ (V mx ex = V M E /\ lx = loc_Exact) ->
  good (binary_round_aux 24 128 s mx ex lx) /\ Z.abs (S (binary_round_aux 24 128 s mx ex lx)) <= V M E /\ (if s then S (binary_round_aux 24 128 s mx ex lx) <= 0 else 0 <= S (binary_round_aux 24 128 s mx ex lx)).
Proof.
  intros s mx ex lx M E Mt Le L [BM BE] H. destruct (mant_range mx ex Mt) as (R0 & R1 & D1 & R).
  destruct (round_form s mx ex lx Mt L) as (q & Q & M149 & Q0 & Form). remember (fexp 24 128 (Zdigits2 mx + ex)) as e1 eqn:E1. rewrite fexp_is in E1.
  pose proof (pow_pos (e1 - ex) ltac:(lia)) as PP.
  assert (LeE : e1 <= E).
  { destruct (Z_le_gt_dec e1 E) as [X|X]; [exact X|exfalso]. specialize (R ltac:(lia)). assert (N : e1 = Zdigits2 mx + ex - 24) by lia.
    assert (V mx ex <= V M E) as Y by lia. unfold V in Y.
    assert (A : 2 ^ (Zdigits2 mx - 1) * 2 ^ (ex + 1000) <= mx * 2 ^ (ex + 1000)) by (apply Z.mul_le_mono_nonneg_r; [apply Z.pow_nonneg; lia|exact (proj1 R)]).
    rewrite <- Z.pow_add_r in A by lia. assert (C : 2 ^ (24 + (E + 1000)) <= 2 ^ (Zdigits2 mx - 1 + (ex + 1000))) by (apply Z.pow_le_mono_r; lia).
    rewrite (Z.pow_add_r 2 24) in C by lia. pose proof (pow_pos (E + 1000) ltac:(lia)). nia. }
  assert (VM : V M E = V (M * 2 ^ (E - e1)) e1) by (apply V_up; lia).
  assert (QV : V q e1 <= V M E).
  { rewrite VM. apply V_le; [lia|]. assert (VM' : V M E = V (M * 2 ^ (E - e1) * 2 ^ (e1 - ex)) ex) by (rewrite VM; apply V_up; lia). rewrite VM' in H.
    remember (M * 2 ^ (E - e1)) as B eqn:EB. clear EB VM VM'.
    assert (H' : mx < B * 2 ^ (e1 - ex) \/ (mx = B * 2 ^ (e1 - ex) /\ lx = loc_Exact)).
    { destruct H as [H|[H1 H2]]; [left; apply V_lt in H; lia|right; split; [|exact H2]]. unfold V in H1. apply Z.mul_reg_r in H1; [exact H1|]. pose proof (pow_pos (ex + 1000) ltac:(lia)). lia. }
    destruct H' as [H'|[H1 H2]].
    - assert (mx / 2 ^ (e1 - ex) < B) by (apply Z.div_lt_upper_bound; lia). lia.
    - assert (mx / 2 ^ (e1 - ex) = B) by (rewrite H1; apply Z.div_mul; lia). destruct Q as [Q|[_ Q]]; [lia|]. exfalso. apply Q. split; [exact H2|]. exists B. exact H1. }
  destruct Form as [[_ ->]|(Qp & m & e & ME & Mlt & Mn & ->)].
  - cbn [good S Z.abs]. split; [exact I|]. split; [|destruct s; lia]. unfold V. pose proof (pow_pos (E + 1000) ltac:(lia)). nia.
  - assert (VE : V (Z.pos m) e = V q e1).
    { destruct ME as [[-> ->]|[-> <-]]; [reflexivity|]. unfold V. replace (e1 + 1 + 1000) with (Z.succ (e1 + 1000)) by lia. rewrite Z.pow_succ_r by lia. lia. }
    assert (Le104 : e <= 104).
    { destruct (Z_le_gt_dec e 104) as [X|X]; [exact X|exfalso]. assert (2 ^ 23 <= Z.pos m) by lia. rewrite <- VE in QV.
      unfold V in QV. assert (A : 2 ^ 23 * 2 ^ (e + 1000) <= Z.pos m * 2 ^ (e + 1000)) by (apply Z.mul_le_mono_nonneg_r; [apply Z.pow_nonneg|]; lia).
      assert (C : 2 ^ (1 + (E + 1000)) <= 2 ^ (e + 1000)) by (apply Z.pow_le_mono_r; lia). rewrite (Z.pow_add_r 2 1) in C by lia. pose proof (pow_pos (E + 1000) ltac:(lia)). change (2 ^ 24) with (2 ^ 23 * 2) in BM. nia. }
    replace (e <=? 104) with true by (symmetry; apply Z.leb_le; exact Le104).
    assert (G : good (S754_finite s m e)). { apply bounded_is. split; [|split; [exact Mlt|exact Mn]]. destruct ME as [[-> _]|[-> _]]; lia. }
    split; [exact G|]. pose proof (good_e _ _ _ G). pose proof (V_pos m e ltac:(lia)). unfold S. destruct s; lia.
Qed.

(* What is at least a bound stays so, if it is not too large for a number *)
Lemma round_ge : forall s mx ex lx M E, mant mx ex -> -1000 <= ex -> ex <= fexp 24 128 (Zdigits2 mx + ex) -> bound_ok M E ->
  V M E <= V mx ex -> good (binary_round_aux 24 128 s mx ex lx) ->
  V M E <= Z.abs (S (binary_round_aux 24 128 s mx ex lx)).
Proof.
  intros s mx ex lx M E Mt Le L [BM BE] H G. destruct (mant_range mx ex Mt) as (R0 & R1 & D1 & R).
  destruct (round_form s mx ex lx Mt L) as (q & Q & M149 & Q0 & Form). remember (fexp 24 128 (Zdigits2 mx + ex)) as e1 eqn:E1. rewrite fexp_is in E1.
  pose proof (pow_pos (e1 - ex) ltac:(lia)) as PP.
  assert (QV : V M E <= V q e1).
  { destruct (Z_le_gt_dec e1 E) as [LeE|Gt].
    - rewrite (V_up M e1 E) in H |- * by lia. rewrite (V_up (M * 2 ^ (E - e1)) ex e1) in H by lia. apply V_le in H; [|lia]. apply V_le; [lia|].
      assert (M * 2 ^ (E - e1) <= mx / 2 ^ (e1 - ex)) by (apply Z.div_le_lower_bound; lia). lia.
    - specialize (R ltac:(lia)). assert (N : e1 = Zdigits2 mx + ex - 24) by lia. assert (2 ^ 23 <= mx / 2 ^ (e1 - ex)).
      { apply Z.div_le_lower_bound; [exact PP|]. rewrite <- Z.pow_add_r by lia. replace (e1 - ex + 23) with (Zdigits2 mx - 1) by lia. exact (proj1 R). }
      assert (2 ^ 23 <= q) by lia. rewrite (V_up q E e1) by lia. apply V_le; [lia|].
      assert (2 ^ (e1 - E) = 2 * 2 ^ (e1 - E - 1)) by (rewrite <- Z.pow_succ_r by lia; f_equal; lia). pose proof (pow_pos (e1 - E - 1) ltac:(lia)). change (2 ^ 24) with (2 * 2 ^ 23) in BM. nia. }
  destruct Form as [[Z0 _]|(Qp & m & e & ME & Mlt & Mn & Eq)].
  - exfalso. subst q. unfold V in QV. pose proof (pow_pos (E + 1000) ltac:(lia)). nia.
  - assert (VE : V (Z.pos m) e = V q e1).
    { destruct ME as [[-> ->]|[-> <-]]; [reflexivity|]. unfold V. replace (e1 + 1 + 1000) with (Z.succ (e1 + 1000)) by lia. rewrite Z.pow_succ_r by lia. lia. }
    rewrite Eq in G |- *. destruct (e <=? 104); [|contradiction G]. unfold S. destruct s; lia.
Qed.

(* Shifting left to align *)
Lemma shift_is : forall d m, Z.pos (shift_pos d m) = Z.pos m * 2 ^ Z.pos d.
Proof. intros d m. rewrite shift_pos_correct, Z.mul_comm. reflexivity. Qed.
Lemma align_is : forall m e e', e' <= e -> Z.pos (fst (shl_align m e e')) = Z.pos m * 2 ^ (e - e').
Proof.
  intros m e e' L. unfold shl_align. destruct (e' - e) as [|d|d] eqn:D; cbn [fst]; try lia.
  - replace (e - e') with 0 by lia. lia.
  - rewrite shift_is. do 2 f_equal. lia.
Qed.

Lemma bround_form : forall s p e, -1000 <= e -> exists p' e', binary_round 24 128 s p e = binary_round_aux 24 128 s (Z.pos p') e' loc_Exact /\
  V (Z.pos p') e' = V (Z.pos p) e /\ -1000 <= e' /\ e' <= fexp 24 128 (Zdigits2 (Z.pos p') + e').
Proof.
  intros s p e L. unfold binary_round. change (Z.pos (digits2_pos p)) with (Zdigits2 (Z.pos p)). remember (fexp 24 128 (Zdigits2 (Z.pos p) + e)) as e1 eqn:E1.
  assert (M149 : -149 <= e1) by (rewrite E1, fexp_is; lia). unfold shl_align. destruct (e1 - e) as [|d|d] eqn:D.
  - exists p, e. split; [reflexivity|]. rewrite <- E1. split; [reflexivity|]. lia.
  - exists p, e. split; [reflexivity|]. rewrite <- E1. split; [reflexivity|]. lia.
  - exists (shift_pos d p), e1. split; [reflexivity|]. split; [rewrite shift_is; rewrite (V_up (Z.pos p) e1 e) by lia; do 3 f_equal; lia|]. split; [lia|].
    pose proof (digits_range p) as R. pose proof (digits_pos p).
    assert (Dg : Zdigits2 (Z.pos (shift_pos d p)) = Zdigits2 (Z.pos p) + Z.pos d).
    { apply digits_is; [lia|]. rewrite shift_is. replace (Zdigits2 (Z.pos p) + Z.pos d - 1) with (Zdigits2 (Z.pos p) - 1 + Z.pos d) by lia. rewrite !Z.pow_add_r by lia.
      pose proof (pow_pos (Z.pos d) ltac:(lia)). nia. }
    rewrite Dg. replace (Zdigits2 (Z.pos p) + Z.pos d + e1) with (Zdigits2 (Z.pos p) + e) by lia. lia.
Qed.

Lemma exact_le : forall a b, a <= b -> a < b \/ (a = b /\ loc_Exact = loc_Exact).
Proof. intros a b L. destruct (Z.eq_dec a b); [right; split; [assumption|reflexivity]|left; lia]. Qed.

Lemma norm_le : forall z e sz M E, -1000 <= e -> bound_ok M E -> Z.abs (V z e) <= V M E ->
  let r := binary_normalize 24 128 z e sz in good r /\ Z.abs (S r) <= V M E /\ (0 <= z -> 0 <= S r) /\ (z <= 0 -> S r <= 0).
Proof.
  intros z e sz M E L B H. cbv zeta. destruct z as [|p|p]; cbn [binary_normalize].
  - cbn. cbn in H. split; [exact I|]. lia.
  - destruct (bround_form false p e L) as (p' & e' & -> & W & L' & C). rewrite <- W in H.
    pose proof (V_pos p' e' L'). destruct (round_le false (Z.pos p') e' loc_Exact M E ltac:(left; lia) L' C B ltac:(apply exact_le; lia)) as (G & A & Sg).
    split; [exact G|]. split; [exact A|]. split; [intros _; exact Sg|lia].
  - destruct (bround_form true p e L) as (p' & e' & -> & W & L' & C). replace (V (Z.neg p) e) with (- V (Z.pos p) e) in H by (unfold V; lia). rewrite <- W in H.
    pose proof (V_pos p' e' L'). destruct (round_le true (Z.pos p') e' loc_Exact M E ltac:(left; lia) L' C B ltac:(apply exact_le; lia)) as (G & A & Sg).
    split; [exact G|]. split; [exact A|]. split; [lia|intros _; exact Sg].
Qed.
Lemma norm_ge : forall z e sz M E, -1000 <= e -> bound_ok M E -> V M E <= Z.abs (V z e) -> let r := binary_normalize 24 128 z e sz in good r -> V M E <= Z.abs (S r).
Proof.
  intros z e sz M E L B H. cbv zeta. destruct z as [|p|p]; cbn [binary_normalize].
  - intros _. cbn in H |- *. exact H.
  - destruct (bround_form false p e L) as (p' & e' & -> & W & L' & C). rewrite <- W in H. pose proof (V_pos p' e' L').
    apply (round_ge false (Z.pos p') e' loc_Exact M E ltac:(left; lia) L' C B). lia.
  - destruct (bround_form true p e L) as (p' & e' & -> & W & L' & C). replace (V (Z.neg p) e) with (- V (Z.pos p) e) in H by (unfold V; lia). rewrite <- W in H. pose proof (V_pos p' e' L').
    apply (round_ge true (Z.pos p') e' loc_Exact M E ltac:(left; lia) L' C B). lia.
Qed.

Lemma S_align : forall s m e ez, -1000 <= ez <= e -> V (cond_Zopp s (Z.pos (fst (shl_align m e ez)))) ez = S (S754_finite s m e).
Proof. intros s m e ez L. rewrite align_is by lia. unfold S. rewrite (V_up (Z.pos m) ez e) by lia. unfold V, cond_Zopp. destruct s; lia. Qed.

Lemma add_le : forall x y M E, good x -> good y -> bound_ok M E -> Z.abs (S x + S y) <= V M E ->
  let r := f32_add x y in good r /\ Z.abs (S r) <= V M E /\ (0 <= S x + S y -> 0 <= S r) /\ (S x + S y <= 0 -> S r <= 0).
Proof.
  intros x y M E Gx Gy B H. cbv zeta. unfold f32_add. destruct x as [sx|sx| |sx mx ex], y as [sy|sy| |sy my ey]; try contradiction Gx; try contradiction Gy; cbn [SFadd].
  - destruct (Bool.eqb sx sy); cbn in *; (split; [exact I|]; lia).
  - split; [exact Gy|]. change (S (S754_zero sx)) with 0 in *. lia.
  - split; [exact Gx|]. change (S (S754_zero sy)) with 0 in *. lia.
  - pose proof (good_e _ _ _ Gx). pose proof (good_e _ _ _ Gy). remember (Z.min ex ey) as ez eqn:Ez.
    rewrite <- (S_align sx mx ex ez) in * by lia. rewrite <- (S_align sy my ey ez) in * by lia.
    remember (cond_Zopp sx _) as a eqn:EA. remember (cond_Zopp sy _) as b eqn:EB. clear EA EB.
    replace (V a ez + V b ez) with (V (a + b) ez) in * by (unfold V; lia). pose proof (norm_le (a + b) ez false M E ltac:(lia) B H) as (G & A & P1 & P2).
    split; [exact G|]. split; [exact A|]. unfold V at 1 2. pose proof (pow_pos (ez + 1000) ltac:(lia)). split; intros Y; [apply P1|apply P2]; nia.
Qed.

Lemma opp_S : forall x, S (SFopp x) = - S x.
Proof. intros [s|s| |s m e]; try reflexivity. unfold SFopp, S. destruct s; cbn [negb]; lia. Qed.
Lemma opp_good : forall x, good (SFopp x) <-> good x.
Proof. intros [s|s| |s m e]; cbn; tauto. Qed.

Lemma sub_is : forall x y, good x -> good y -> f32_sub x y = f32_add x (SFopp y).
Proof.
  intros x y Gx Gy. unfold f32_sub, f32_add. destruct x as [sx|sx| |sx mx ex], y as [sy|sy| |sy my ey]; try contradiction Gx; try contradiction Gy; cbn [SFsub SFadd SFopp]; try reflexivity.
  f_equal. destruct sy; cbn [cond_Zopp negb]; lia.
Qed.
Lemma sub_le : forall x y M E, good x -> good y -> bound_ok M E -> Z.abs (S x - S y) <= V M E ->
  let r := f32_sub x y in good r /\ Z.abs (S r) <= V M E /\ (0 <= S x - S y -> 0 <= S r) /\ (S x - S y <= 0 -> S r <= 0).
Proof.
  intros x y M E Gx Gy B H. cbv zeta. rewrite (sub_is x y Gx Gy). pose proof (add_le x (SFopp y) M E Gx (proj2 (opp_good y) Gy) B) as A. cbv zeta in A. rewrite opp_S in A.
  replace (S x + - S y) with (S x - S y) in A by lia. exact (A H).
Qed.

(* A product with a number of full precision *)
Definition full (f : spec_float) : Prop := match f with S754_finite _ m _ => 2 ^ 23 <= Z.pos m | _ => False end.

Lemma digits_more : forall p k, 2 ^ k <= Z.pos p -> 0 <= k -> k + 1 <= Zdigits2 (Z.pos p).
Proof.
  intros p k L K. pose proof (digits_range p) as [_ R]. pose proof (digits_pos p). destruct (Z_le_gt_dec (k + 1) (Zdigits2 (Z.pos p))) as [X|X]; [exact X|exfalso].
  assert (2 ^ Zdigits2 (Z.pos p) <= 2 ^ k) by (apply Z.pow_le_mono_r; lia). lia.
Qed.

Lemma mul_le : forall x y M E, good x -> good y -> full y -> bound_ok M E -> Z.abs (S x) * Z.abs (S y) <= V M E * 2 ^ 1000 ->
  let r := f32_mul x y in good r /\ Z.abs (S r) <= V M E.
Proof.
  intros x y M E Gx Gy Fy B H. cbv zeta. unfold f32_mul. destruct y as [sy|sy| |sy my ey]; try (exfalso; exact Fy). destruct x as [sx|sx| |sx mx ex]; try contradiction Gx; cbn [SFmul].
  - split; [exact I|]. change (0 <= V M E). destruct B as [B1 B2]. unfold V. pose proof (pow_pos (E + 1000) ltac:(lia)). nia.
  - pose proof (good_e _ _ _ Gx). pose proof (good_e _ _ _ Gy). cbn [full] in Fy.
    assert (A : V (Z.pos (mx * my)) (ex + ey) <= V M E).
    { pose proof (pow_pos 1000 ltac:(lia)). assert (X : V (Z.pos (mx * my)) (ex + ey) * 2 ^ 1000 = Z.abs (S (S754_finite sx mx ex)) * Z.abs (S (S754_finite sy my ey))).
      { pose proof (V_pos mx ex ltac:(lia)). pose proof (V_pos my ey ltac:(lia)). unfold S. replace (Z.abs (if sx then - V (Z.pos mx) ex else V (Z.pos mx) ex)) with (V (Z.pos mx) ex) by (destruct sx; lia).
        replace (Z.abs (if sy then - V (Z.pos my) ey else V (Z.pos my) ey)) with (V (Z.pos my) ey) by (destruct sy; lia). unfold V. rewrite Pos2Z.inj_mul.
        replace (Z.pos mx * Z.pos my * 2 ^ (ex + ey + 1000) * 2 ^ 1000) with (Z.pos mx * Z.pos my * (2 ^ (ex + ey + 1000) * 2 ^ 1000)) by lia.
        replace (Z.pos mx * 2 ^ (ex + 1000) * (Z.pos my * 2 ^ (ey + 1000))) with (Z.pos mx * Z.pos my * (2 ^ (ex + 1000) * 2 ^ (ey + 1000))) by lia.
        rewrite <- !Z.pow_add_r by lia. do 2 f_equal. lia. }
      nia. }
    assert (D : 24 <= Zdigits2 (Z.pos (mx * my))) by (apply (digits_more (mx * my) 23); [rewrite Pos2Z.inj_mul; nia|lia]).
    destruct (round_le (xorb sx sy) (Z.pos (mx * my)) (ex + ey) loc_Exact M E ltac:(left; lia) ltac:(lia) ltac:(rewrite fexp_is; lia) B (exact_le _ _ A)) as (G & L & _).
    split; [exact G|exact L].
Qed.

(* Division *)
Lemma location_exact : forall n k, new_location n k = loc_Exact <-> k = 0.
Proof.
  intros n k. unfold new_location, new_location_even, new_location_odd. destruct (Z.even n); destruct (Zeq_bool k 0) eqn:Z.
  - apply Zeq_bool_eq in Z. tauto.
  - apply Zeq_bool_neq in Z. split; [discriminate|tauto].
  - apply Zeq_bool_eq in Z. tauto.
  - apply Zeq_bool_neq in Z. split; [discriminate|tauto].
Qed.

Lemma div_form : forall m1 e1 m2 e2, -149 <= e1 <= 104 -> -149 <= e2 <= 104 -> exists q e l r,
  SFdiv_core_binary 24 128 (Z.pos m1) e1 (Z.pos m2) e2 = (q, e, l) /\ mant q e /\ -1000 <= e /\ e <= fexp 24 128 (Zdigits2 q + e) /\
  0 <= r < V (Z.pos m2) e2 /\ V (Z.pos m1) e1 * 2 ^ 1000 = V q e * V (Z.pos m2) e2 + r * 2 ^ (e + 1000) /\ (l = loc_Exact <-> r = 0).
Proof.
  intros m1 e1 m2 e2 L1 L2. unfold SFdiv_core_binary. pose proof (digits_range m1) as R1. pose proof (digits_range m2) as R2. pose proof (digits_pos m1) as P1. pose proof (digits_pos m2) as P2.
  remember (Zdigits2 (Z.pos m1)) as d1 eqn:D1. remember (Zdigits2 (Z.pos m2)) as d2 eqn:D2. rewrite fexp_is.
  assert (Up1 : d1 <= 1000 \/ 1000 < d1) by lia.
  remember (Z.min (Z.max (d1 + e1 - (d2 + e2) - 24) (-149)) (e1 - e2)) as e' eqn:E'.
  remember (e1 - e2 - e') as s eqn:Es. assert (0 <= s) by lia.
  replace (match s with Z0 => Z.pos m1 | Z.pos _ => Z.shiftl (Z.pos m1) s | Z.neg _ => 0 end) with (Z.pos m1 * 2 ^ s) by (destruct s; [lia|rewrite Z.shiftl_mul_pow2 by lia; reflexivity|lia]).
  assert (PE : Z.div_eucl (Z.pos m1 * 2 ^ s) (Z.pos m2) = ((Z.pos m1 * 2 ^ s) / Z.pos m2, (Z.pos m1 * 2 ^ s) mod Z.pos m2)) by (unfold Z.div, Z.modulo; destruct (Z.div_eucl _ _); reflexivity).
  rewrite PE. clear PE.
  pose proof (Z.div_mod (Z.pos m1 * 2 ^ s) (Z.pos m2) ltac:(lia)) as DM. pose proof (Z.mod_pos_bound (Z.pos m1 * 2 ^ s) (Z.pos m2) ltac:(lia)) as MB.
  remember (Z.pos m1 * 2 ^ s / Z.pos m2) as q eqn:Q. remember ((Z.pos m1 * 2 ^ s) mod Z.pos m2) as r eqn:R.
  assert (Q0 : 0 <= q) by (rewrite Q; apply Z.div_pos; [pose proof (pow_pos s ltac:(lia)); nia|lia]).
  assert (Low : -1000 <= e') by lia.
  exists q, e', (new_location (Z.pos m2) r), (r * 2 ^ (e2 + 1000)). split; [reflexivity|].
  (* digits of the quotient *)
  assert (Big : e' <= d1 + e1 - d2 - e2 - 24 -> 2 ^ 23 <= q).
  { intros X. rewrite Q. apply Z.div_le_lower_bound; [lia|]. assert (A : 2 ^ (d1 - 1) * 2 ^ s <= Z.pos m1 * 2 ^ s) by (apply Z.mul_le_mono_nonneg_r; [apply Z.pow_nonneg; lia|exact (proj1 R1)]).
    rewrite <- Z.pow_add_r in A by lia. assert (C : Z.pos m2 * 2 ^ 23 <= 2 ^ d2 * 2 ^ 23) by (apply Z.mul_le_mono_nonneg_r; [lia|]; lia). rewrite <- Z.pow_add_r in C by lia.
    assert (2 ^ (d2 + 23) <= 2 ^ (d1 - 1 + s)) by (apply Z.pow_le_mono_r; lia). lia. }
  assert (Dq : e' <= Z.max (Zdigits2 q + e' - 24) (-149)).
  { destruct (Z_le_gt_dec e' (-149)) as [X|X]; [lia|]. specialize (Big ltac:(lia)). destruct q as [|p|p]; try lia. pose proof (digits_more p 23 Big ltac:(lia)). lia. }
  split. { unfold mant. destruct (Z_le_gt_dec e' (-149)) as [X|X]; [lia|]. specialize (Big ltac:(lia)). lia. }
  split; [exact Low|]. rewrite fexp_is. split; [exact Dq|]. pose proof (pow_pos (e2 + 1000) ltac:(lia)) as PP.
  split. { unfold V. clear - MB PP. split; [apply Z.mul_nonneg_nonneg; lia|apply Z.mul_lt_mono_pos_r; lia]. }
  split.
  { unfold V. replace (Z.pos m1 * 2 ^ (e1 + 1000) * 2 ^ 1000) with (Z.pos m1 * 2 ^ s * (2 ^ (e' + 1000) * 2 ^ (e2 + 1000))).
    - rewrite DM. lia.
    - rewrite <- Z.mul_assoc, <- Z.mul_assoc. f_equal. rewrite <- !Z.pow_add_r by lia. f_equal. lia. }
  rewrite location_exact. nia.
Qed.

Lemma div_le : forall x y M E, good x -> good y -> S y <> 0 -> bound_ok M E -> Z.abs (S x) * 2 ^ 1000 <= V M E * Z.abs (S y) ->
  let r := f32_div x y in good r /\ Z.abs (S r) <= V M E /\ (0 < S x -> 0 < S y -> 0 <= S r).
Proof.
  intros x y M E Gx Gy Ny B H. cbv zeta. unfold f32_div. destruct y as [sy|sy| |sy my ey]; try contradiction Gy; [exfalso; apply Ny; reflexivity|].
  destruct x as [sx|sx| |sx mx ex]; try contradiction Gx; cbn [SFdiv].
  - split; [exact I|]. split; [|intros _ _; reflexivity]. change (0 <= V M E). destruct B as [B1 B2]. unfold V. pose proof (pow_pos (E + 1000) ltac:(lia)). nia.
  - pose proof (good_e _ _ _ Gx). pose proof (good_e _ _ _ Gy). destruct (div_form mx ex my ey ltac:(assumption) ltac:(assumption)) as (q & e & l & r & -> & Mt & Lo & C & Rr & Eq & Ex).
    pose proof (V_pos mx ex ltac:(lia)). pose proof (V_pos my ey ltac:(lia)) as Py. unfold S in H.
    replace (Z.abs (if sx then - V (Z.pos mx) ex else V (Z.pos mx) ex)) with (V (Z.pos mx) ex) in H by (destruct sx; lia).
    replace (Z.abs (if sy then - V (Z.pos my) ey else V (Z.pos my) ey)) with (V (Z.pos my) ey) in H by (destruct sy; lia).
    pose proof (pow_pos (e + 1000) ltac:(lia)) as Pe.
    assert (A : V q e < V M E \/ V q e = V M E /\ l = loc_Exact).
    { rewrite Eq in H. destruct (Z.eq_dec r 0) as [R0|R0].
      - apply Ex in R0 as L0. subst l. apply exact_le. subst r. nia.
      - left. assert (0 < r * 2 ^ (e + 1000)) by nia. nia. }
    destruct (round_le (xorb sx sy) q e l M E Mt Lo C B A) as (G & L & Sg). split; [exact G|]. split; [exact L|]. unfold S at 1 2. destruct sx, sy; cbn [xorb] in *; lia.
Qed.
Lemma div_ge : forall x y M E, good x -> good y -> S x <> 0 -> S y <> 0 -> bound_ok M E -> V M E * Z.abs (S y) <= Z.abs (S x) * 2 ^ 1000 ->
  let r := f32_div x y in good r -> V M E <= Z.abs (S r).
Proof.
  intros x y M E Gx Gy Nx Ny B H. cbv zeta. unfold f32_div. destruct y as [sy|sy| |sy my ey]; try contradiction Gy; [exfalso; apply Ny; reflexivity|].
  destruct x as [sx|sx| |sx mx ex]; try contradiction Gx; cbn [SFdiv].
  - exfalso. apply Nx. reflexivity.
  - pose proof (good_e _ _ _ Gx). pose proof (good_e _ _ _ Gy). destruct (div_form mx ex my ey ltac:(assumption) ltac:(assumption)) as (q & e & l & r & -> & Mt & Lo & C & Rr & Eq & Ex).
    pose proof (V_pos mx ex ltac:(lia)). pose proof (V_pos my ey ltac:(lia)) as Py. unfold S in H.
    replace (Z.abs (if sx then - V (Z.pos mx) ex else V (Z.pos mx) ex)) with (V (Z.pos mx) ex) in H by (destruct sx; lia).
    replace (Z.abs (if sy then - V (Z.pos my) ey else V (Z.pos my) ey)) with (V (Z.pos my) ey) in H by (destruct sy; lia).
    pose proof (pow_pos (e + 1000) ltac:(lia)) as Pe. intros G.
    destruct (Z_le_gt_dec (V M E) (V q e)) as [A|A]; [exact (round_ge (xorb sx sy) q e l M E Mt Lo C B A G)|].
    (* the bound is between the quotient cut off and the quotient: only if it is finer than the quotient *)
    exfalso. rewrite Eq in H. destruct B as [B1 B2].
    destruct (Z_le_gt_dec e E) as [LE|LE].
    + rewrite (V_up M e E) in H, A by lia. apply Z.gt_lt, V_lt in A; [|lia]. assert (V (q + 1) e <= V (M * 2 ^ (E - e)) e) by (apply V_le; lia).
      replace (V (q + 1) e) with (V q e + 2 ^ (e + 1000)) in * by (unfold V; lia). nia.
    + assert (e > -149) by lia. rewrite fexp_is in C. destruct (mant_range q e Mt) as (Q0 & _ & _ & Dq). rewrite fexp_is in Dq. specialize (Dq ltac:(lia)).
      assert (2 ^ 23 <= q). { assert (2 ^ 23 <= 2 ^ (Zdigits2 q - 1)) by (apply Z.pow_le_mono_r; lia). lia. }
      rewrite (V_up q E e) in A by lia. apply Z.gt_lt, V_lt in A; [|lia]. assert (2 ^ (e - E) = 2 * 2 ^ (e - E - 1)) by (rewrite <- Z.pow_succ_r by lia; f_equal; lia).
      pose proof (pow_pos (e - E - 1) ltac:(lia)). change (2 ^ 24) with (2 * 2 ^ 23) in B1. nia.
Qed.
