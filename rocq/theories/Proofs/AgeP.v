(* The age of a group within a buffer of bits, in milliseconds, computed in binary64. *)
From Verif.Model Require Import Base Float Channel.
From Verif.Proofs Require Import Tac FloatP.
From Coq Require Import SpecFloat.

Local Open Scope Z_scope.

(* Rounding to nearest: off by at most one part in 2^52 *)
Lemma aux_near : forall mx ex lx, 2 ^ 52 <= mx < 2 ^ 200 -> -700 <= ex <= 700 ->
  exists m e V, binary_round_aux 53 1024 false mx ex lx = S754_finite false m e /\ ex <= e <= ex + 250 /\
    V = Z.pos m * 2 ^ (e - ex) /\ Z.abs (V - mx) * 2 ^ 52 <= mx /\ Z.pos m < 2 ^ 53.
Proof.
  intros mx ex lx [H1 H2] He. assert (H : 0 < mx) by lia.
  pose proof (Zdigits2_pos mx H) as [_ [D1 D2]]. remember (Zdigits2 mx) as d eqn:Ed.
  assert (Hd : 53 <= d <= 200).
  { split.
    - destruct (Z_le_gt_dec 53 d); [assumption|]. assert (2 ^ d <= 2 ^ 52) by (apply Z.pow_le_mono_r; lia). lia.
    - destruct (Z_le_gt_dec d 200); [assumption|]. assert (2 ^ 200 <= 2 ^ (d - 1)) by (apply Z.pow_le_mono_r; lia). lia. }
  assert (N0 : shift_amount 53 1024 mx ex = d - 53) by (unfold shift_amount, fexp, emin; lia).
  set (n := d - 53) in *. assert (P : 0 < 2 ^ n) by (apply pow2_pos; lia).
  assert (Q : 2 ^ 52 <= mx / 2 ^ n).
  { apply Z.div_le_lower_bound; [lia|]. rewrite <- Z.pow_add_r by lia. replace (n + 52) with (d - 1) by lia. lia. }
  destruct (bra_spec 53 1024 false mx ex lx) as (m & k & E & Hk & Hv & _ & F); rewrite ?N0 in *; [lia|lia|lia|lia|].
  exists m, (ex + n + k), (Z.pos m * 2 ^ k * 2 ^ n). split; [exact E|]. split; [lia|]. split.
  { rewrite <- Z.mul_assoc, <- Z.pow_add_r by lia. f_equal. f_equal. lia. }
  split.
  - pose proof (Z.div_mod mx (2 ^ n) ltac:(lia)) as DM. pose proof (Z.mod_pos_bound mx (2 ^ n) P) as MB.
    set (f := 2 ^ n) in *. set (q := mx / f) in *. clearbody f q. clear - Hv DM MB Q P. change (2 ^ 52) with 4503599627370496 in *. nia.
  - pose proof (Zdigits2_pos (Z.pos m) ltac:(lia)) as [_ [_ D]]. cbn [Zdigits2] in D. unfold fexp in F.
    assert (2 ^ Z.pos (digits2_pos m) <= 2 ^ 53) by (apply Z.pow_le_mono_r; lia). lia.
Qed.

(* A whole number as a normalised binary64 *)
Lemma of_Z_normal : forall z, 0 < z < 2 ^ 53 -> exists m e, f64_of_Z z = S754_finite false m e /\ 2 ^ 52 <= Z.pos m < 2 ^ 53 /\ -52 <= e <= 0 /\ Z.pos m = z * 2 ^ (- e).
Proof.
  intros z H. unfold f64_of_Z, binary_normalize. destruct z as [|p|]; [lia| |lia]. unfold binary_round, shl_align.
  pose proof (digits2_bounds p) as B. remember (Z.pos (digits2_pos p)) as d eqn:Ed.
  assert (Hd : 1 <= d <= 53) by (split; [lia|subst d; apply digits2_le; lia]).
  assert (F : fexp 53 1024 (d + 0) = d - 53) by (unfold fexp, emin; lia). rewrite F.
  set (p' := fst (match d - 53 - 0 with Z.neg q => (shift_pos q p, d - 53) | _ => (p, 0) end)).
  assert (E : (match d - 53 - 0 with Z.neg q => (shift_pos q p, d - 53) | _ => (p, 0) end) = (p', d - 53) /\ Z.pos p' = Z.pos p * 2 ^ (53 - d)).
  { subst p'. destruct (d - 53 - 0) as [|q|q] eqn:Q; [| lia|].
    - replace (53 - d) with 0 by lia. replace (d - 53) with 0 by lia. split; [reflexivity|cbn [fst]; lia].
    - split; [reflexivity|]. cbn [fst]. rewrite shift_pos_correct. change (Z.pow_pos 2 q) with (2 ^ Z.pos q). replace (53 - d) with (Z.pos q) by lia. lia. }
  destruct E as [E Ep]. rewrite E. clear E. clearbody p'. pose proof (shift_exact p d Hd B) as R. rewrite <- Ep in R.
  assert (D : Z.pos (digits2_pos p') = 53) by (apply digits2_unique; exact R).
  destruct (bra_spec 53 1024 false (Z.pos p') (d - 53) loc_Exact) as (m & k & E & _ & _ & Hx & _); [lia|lia| | |].
  - unfold shift_amount. cbn [Zdigits2]. rewrite D. unfold fexp, emin. rewrite Z.max_l by lia. rewrite Z.div_1_r. lia.
  - unfold shift_amount. cbn [Zdigits2]. rewrite D. unfold fexp, emin. lia.
  - assert (N0 : shift_amount 53 1024 (Z.pos p') (d - 53) = 0) by (unfold shift_amount; cbn [Zdigits2]; rewrite D; unfold fexp, emin; lia).
    rewrite N0 in *. change (2 ^ 0) with 1 in Hx. rewrite Z.div_1_r in Hx. destruct (Hx eq_refl (Z.mod_1_r _)) as [-> Em].
    exists m, (d - 53). split; [rewrite E; f_equal; lia|]. rewrite Em. split; [exact R|]. split; [lia|]. replace (- (d - 53)) with (53 - d) by lia. exact Ep.
Qed.

(* n bits last 16 n / 19 milliseconds; the result is at most one less *)
Lemma age_near : forall n, (n < 2 ^ 40)%N -> exists a, bit_age_ms n = Ok a /\ 16 * Z.of_N n - 19 <= 19 * a <= 16 * Z.of_N n /\ 0 <= a.
Proof.
  intros n H. destruct (N.eq_dec n 0) as [->|Nz]; [exists 0; split; [vm_compute; reflexivity|lia]|]. unfold bit_age_ms.
  set (z := Z.of_N n). assert (Hz : 0 < z < 2 ^ 40) by (change (2 ^ 40) with (Z.of_N (2 ^ 40)); lia). clearbody z. clear n H Nz.
  destruct (of_Z_normal z) as (m1 & e1 & E1 & M1 & X1 & V1); [change (2 ^ 40) with 1099511627776 in Hz; change (2 ^ 53) with 9007199254740992; lia|].
  assert (E4 : f64_of_Z 1000 = S754_finite false 8796093022208000 (-43)) by (vm_compute; reflexivity). rewrite E1, E4. unfold f64_1187_5, f64_div. cbn [SFdiv xorb].
  unfold SFdiv_core_binary. cbv zeta. change (Zdigits2 5222680231936000) with 53.
  assert (D1 : Zdigits2 (Z.pos m1) = 53) by (cbn [Zdigits2]; apply digits2_unique; exact M1). rewrite D1.
  assert (Em : Z.min (fexp 53 1024 (53 + e1 - (53 + -42))) (e1 - -42) = e1 - 11) by (unfold fexp, emin; lia). rewrite Em. clear Em.
  replace (e1 - -42 - (e1 - 11)) with 53 by lia. cbv iota. rewrite Z.shiftl_mul_pow2 by lia.
  rewrite (surjective_pairing (Z.div_eucl (Z.pos m1 * 2 ^ 53) 5222680231936000)).
  change (fst (Z.div_eucl (Z.pos m1 * 2 ^ 53) 5222680231936000)) with (Z.pos m1 * 2 ^ 53 / 5222680231936000).
  set (lz := new_location _ _). clearbody lz. remember (Z.pos m1 * 2 ^ 53 / 5222680231936000) as q eqn:Eq.
  assert (Bq : q * 5222680231936000 <= Z.pos m1 * 2 ^ 53 < (q + 1) * 5222680231936000).
  { pose proof (Z.div_mod (Z.pos m1 * 2 ^ 53) 5222680231936000 ltac:(lia)). pose proof (Z.mod_pos_bound (Z.pos m1 * 2 ^ 53) 5222680231936000 ltac:(lia)). lia. }
  clear Eq. change (2 ^ 53) with 9007199254740992 in *. change (2 ^ 52) with 4503599627370496 in *.
  destruct (aux_near q (e1 - 11) lz) as (m3 & e3 & V3 & E3 & X3 & EV3 & A3 & M3).
  { split; [change (2 ^ 52) with 4503599627370496; lia|]. apply Z.lt_le_trans with (2 ^ 60); [change (2 ^ 60) with 1152921504606846976; lia|apply Z.pow_le_mono_r; lia]. }
  { lia. }
  rewrite E3. clear E3. unfold f64_mul. cbn [SFmul xorb].
  destruct (aux_near (Z.pos (m3 * 8796093022208000)) (e3 + -43) loc_Exact) as (m5 & e5 & V5 & E5 & X5 & EV5 & A5 & M5).
  { rewrite Pos2Z.inj_mul. split; [change (2 ^ 52) with 4503599627370496; lia|]. change (2 ^ 53) with 9007199254740992 in M3. apply Z.lt_le_trans with (2 ^ 120); [change (2 ^ 120) with 1329227995784915872903807060280344576; lia|apply Z.pow_le_mono_r; lia]. }
  { lia. }
  rewrite E5. clear E5. cbn [sf_trunc]. rewrite Pos2Z.inj_mul in A5. change (2 ^ 52) with 4503599627370496 in *.
  (* everything in units of 2 ^ (e1 - 54) *)
  set (U := 54 - e1).
  assert (W3 : V3 = Z.pos m3 * 2 ^ (e3 - (e1 - 11))) by exact EV3.
  assert (W5 : V5 * 2 ^ (e3 - (e1 - 11)) = Z.pos m5 * 2 ^ (e5 + U)).
  { rewrite EV5, <- Z.mul_assoc, <- Z.pow_add_r by lia. f_equal. f_equal. unfold U. lia. }
  assert (A5' : Z.abs (V5 * 2 ^ (e3 - (e1 - 11)) - V3 * 8796093022208000) * 4503599627370496 <= V3 * 8796093022208000).
  { rewrite W3. assert (P : 0 < 2 ^ (e3 - (e1 - 11))) by (apply pow2_pos; lia). set (f := 2 ^ (e3 - (e1 - 11))) in *. clearbody f. clear - A5 P.
    replace (V5 * f - Z.pos m3 * f * 8796093022208000) with ((V5 - Z.pos m3 * 8796093022208000) * f) by ring. rewrite Z.abs_mul, (Z.abs_eq f) by lia. nia. }
  rewrite W5 in A5'. clear W5 A5 EV5 W3 EV3. remember (Z.pos m5 * 2 ^ (e5 + U)) as T eqn:ET.
  (* the result is T / 2 ^ U *)
  assert (R : (if 0 <=? e5 then Z.pos m5 * 2 ^ e5 else Z.pos m5 / 2 ^ (- e5)) = T / 2 ^ U).
  { assert (PU : 0 < 2 ^ U) by (apply pow2_pos; lia). rewrite ET. destruct (Z.leb_spec 0 e5) as [L|L].
    - rewrite Z.pow_add_r, Z.mul_assoc, Z.div_mul by lia. reflexivity.
    - replace (2 ^ U) with (2 ^ (- e5) * 2 ^ (e5 + U)) by (rewrite <- Z.pow_add_r by lia; f_equal; lia).
      symmetry. apply Z.div_mul_cancel_r; [pose proof (pow2_pos (- e5)); lia|pose proof (pow2_pos (e5 + U)); lia]. }
  rewrite R. clear R ET. exists (T / 2 ^ U). split; [reflexivity|].
  assert (PU : 2 ^ U = 2 ^ (- e1) * 18014398509481984) by (unfold U; change 18014398509481984 with (2 ^ 54); rewrite <- Z.pow_add_r by lia; f_equal; lia).
  assert (P1 : 0 < 2 ^ (- e1)) by (apply pow2_pos; lia). set (f := 2 ^ (- e1)) in *. clearbody f.
  assert (PU' : 0 < 2 ^ U) by lia. pose proof (Z.div_mod T (2 ^ U) ltac:(lia)) as DM. pose proof (Z.mod_pos_bound T (2 ^ U) PU') as MB.
  remember (T / 2 ^ U) as a eqn:Ea. rewrite PU in *. clear PU Ea. change (2 ^ 40) with 1099511627776 in Hz.
  remember (T mod (f * 18014398509481984)) as r eqn:Er. clear Er.
  clear X3 X5 M3 M5 m3 m5 e3 e5 V5 D1 E1 E4 X1 lz PU' U.
  (* Q = 2^53 m1 / m2 lies in [q, q+1); V3 within 1 / 2^52 of q; T within 1 / 2^52 of 1000 * 2^43 V3 *)
  assert (Hf : Z.pos m1 <= f * 1099511627776) by (rewrite V1; nia).
  assert (T1 : 19 * T <= 16 * Z.pos m1 * 18014398509481984 + f * 9007199254740992) by (clear - Hf M1 Bq A3 A5'; lia).
  assert (T2 : 16 * Z.pos m1 * 18014398509481984 - f * 9007199254740992 <= 19 * T) by (clear - Hf M1 Bq A3 A5'; lia).
  rewrite V1 in T1, T2. remember (f * 18014398509481984) as F eqn:EF. assert (HF : 0 < F) by lia.
  replace (16 * (z * f) * 18014398509481984) with (16 * z * F) in T1, T2 by (rewrite EF; ring). replace (f * 9007199254740992) with (F / 2) in T1, T2 by (rewrite EF; replace (f * 18014398509481984) with (f * 9007199254740992 * 2) by ring; rewrite Z.div_mul by lia; reflexivity).
  assert (Hh : 2 * (F / 2) <= F) by (apply Z.mul_div_le; lia). remember (F / 2) as h eqn:Eh. clear Eh EF V1 M1 Bq A3 A5' Hf.
  assert (C1 : 19 * a <= 16 * z).
  { assert (2 * (19 * a - 16 * z) * F <= 1 * F) by lia. assert (2 * (19 * a - 16 * z) <= 1) by (apply (Z.mul_le_mono_pos_r _ _ F HF); assumption). lia. }
  assert (C2 : 16 * z - 19 <= 19 * a).
  { assert ((-1) * F < 2 * (19 * (a + 1) - 16 * z) * F) by lia. assert (-1 < 2 * (19 * (a + 1) - 16 * z)) by (apply (Z.mul_lt_mono_pos_r F _ _ HF); assumption). lia. }
  lia.
Qed.
