(* The biphase decoder recovers the bits. *)
From Verif.Model Require Import Base Util Float Group Options Input Dsp Main.
From Verif.Spec Require Import Inputs Biphase Demod.
From Verif.Proofs Require Import Tac FixedP DspP.
Local Open Scope list_scope.

Lemma decode_app : forall a b dec, decode_symbols dec (a ++ b) =
  ('(dec, x) <- decode_symbols dec a ;; '(dec, y) <- decode_symbols dec b ;; Ok (dec, x ++ y)).
Proof.
  induction a as [|s a IH]; intros b dec.
  - cbn [app decode_symbols bind]. destruct (decode_symbols dec b) as [[d y]| |]; reflexivity.
  - cbn [app decode_symbols]. destruct (decode_symbol dec s) as [[d x]| |]; cbn [bind]; [|reflexivity|reflexivity]. rewrite IH.
    destruct (decode_symbols d a) as [[d1 x1]| |]; cbn [bind]; [|reflexivity|reflexivity]. destruct (decode_symbols d1 b) as [[d2 x2]| |]; cbn [bind]; [|reflexivity|reflexivity].
    rewrite app_assoc. reflexivity.
Qed.

Lemma last_first : forall (a : list Z) z p, last (z :: a) p = last a z.
Proof.
  induction a as [|y a IH]; intros z p; [reflexivity|]. change (last (z :: y :: a) p) with (last (y :: a) p). rewrite !IH. reflexivity.
Qed.
Lemma steps_app : forall a b p, steps p (a ++ b) = steps p a ++ steps (last a p) b.
Proof.
  induction a as [|z a IH]; intros b p; [reflexivity|]. cbn [app steps]. rewrite IH. f_equal. f_equal. f_equal.
  rewrite last_first. reflexivity.
Qed.
Lemma steps_length : forall zs p, length (steps p zs) = length zs.
Proof. induction zs as [|z zs IH]; intros p; [reflexivity|]. cbn [steps length]. rewrite IH. reflexivity. Qed.
Local Open Scope Z_scope.
Lemma steps_range : forall zs p, -32768 <= p <= 32768 -> moderate zs -> Forall (fun x => 0 <= x <= 65536) (steps p zs).
Proof.
  induction zs as [|z zs IH]; intros p Hp M; [constructor|]. apply Forall_cons_iff in M. destruct M as [Mz M]. cbn [steps]. constructor; [lia|]. apply IH; assumption.
Qed.
Lemma last_range : forall zs p, -32768 <= p <= 32768 -> moderate zs -> -32768 <= last zs p <= 32768.
Proof.
  induction zs as [|z zs IH]; intros p Hp M; [exact Hp|]. apply Forall_cons_iff in M. destruct M as [Mz M]. destruct zs as [|y zs]; [exact Mz|]. apply (IH p Hp M).
Qed.
Lemma alternate_range : forall l, Forall (fun x => 0 <= x <= 65536) l -> 0 <= fst (alternate l) <= 65536 * Z.of_nat (length l) /\ 0 <= snd (alternate l) <= 65536 * Z.of_nat (length l).
Proof.
  induction l as [|x l IH]; intros F; [cbn; lia|]. apply Forall_cons_iff in F. destruct F as [Fx F]. specialize (IH F). cbn [alternate length]. destruct (alternate l) as [a b]. cbn [fst snd] in *. lia.
Qed.
Lemma sums_fixed : forall v l i a b, unit_ok v -> Forall (fun x => 0 <= x <= 65536) l -> 0 <= a -> 0 <= b ->
  a + b + 65536 * Z.of_nat (length l) < 2 ^ 24 ->
  phase_sums (map (fixed v) l) i (fixed v a) (fixed v b) =
  if (i mod 2 =? 0)%N then (fixed v (a + fst (alternate l)), fixed v (b + snd (alternate l)))
  else (fixed v (a + snd (alternate l)), fixed v (b + fst (alternate l))).
Proof.
  intros v l. induction l as [|x l IH]; intros i a b U F Pa Pb L.
  - cbn [map phase_sums alternate fst snd]. rewrite !Z.add_0_r. destruct (_ =? 0)%N; reflexivity.
  - apply Forall_cons_iff in F. destruct F as [Fx F]. cbn [length] in L. cbn [map phase_sums]. cbn [alternate].
    assert (M : (i mod 2 = 0 /\ (i + 1) mod 2 = 1 \/ i mod 2 = 1 /\ (i + 1) mod 2 = 0)%N) by lia.
    destruct M as [[M1 M2]|[M1 M2]]; rewrite M1; cbn [N.eqb Pos.eqb].
    + rewrite fixed_add by (exact U || (unfold small; lia)). rewrite IH by (assumption || lia). rewrite M2. cbn [N.eqb Pos.eqb]. destruct (alternate l) as [p q]. cbn [fst snd]. f_equal; f_equal; lia.
    + rewrite fixed_add by (exact U || (unfold small; lia)). rewrite IH by (assumption || lia). rewrite M2. cbn [N.eqb Pos.eqb]. destruct (alternate l) as [p q]. cbn [fst snd]. f_equal; f_equal; lia.
Qed.

(* The state of the decoder after the values zs *)
Definition current (zs : list Z) : list Z := skipn (128 * (length zs / 128)) (steps 0 zs).
Definition at_ (u : Z) (zs : list Z) (d : BiphaseDecoder) : Prop :=
  fst (bp_prev d) = fixed u (last zs 0) /\ bp_clock d = N.of_nat (length zs mod 128) /\ (bp_clock_polarity d < 2)%N /\
  bp_clock_history d = map (fixed (u - 1)) (current zs ++ repeat 0 (128 - length (current zs))).
Lemma current_length : forall zs, length (current zs) = (length zs mod 128)%nat.
Proof. intros zs. unfold current. rewrite skipn_length, steps_length. pose proof (Nat.div_mod (length zs) 128 ltac:(lia)). lia. Qed.
Lemma current_next : forall zs z, (length zs mod 128 < 127)%nat -> current (zs ++ [z]) = current zs ++ [Z.abs (z - last zs 0)].
Proof.
  intros zs z H. unfold current. rewrite app_length. cbn [length]. rewrite steps_app. cbn [steps].
  assert (E : ((length zs + 1) / 128 = length zs / 128)%nat) by lia. rewrite E. rewrite skipn_app.
  replace (128 * (length zs / 128) - length (steps 0%Z zs))%nat with 0%nat by (rewrite steps_length; lia). reflexivity.
Qed.
Lemma current_wrap : forall zs z, (length zs mod 128 = 127)%nat -> current (zs ++ [z]) = [] /\
  firstn 128 (skipn (128 * (length zs / 128)) (steps 0 (zs ++ [z]))) = current zs ++ [Z.abs (z - last zs 0)].
Proof.
  intros zs z H. split.
  - unfold current. apply skipn_all2. rewrite steps_length, app_length. cbn [length]. lia.
  - rewrite steps_app. cbn [steps]. rewrite skipn_app. replace (128 * (length zs / 128) - length (steps 0%Z zs))%nat with 0%nat by (rewrite steps_length; lia).
    fold (current zs). cbn [skipn]. apply firstn_all2. rewrite app_length, current_length. cbn [length]. lia.
Qed.
Lemma list_set_mid : forall (A : Type) (a : list A) y b x, list_set (a ++ y :: b) (length a) x = a ++ x :: b.
Proof. intros A. induction a as [|z a IH]; intros y b x; [reflexivity|]. cbn [app length list_set]. rewrite IH. reflexivity. Qed.
Lemma unit_usual : forall u, usual_unit u -> unit_ok u /\ unit_ok (u - 1).
Proof. intros u U. unfold usual_unit, unit_ok in *. lia. Qed.

Lemma push_at : forall u zs d s z, usual_unit u -> moderate (zs ++ [z]) -> at_ u zs d -> fst s = fixed u z ->
  exists d', biphase_push d s = Ok (d', 0 <=? z - last zs 0, (N.of_nat (length zs) mod 2 =? bp_clock_polarity d)%N) /\ at_ u (zs ++ [z]) d' /\
    bp_clock_polarity d' =
      (if Nat.eqb (length zs mod 128) 127 then
        let '(a, b) := alternate (firstn 128 (skipn (128 * (length zs / 128)) (steps 0 (zs ++ [z])))) in
        if b <? a then 0%N else if a <? b then 1%N else bp_clock_polarity d
      else bp_clock_polarity d).
Proof.
  intros u zs d s z Uu M (Ap & Ac & Al & Ah) Es. destruct (unit_usual u Uu) as [U U1].
  assert (Mz : -32768 <= z <= 32768) by (unfold moderate in M; apply Forall_app in M; destruct M as [_ M]; inversion M; assumption).
  assert (Mzs : moderate zs) by (unfold moderate in *; apply Forall_app in M; apply M).
  pose proof (last_range zs 0 ltac:(lia) Mzs) as Ml.
  assert (Er : f32_mul (f32_sub (fst s) (fst (bp_prev d))) f32_half = fixed (u - 1) (z - last zs 0)).
  { rewrite Es, Ap, fixed_sub by (exact U || (unfold small; lia)). apply fixed_half; [exact U|exact U1|unfold small; lia]. }
  unfold biphase_push. rewrite Er. cbv zeta. rewrite fixed_nonneg, fixed_abs by (exact U1 || (unfold small; lia)).
  assert (Lt : (length zs mod 128 < 128)%nat) by (apply Nat.mod_upper_bound; lia).
  assert (Ev : (N.of_nat (length zs mod 128) mod 2 = N.of_nat (length zs) mod 2)%N) by lia.
  pose proof (current_length zs) as Lc.
  assert (Lh : length (bp_clock_history d) = 128%nat) by (rewrite Ah, map_length, app_length, repeat_length; lia).
  assert (Hs : list_set (bp_clock_history d) (N.to_nat (bp_clock d)) (fixed (u - 1) (Z.abs (z - last zs 0))) =
    map (fixed (u - 1)) ((current zs ++ [Z.abs (z - last zs 0)]) ++ repeat 0 (127 - length (current zs)))).
  { rewrite Ah, Ac, Nat2N.id, <- Lc. replace (128 - length (current zs))%nat with (S (127 - length (current zs))) by lia. cbn [repeat]. rewrite map_app. cbn [map].
    rewrite <- (map_length (fixed (u - 1)) (current zs)) at 2. rewrite list_set_mid, <- app_assoc, map_app. cbn [app map]. reflexivity. }
  unfold arr_set. rewrite Lh, Ac. change (N.of_nat 128) with 128%N. replace (N.of_nat (length zs mod 128) <? 128)%N with true by lia. rewrite <- Ac, Hs. cbn [bind].
  assert (L2 : length (map (fixed (u - 1)) ((current zs ++ [Z.abs (z - last zs 0)]) ++ repeat 0 (127 - length (current zs)))) = 128%nat) by (rewrite map_length, !app_length, repeat_length; cbn [length]; lia).
  rewrite L2, Ac, Ev. change (N.of_nat 128) with 128%N. unfold u32. rewrite N.mod_small by lia.
  destruct (Nat.eqb_spec (length zs mod 128) 127) as [E|E].
  - replace (N.of_nat (length zs mod 128) + 1 =? 128)%N with true by lia. destruct (current_wrap zs z E) as [Cw Fw]. rewrite Fw.
    replace (127 - length (current zs))%nat with 0%nat by lia. cbn [repeat]. rewrite app_nil_r.
    assert (F : Forall (fun x => 0 <= x <= 65536) (current zs ++ [Z.abs (z - last zs 0)])).
    { apply Forall_app. split; [|constructor; [lia|constructor]]. unfold current. pose proof (steps_range zs 0 ltac:(lia) Mzs) as Q. rewrite <- (firstn_skipn (128 * (length zs / 128)) (steps 0 zs)) in Q. apply Forall_app in Q. apply Q. }
    change (S754_zero false) with (fixed (u - 1) 0) at 1 2. rewrite sums_fixed; [|exact U1|exact F|lia|lia|rewrite app_length; cbn [length]; lia]. change (0 mod 2 =? 0)%N with true. cbv iota.
    pose proof (alternate_range _ F) as [R1 R2]. assert (Lf : length (current zs ++ [Z.abs (z - last zs 0)]) = 128%nat) by (rewrite app_length; cbn [length]; lia). rewrite Lf in R1, R2.
    destruct (alternate _) as [a b]. cbn [fst snd] in *. rewrite !Z.add_0_l, !fixed_lt by (exact U1 || (unfold small; lia)).
    eexists. split; [reflexivity|]. cbn [bp_clock_polarity]. split; [|reflexivity]. split; [cbn [bp_prev]; rewrite last_last; exact Es|]. cbn [bp_clock bp_clock_polarity bp_clock_history].
    split; [rewrite app_length; cbn [length]; lia|]. split; [destruct (b <? a); [lia|destruct (a <? b); lia]|].
    rewrite Cw. cbn [length app]. rewrite map_map. change (128 - 0)%nat with 128%nat. rewrite <- Lf. clear. induction (current zs ++ [Z.abs (z - last zs 0)]) as [|y l IH]; [reflexivity|]. cbn [map length repeat]. rewrite IH. reflexivity.
  - replace (N.of_nat (length zs mod 128) + 1 =? 128)%N with false by lia. eexists. split; [reflexivity|]. cbn [bp_clock_polarity]. split; [|reflexivity].
    split; [cbn [bp_prev]; rewrite last_last; exact Es|]. cbn [bp_clock bp_clock_polarity bp_clock_history]. split; [rewrite app_length; cbn [length]; lia|]. split; [exact Al|].
    rewrite current_next by lia. f_equal. rewrite app_length. cbn [length]. do 2 f_equal. lia.
Qed.

Definition as_bit (b : bool) : N := if b then 1 else 0.
Definition in_phase (odd : bool) (zs : list Z) (d : BiphaseDecoder) : Prop :=
  (128 <= length zs)%nat -> bp_clock_polarity d = (if odd then 1 else 0)%N.
Lemma window_prefix : forall zs z rest, (length zs mod 128 = 127)%nat ->
  firstn 128 (skipn (128 * (length zs / 128)) (steps 0 (zs ++ [z]))) = firstn 128 (skipn (128 * (length zs / 128)) (steps 0 ((zs ++ [z]) ++ rest))).
Proof.
  intros zs z rest H. rewrite (steps_app (zs ++ [z]) rest). rewrite skipn_app, firstn_app.
  assert (L : length (skipn (128 * (length zs / 128)) (steps 0%Z (zs ++ [z]))) = 128%nat) by (rewrite skipn_length, steps_length, app_length; cbn [length]; lia).
  rewrite L. change (128 - 128)%nat with 0%nat. cbn [firstn]. rewrite app_nil_r. reflexivity.
Qed.
Lemma decode_at : forall u odd zs d prev s z rest, usual_unit u -> moderate (zs ++ [z]) -> at_ u zs d -> fst s = fixed u z ->
  phase_is odd ((zs ++ [z]) ++ rest) -> in_phase odd zs d ->
  exists d', decode_symbol (d, as_bit prev) s =
      Ok (if (N.of_nat (length zs) mod 2 =? bp_clock_polarity d)%N
          then ((d', as_bit (0 <=? z - last zs 0)), [xorb prev (0 <=? z - last zs 0)])
          else ((d', as_bit prev), [])) /\
    at_ u (zs ++ [z]) d' /\ in_phase odd (zs ++ [z]) d'.
Proof.
  intros u odd zs d prev s z rest U M A Es Ph In. destruct (push_at u zs d s z U M A Es) as (d' & Ep & A' & Pol). exists d'. split; [|split; [exact A'|]].
  - unfold decode_symbol. cbn [fst snd]. rewrite Ep. cbn [bind]. unfold delta_decode. destruct (_ =? bp_clock_polarity d)%N; [|reflexivity].
    destruct (0 <=? z - last zs 0), prev; reflexivity.
  - intros L. rewrite Pol. rewrite app_length in L. cbn [length] in L. destruct (Nat.eqb_spec (length zs mod 128) 127) as [E|E].
    + rewrite (window_prefix zs z rest E). specialize (Ph (length zs / 128)%nat). destruct (alternate _) as [a b].
      assert (Q : (128 * (length zs / 128 + 1) <= length ((zs ++ [z]) ++ rest))%nat) by (rewrite !app_length; cbn [length]; lia).
      specialize (Ph Q). destruct odd.
      * replace (b <? a) with false by lia. replace (a <? b) with true by lia. reflexivity.
      * replace (b <? a) with true by lia. reflexivity.
    + apply In. lia.
Qed.

Lemma run_any : forall u odd zs2 zs1 rest d prev syms, usual_unit u -> moderate (zs1 ++ zs2) -> at_ u zs1 d ->
  phase_is odd ((zs1 ++ zs2) ++ rest) -> in_phase odd zs1 d -> received_as u zs2 syms ->
  exists d' prev' bits, decode_symbols (d, as_bit prev) syms = Ok ((d', as_bit prev'), bits) /\ at_ u (zs1 ++ zs2) d' /\ in_phase odd (zs1 ++ zs2) d' /\
    (length bits <= length zs2)%nat.
Proof.
  intros u odd zs2. induction zs2 as [|z zs2 IH]; intros zs1 rest d prev syms U M A Ph In R.
  - destruct syms; [|discriminate R]. exists d, prev, []. rewrite app_nil_r in *. cbn. auto.
  - destruct syms as [|s syms]; [discriminate R|]. unfold received_as in R. cbn [map] in R.
    assert (R1 : fst s = fixed u z) by congruence. assert (R2 : received_as u zs2 syms) by (unfold received_as; congruence).
    assert (Ea : zs1 ++ z :: zs2 = (zs1 ++ [z]) ++ zs2) by (rewrite <- app_assoc; reflexivity). rewrite Ea in *.
    assert (M1 : moderate (zs1 ++ [z])) by (unfold moderate in *; apply Forall_app in M; apply M).
    rewrite <- (app_assoc (zs1 ++ [z])) in Ph.
    destruct (decode_at u odd zs1 d prev s z (zs2 ++ rest) U M1 A R1 Ph In) as (d1 & E1 & A1 & In1).
    cbn [decode_symbols]. rewrite E1. cbn [bind]. rewrite app_assoc in Ph.
    destruct (N.of_nat (length zs1) mod 2 =? bp_clock_polarity d)%N.
    + destruct (IH _ rest d1 (0 <=? z - last zs1 0) syms U M A1 Ph In1 R2) as (d2 & p2 & b2 & E2 & A2 & In2 & L2).
      rewrite E2. cbn [bind]. eexists _, _, _. split; [reflexivity|]. split; [exact A2|]. split; [exact In2|]. cbn [app length]. lia.
    + destruct (IH _ rest d1 prev syms U M A1 Ph In1 R2) as (d2 & p2 & b2 & E2 & A2 & In2 & L2).
      rewrite E2. cbn [bind]. eexists _, _, _. split; [reflexivity|]. split; [exact A2|]. split; [exact In2|]. cbn [app length]. lia.
Qed.

(* What differential decoding gives back *)
Fixpoint undo (previous : bool) (coded : list bool) : list bool :=
  match coded with
  | [] => []
  | c :: r => xorb previous c :: undo c r
  end.

Lemma run_pairs : forall u odd pairs zs1 d pd coded syms, usual_unit u -> moderate (zs1 ++ half_symbols pairs) -> at_ u zs1 d ->
  phase_is odd (zs1 ++ half_symbols pairs) -> in_phase odd zs1 d -> (128 <= length zs1)%nat -> odd = Nat.even (length zs1) ->
  Forall2 rises coded pairs -> received_as u (half_symbols pairs) syms ->
  exists dec', decode_symbols (d, as_bit pd) syms = Ok (dec', undo pd coded).
Proof.
  intros u odd pairs. induction pairs as [|[x y] pairs IH]; intros zs1 d pd coded syms U M A Ph In L Od F R.
  - inversion F; subst. destruct syms; [|discriminate R]. exists (d, as_bit pd). reflexivity.
  - destruct coded as [|c coded]; [inversion F|]. assert (Fc : rises c (x, y)) by (inversion F; assumption). assert (F' : Forall2 rises coded pairs) by (inversion F; assumption). clear F.
    unfold half_symbols in *. cbn [flat_map fst snd app] in *. fold (half_symbols pairs) in *.
    destruct syms as [|s1 [|s2 syms]]; [discriminate R|discriminate R|]. unfold received_as in R. cbn [map] in R.
    assert (R1 : fst s1 = fixed u x) by congruence. assert (R2 : fst s2 = fixed u y) by congruence. assert (R3 : received_as u (half_symbols pairs) syms) by (unfold received_as; congruence). clear R.
    assert (Ea : zs1 ++ x :: y :: half_symbols pairs = ((zs1 ++ [x]) ++ [y]) ++ half_symbols pairs) by (rewrite <- !app_assoc; reflexivity). rewrite Ea in *. clear Ea.
    assert (M2 : moderate ((zs1 ++ [x]) ++ [y])) by (unfold moderate in *; apply Forall_app in M; apply M).
    assert (M1 : moderate (zs1 ++ [x])) by (unfold moderate in *; apply Forall_app in M2; apply M2).
    assert (Ph1 : phase_is odd ((zs1 ++ [x]) ++ ([y] ++ half_symbols pairs))) by (rewrite app_assoc; exact Ph).
    destruct (decode_at u odd zs1 d pd s1 x _ U M1 A R1 Ph1 In) as (d1 & E1 & A1 & In1).
    destruct (decode_at u odd (zs1 ++ [x]) d1 pd s2 y _ U M2 A1 R2 Ph In1) as (d2 & E2 & A2 & In2).
    rewrite (In L) in E1. assert (L1 : (128 <= length (zs1 ++ [x]))%nat) by (rewrite app_length; lia). rewrite (In1 L1) in E2.
    assert (Po : (N.of_nat (length zs1) mod 2 =? (if odd then 1 else 0))%N = false /\ (N.of_nat (length (zs1 ++ [x])) mod 2 =? (if odd then 1 else 0))%N = true /\ Nat.even (length ((zs1 ++ [x]) ++ [y])) = odd).
    { rewrite !app_length. cbn [length]. destruct (Nat.even (length zs1)) eqn:Ev; subst odd.
      - apply Nat.even_spec in Ev. destruct Ev as [k Ek]. rewrite Ek. split; [lia|]. split; [lia|]. apply Nat.even_spec. exists (k + 1)%nat. lia.
      - assert (Ov : Nat.odd (length zs1) = true) by (unfold Nat.odd; rewrite Ev; reflexivity). apply Nat.odd_spec in Ov. destruct Ov as [k Ek]. rewrite Ek. split; [lia|]. split; [lia|].
        replace (2 * k + 1 + 1 + 1)%nat with (1 + 2 * (k + 1))%nat by lia. apply Nat.even_add_mul_2. }
    destruct Po as (P1 & P2 & P3). rewrite P1 in E1. rewrite P2 in E2. rewrite last_last in E2.
    assert (Ec : (0 <=? y - x) = c) by (unfold rises in Fc; cbn [fst snd] in Fc; destruct c; lia). rewrite Ec in E2.
    cbn [decode_symbols]. rewrite E1. cbn [bind]. rewrite E2. cbn [bind].
    destruct (IH _ d2 c coded syms U M A2 Ph In2 ltac:(rewrite !app_length; lia) (eq_sym P3) F' R3) as (dec' & E3). rewrite E3. cbn [bind].
    exists dec'. reflexivity.
Qed.

Lemma undo_differential : forall bits p, undo p (differential p bits) = bits.
Proof. induction bits as [|b bits IH]; intros p; [reflexivity|]. cbn [differential undo]. cbv zeta. cbn [undo]. rewrite IH. f_equal. destruct p, b; reflexivity. Qed.
Lemma undo_inverted : forall i cs p, undo (xorb i p) (map (xorb i) cs) = undo p cs.
Proof. intros i. induction cs as [|c cs IH]; intros p; [reflexivity|]. cbn [map undo]. rewrite IH. f_equal. destruct i, p, c; reflexivity. Qed.
Lemma undo_skip : forall n cs p q, skipn (S n) (undo p cs) = skipn (S n) (undo q cs).
Proof. intros n [|c cs] p q; reflexivity. Qed.
Lemma undo_skip_at : forall n cs p, (n < length cs)%nat -> skipn (S n) (undo p cs) = undo (nth n cs false) (skipn (S n) cs).
Proof.
  induction n as [|n IH]; intros [|c cs] p L; cbn [length] in L; try lia; [reflexivity|]. change (skipn (S (S n)) (undo p (c :: cs))) with (skipn (S n) (undo c cs)). rewrite IH by lia. reflexivity.
Qed.
Lemma undo_length : forall cs p, length (undo p cs) = length cs.
Proof. induction cs as [|c cs IH]; intros p; [reflexivity|]. cbn [undo length]. rewrite IH. reflexivity. Qed.
Lemma half_length : forall pairs, length (half_symbols pairs) = (2 * length pairs)%nat.
Proof. unfold half_symbols. induction pairs as [|p pairs IH]; [reflexivity|]. cbn [flat_map app length]. rewrite IH. lia. Qed.
Lemma half_app : forall a b, half_symbols (a ++ b) = half_symbols a ++ half_symbols b.
Proof. intros. unfold half_symbols. apply flat_map_app. Qed.
Lemma at_init : forall u, at_ u [] BiphaseDecoder_init.
Proof. intros u. split; [reflexivity|]. split; [reflexivity|]. split; [reflexivity|]. reflexivity. Qed.

Lemma Forall2_len : forall (A B : Type) (R : A -> B -> Prop) l m, Forall2 R l m -> length l = length m.
Proof. intros A B R l m F. induction F; [reflexivity|]. cbn [length]. rewrite IHF. reflexivity. Qed.
Theorem recovered : forall u lead pairs inverted first bits syms prev, usual_unit u -> moderate (lead ++ half_symbols pairs) ->
  phase_is (Nat.even (length lead)) (lead ++ half_symbols pairs) ->
  Forall2 rises (map (xorb inverted) (differential first bits)) pairs -> received_as u (lead ++ half_symbols pairs) syms ->
  exists dec junk, decode_symbols (BiphaseDecoder_init, as_bit prev) syms = Ok (dec, junk ++ skipn 65 bits) /\ (length junk <= length lead + 129)%nat.
Proof.
  intros u lead pairs inverted first bits syms prev U M Ph F R.
  set (cs := map (xorb inverted) (differential first bits)) in *.
  assert (Eb : undo (xorb inverted first) cs = bits) by (unfold cs; rewrite undo_inverted; apply undo_differential).
  set (zs1 := lead ++ half_symbols (firstn 64 pairs)).
  assert (Ez : lead ++ half_symbols pairs = zs1 ++ half_symbols (skipn 64 pairs)).
  { unfold zs1. rewrite <- app_assoc, <- half_app, firstn_skipn. reflexivity. }
  rewrite Ez in *. set (s1 := firstn (length zs1) syms). set (s2 := skipn (length zs1) syms).
  assert (Es : syms = s1 ++ s2) by (symmetry; apply firstn_skipn).
  assert (Rs : received_as u zs1 s1 /\ received_as u (half_symbols (skipn 64 pairs)) s2).
  { unfold received_as in *. unfold s1, s2. rewrite <- firstn_map, <- skipn_map, R, map_app. split.
    - rewrite firstn_app, map_length, Nat.sub_diag. cbn [firstn]. rewrite app_nil_r. apply firstn_all2. rewrite map_length. lia.
    - rewrite skipn_app, map_length, Nat.sub_diag. cbn [skipn]. rewrite skipn_all2; [reflexivity|rewrite map_length; lia]. }
  destruct Rs as [R1 R2]. rewrite Es, decode_app.
  assert (M1 : moderate ([] ++ zs1)) by (unfold moderate in *; apply Forall_app in M; apply M).
  destruct (run_any u (Nat.even (length lead)) zs1 [] (half_symbols (skipn 64 pairs)) BiphaseDecoder_init prev s1 U M1 (at_init u) Ph ltac:(intros H; cbn in H; lia) R1) as (d1 & p1 & junk & E1 & A1 & In1 & L1).
  cbn [app] in A1, In1. rewrite E1. cbn [bind].
  pose proof (Forall2_len _ _ _ _ _ F) as Lp.
  assert (Lb : length bits = length cs) by (rewrite <- Eb; apply undo_length).
  assert (Lz : (length zs1 <= length lead + 128)%nat) by (unfold zs1; rewrite app_length, half_length, firstn_length; lia).
  destruct (Nat.leb_spec (length pairs) 64) as [Sm|Sm].
  - assert (Nil : skipn 64 pairs = []) by (apply skipn_all2; lia). rewrite Nil in *. cbn in R2. unfold received_as in R2. cbn in R2. apply map_eq_nil in R2. rewrite R2. cbn [decode_symbols bind].
    exists (d1, as_bit p1), junk. rewrite (skipn_all2 bits) by lia. split; [reflexivity|lia].
  - assert (L128 : (128 <= length zs1)%nat) by (unfold zs1; rewrite app_length, half_length, firstn_length; lia).
    assert (Ev : Nat.even (length lead) = Nat.even (length zs1)).
    { unfold zs1. rewrite app_length, half_length, Nat.even_add_mul_2. reflexivity. }
    assert (F2 : Forall2 rises (skipn 64 cs) (skipn 64 pairs)).
    { clear -F. revert pairs F. generalize cs. generalize 64%nat. induction n as [|n IH]; intros c p F; [exact F|]. destruct F; [constructor|]. cbn [skipn]. apply IH. exact F. }
    destruct (run_pairs u _ (skipn 64 pairs) zs1 d1 p1 (skipn 64 cs) s2 U M A1 Ph In1 L128 Ev F2 R2) as (dec' & E2). rewrite E2. cbn [bind].
    rewrite <- Eb, undo_skip_at by lia.
    assert (Ec : skipn 64 cs = nth 64 cs false :: skipn 65 cs).
    { assert (Lc : (64 < length cs)%nat) by lia. clear -Lc. revert Lc. generalize cs. generalize 64%nat. induction n as [|n IH]; intros [|c l] L; cbn [length] in L; try lia; [reflexivity|]. change (skipn (S n) (c :: l)) with (skipn n l). rewrite IH by lia. reflexivity. }
    rewrite Ec. exists dec', (junk ++ [xorb p1 (nth 64 cs false)]). split; [rewrite <- app_assoc; reflexivity|]. rewrite app_length. cbn [length]. lia.
Qed.
