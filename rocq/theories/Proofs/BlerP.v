(* The running average of the block error rate is exact. *)
From Verif.Proofs Require Import Tac.
From Verif.Model Require Import Util Float Group Channel.
From Coq Require Import Lia.

(* k quarters as a binary32 value *)
Definition q4 (k : N) : spec_float := f32_div (f32_of_Z (Z.of_N k)) (f32_of_Z 4).

Fixpoint upto (n : nat) : list N := match n with O => [] | S k => upto k ++ [N.of_nat k] end.
Lemma upto_in : forall n k, k < N.of_nat n -> In k (upto n).
Proof.
  induction n as [|n IH]; intros k H; [lia|]. cbn [upto]. apply in_or_app.
  destruct (N.eq_dec k (N.of_nat n)) as [->|]; [right; left; reflexivity|left; apply IH; lia].
Qed.

Definition sf_eqb (a b : spec_float) : bool :=
  match a, b with
  | S754_zero s, S754_zero s' => Bool.eqb s s'
  | S754_infinity s, S754_infinity s' => Bool.eqb s s'
  | S754_nan, S754_nan => true
  | S754_finite s m e, S754_finite s' m' e' => Bool.eqb s s' && Pos.eqb m m' && Z.eqb e e'
  | _, _ => false
  end.
Lemma sf_eqb_eq : forall a b, sf_eqb a b = true -> a = b.
Proof.
  intros [s|s| |s m e] [s'|s'| |s' m' e']; cbn; try discriminate; intros H.
  - apply Bool.eqb_prop in H. congruence.
  - apply Bool.eqb_prop in H. congruence.
  - reflexivity.
  - apply andb_prop in H. destruct H as [H E]. apply andb_prop in H. destruct H as [H M].
    apply Bool.eqb_prop in H. apply Pos.eqb_eq in M. apply Z.eqb_eq in E. congruence.
Qed.

Lemma sweep_addsub :
  forallb (fun a => forallb (fun s =>
    sf_eqb (f32_add (q4 s) (q4 a)) (q4 (s + a)) && sf_eqb (f32_sub (q4 (s + a)) (q4 a)) (q4 s)) (upto 45)) (upto 5) = true.
Proof. vm_compute. reflexivity. Qed.

Lemma addsub : forall s a, a <= 4 -> s <= 44 ->
  f32_add (q4 s) (q4 a) = q4 (s + a) /\ f32_sub (q4 (s + a)) (q4 a) = q4 s.
Proof.
  intros s a Ha Hs. pose proof sweep_addsub as W. rewrite forallb_forall in W.
  specialize (W a (upto_in 5 a ltac:(lia))). cbv beta in W. rewrite forallb_forall in W.
  specialize (W s (upto_in 45 s ltac:(lia))). cbv beta in W. apply andb_prop in W. destruct W as [A B].
  split; apply sf_eqb_eq; assumption.
Qed.

(* halves up *)
Definition percent (errors : N) : N := (2 * 100 * errors + 48) / (2 * 48).

Definition bler_of (s : spec_float) : spec_float :=
  f32_mul (f32_of_Z 100) (f32_div s (f32_of_Z (Z.of_N kNumBlerAverageGroups))).

Lemma sweep_bler : forallb (fun s =>
    match sf_lround (bler_of (q4 s)) with Ok z => Z.eqb z (Z.of_N (percent s)) | _ => false end) (upto 49) = true.
Proof. vm_compute. reflexivity. Qed.

Lemma bler_round : forall s, s <= 48 -> sf_lround (bler_of (q4 s)) = Ok (Z.of_N (percent s)).
Proof.
  intros s H. pose proof sweep_bler as W. rewrite forallb_forall in W.
  specialize (W s (upto_in 49 s ltac:(lia))). cbv beta in W.
  destruct (sf_lround (bler_of (q4 s))) as [z| |]; try discriminate. apply Z.eqb_eq in W. congruence.
Qed.

(* The ring of the last twelve error counts; the oldest is the next to be replaced. *)
Definition sumN (l : list N) : N := fold_right N.add 0 l.
Lemma sumN_app : forall a b, sumN (a ++ b) = sumN a + sumN b.
Proof. induction a as [|x a IH]; intros b; cbn [sumN fold_right app]; [reflexivity|]. fold (sumN (a ++ b)). fold (sumN a). rewrite IH. lia. Qed.

(* [ra_rep r l]: the history of r, oldest first, is l *)
Definition ra_rep (r : RunningAverage) (l : list N) : Prop :=
  length l = 12%nat /\ Forall (fun k => k <= 4) l /\ ra_ptr r < 12 /\
  exists a b, l = b ++ a /\ length a = N.to_nat (ra_ptr r) /\
  ra_history r = map q4 (a ++ b) /\ ra_sum r = q4 (sumN l).

Lemma sum_bound : forall l, Forall (fun k => k <= 4) l -> sumN l <= 4 * N.of_nat (length l).
Proof. induction l as [|x l IH]; intros F; [cbn; lia|]. inversion F; subst. cbn [sumN fold_right length]. fold (sumN l). specialize (IH H2). lia. Qed.

Lemma ra_init_rep : ra_rep RunningAverage_init (repeat 0 12).
Proof.
  split; [reflexivity|]. split; [apply Forall_forall; intros x Hx; apply repeat_spec in Hx; lia|].
  split; [cbn; lia|]. exists [], (repeat 0 12). repeat split; vm_compute; reflexivity.
Qed.

Lemma list_set_app : forall (A : Type) (a : list A) x b v, list_set (a ++ x :: b) (length a) v = a ++ v :: b.
Proof. intros A a x b v. induction a as [|y a IH]; cbn; [reflexivity|]. rewrite IH. reflexivity. Qed.

Lemma ra_push_rep : forall r l k, ra_rep r l -> k <= 4 -> ra_rep (ra_push r (q4 k)) (tl l ++ [k]).
Proof.
  intros r l k (L & F & P & a & b & -> & La & Hh & Hs) Hk.
  destruct b as [|x b].
  { rewrite app_nil_l in L. lia. }
  cbn [app tl] in *. inversion F as [|? ? Fx Fr]; subst.
  assert (Sb := sum_bound _ Fr). rewrite app_length in Sb. cbn [length] in L. rewrite app_length in L.
  split; [rewrite !app_length; cbn [length]; lia|]. split; [apply Forall_app; split; [exact Fr|repeat constructor; exact Hk]|].
  split; [cbn; apply N.mod_lt; discriminate|].
  assert (Hsum : f32_add (f32_sub (ra_sum r) (nth (N.to_nat (ra_ptr r)) (ra_history r) (S754_zero false))) (q4 k)
                 = q4 (sumN ((b ++ a) ++ [k]))).
  { rewrite Hh, <- La. change (S754_zero false) with (q4 0). rewrite map_nth, app_nth2, Nat.sub_diag by lia. cbn [nth].
    rewrite Hs. cbn [sumN fold_right]. fold (sumN (b ++ a)). rewrite (N.add_comm x).
    rewrite (proj2 (addsub (sumN (b ++ a)) x Fx ltac:(lia))).
    rewrite (proj1 (addsub (sumN (b ++ a)) k Hk ltac:(lia))). rewrite (sumN_app (b ++ a)). cbn [sumN fold_right].
    f_equal. lia. }
  assert (Hhist : list_set (ra_history r) (N.to_nat (ra_ptr r)) (q4 k) = map q4 (a ++ k :: b)).
  { rewrite Hh, <- La, map_app. cbn [map]. rewrite <- (map_length q4 a). rewrite list_set_app. rewrite map_app. reflexivity. }
  destruct b as [|y b].
  - exists [], (a ++ [k]). cbn [app length ra_ptr ra_push ra_history ra_sum] in *.
    assert (E : ra_ptr r = 11) by lia. split; [rewrite app_nil_r; reflexivity|].
    split; [rewrite E; reflexivity|]. split; [exact Hhist|exact Hsum].
  - exists (a ++ [k]), (y :: b). cbn [ra_ptr ra_push ra_history ra_sum] in *. cbn [length] in L.
    split; [rewrite <- app_assoc; reflexivity|]. split.
    + rewrite app_length. cbn [length]. unfold kNumBlerAverageGroups. rewrite N.mod_small by lia. lia.
    + split; [rewrite Hhist, <- app_assoc; reflexivity|exact Hsum].
Qed.

Lemma ra_bler : forall r l, ra_rep r l ->
  sf_lround (f32_mul (f32_of_Z 100) (ra_getAverage r)) = Ok (Z.of_N (percent (sumN l))).
Proof.
  intros r l (L & F & _ & _ & _ & _ & _ & _ & Hs). unfold ra_getAverage. rewrite Hs.
  fold (bler_of (q4 (sumN l))). apply bler_round. pose proof (sum_bound l F). lia.
Qed.

Lemma num_errors_le : forall g, g_getNumErrors g <= 4.
Proof.
  intros g. unfold g_getNumErrors, blk_error_count.
  destruct (_ || _), (_ || _), (_ || _), (_ || _); lia.
Qed.
