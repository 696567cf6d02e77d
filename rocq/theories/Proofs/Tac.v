(* Shared tactics and arithmetic set-up. *)
From Coq Require Export Lia ZifyBool ZifyNat ZifyN.
From Verif.Model Require Export Base.
Ltac Zify.zify_post_hook ::= Z.div_mod_to_equations.

(* Lifting finite sweeps. *)
Lemma nseq_In : forall n a x, a <= x -> x < a + N.of_nat n -> In x (nseq a n).
Proof.
  induction n as [|n IH]; intros a x Hlo Hhi; [lia|].
  cbn [nseq]. destruct (N.eq_dec a x) as [E|E]; [left; exact E|].
  right. apply IH; lia.
Qed.

Lemma nseq_length : forall n a, length (nseq a n) = n.
Proof. induction n as [|n IH]; intros a; cbn [nseq length]; [reflexivity|]. f_equal. apply IH. Qed.

Lemma nseq_sound : forall n a x, In x (nseq a n) -> a <= x /\ x < a + N.of_nat n.
Proof.
  induction n as [|n IH]; intros a x H; cbn [nseq In] in H; [contradiction|].
  destruct H as [H|H]; [lia|]. apply IH in H. lia.
Qed.

(* All numbers below 2^k satisfy p, by binary splitting (no long list is built). *)
Fixpoint all_below_pow2 (k : nat) (base : N) (p : N -> bool) : bool :=
  match k with
  | O => p base
  | S j => all_below_pow2 j (2 * base) p && all_below_pow2 j (2 * base + 1) p
  end.

Lemma all_below_pow2_sound : forall k base p,
  all_below_pow2 k base p = true ->
  forall x, base * 2 ^ N.of_nat k <= x -> x < (base + 1) * 2 ^ N.of_nat k -> p x = true.
Proof.
  induction k as [|k IH]; intros base p H x Hlo Hhi.
  - cbn in *. assert (x = base) by lia. subst. exact H.
  - cbn [all_below_pow2] in H. apply andb_prop in H. destruct H as [H0 H1].
    rewrite Nat2N.inj_succ, N.pow_succ_r' in Hlo, Hhi.
    destruct (N.lt_ge_cases x ((2 * base + 1) * 2 ^ N.of_nat k)) as [L|L].
    + apply (IH (2 * base) p H0 x); nia.
    + apply (IH (2 * base + 1) p H1 x); nia.
Qed.

Lemma sweep_pow2 : forall k p, all_below_pow2 k 0 p = true ->
  forall x, x < 2 ^ N.of_nat k -> p x = true.
Proof.
  intros k p H x Hx. apply (all_below_pow2_sound k 0 p H x); lia.
Qed.

Lemma forallb_In : forall {A} (f : A -> bool) l x, forallb f l = true -> In x l -> f x = true.
Proof. intros A f l x H Hin. exact (proj1 (forallb_forall f l) H x Hin). Qed.

(* list_set facts *)
Lemma list_set_length : forall {A} (l : list A) i x, length (list_set l i x) = length l.
Proof.
  induction l as [|y l IH]; intros [|i] x; cbn; try reflexivity. f_equal. apply IH.
Qed.

Lemma nth_error_list_set : forall {A} (l : list A) i j x,
  (i < length l)%nat ->
  nth_error (list_set l i x) j = if Nat.eqb i j then Some x else nth_error l j.
Proof.
  induction l as [|y l IH]; intros i j x H; cbn in H; [lia|].
  destruct i as [|i]; destruct j as [|j]; cbn; try reflexivity.
  apply IH. lia.
Qed.

(* Bitwise extensionality *)
Ltac bits_ext n := apply N.bits_inj; intro n.

(* Every number below 2^k is a xor of powers of two below 2^k. *)
Lemma split_top_bit : forall k d, d < 2 ^ (k + 1) ->
  d = N.lxor (d mod 2 ^ k) (if N.testbit d k then 2 ^ k else 0).
Proof.
  intros k d Hd. apply N.bits_inj. intros n. rewrite N.lxor_spec.
  destruct (N.lt_trichotomy n k) as [L|[E|L]].
  - rewrite N.mod_pow2_bits_low by exact L.
    destruct (N.testbit d k); [rewrite N.pow2_bits_false by lia|rewrite N.bits_0]; symmetry; apply xorb_false_r.
  - subst n. rewrite N.mod_pow2_bits_high by lia.
    destruct (N.testbit d k) eqn:B; [rewrite N.pow2_bits_true|rewrite N.bits_0]; reflexivity.
  - rewrite N.mod_pow2_bits_high by lia.
    assert (Z : N.testbit d n = false).
    { rewrite <- (N.mod_small d (2 ^ (k + 1))) by exact Hd. apply N.mod_pow2_bits_high. lia. }
    rewrite Z. destruct (N.testbit d k); [rewrite N.pow2_bits_false by lia|rewrite N.bits_0]; reflexivity.
Qed.

Lemma xor_ind : forall (P : N -> Prop) (k : nat), P 0 ->
  (forall i, (i < k)%nat -> P (2 ^ N.of_nat i)) ->
  (forall a b, P a -> P b -> P (N.lxor a b)) ->
  forall d, d < 2 ^ N.of_nat k -> P d.
Proof.
  intros P k P0 PB PX. induction k as [|k IH]; intros d Hd.
  - change (2 ^ N.of_nat 0) with 1 in Hd. replace d with 0 by lia. exact P0.
  - replace (N.of_nat (S k)) with (N.of_nat k + 1) in Hd by lia.
    rewrite (split_top_bit (N.of_nat k) d Hd). apply PX.
    + apply IH; [intros i Hi; apply PB; lia|]. apply N.mod_lt. apply N.pow_nonzero. discriminate.
    + destruct (N.testbit d (N.of_nat k)); [apply PB; lia|exact P0].
Qed.
