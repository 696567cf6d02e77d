(* Ring buffers: the array content, rotated to start at the write pointer, is the last N values. *)
From Verif.Model Require Import Base Util Group BlockSync.
From Verif.Spec Require Import RdsStream.
From Verif.Proofs Require Import Tac.

Definition rot {A} (p : nat) (l : list A) : list A := skipn p l ++ firstn p l.

Lemma list_set_split : forall {A} (l : list A) p x, (p < length l)%nat ->
  list_set l p x = firstn p l ++ x :: skipn (S p) l.
Proof.
  induction l as [|y l IH]; intros p x H; cbn in H; [lia|].
  destruct p as [|p]; cbn; [reflexivity|]. f_equal. apply IH. lia.
Qed.

Lemma rot_push : forall {A} (l : list A) p x, (p < length l)%nat ->
  rot (if Nat.eqb (S p) (length l) then 0 else S p) (list_set l p x) = tl (rot p l) ++ [x].
Proof.
  intros A l p x H. unfold rot. rewrite list_set_split by exact H.
  assert (Hsk : exists y, skipn p l = y :: skipn (S p) l).
  { clear x. revert p H. induction l as [|y l IH]; intros p H; cbn in H; [lia|].
    destruct p as [|p]; [exists y; reflexivity|]. cbn [skipn]. apply IH. lia. }
  destruct Hsk as [y Hsk]. rewrite Hsk. cbn [tl app].
  assert (Lf : length (firstn p l) = p) by (rewrite firstn_length; lia).
  destruct (Nat.eqb_spec (S p) (length l)) as [E|E].
  - rewrite skipn_O, firstn_O, app_nil_r.
    assert (Hn : skipn (S p) l = []) by (apply skipn_all2; lia).
    rewrite Hn. reflexivity.
  - rewrite (firstn_app (S p)), (skipn_app (S p)), Lf.
    replace (S p - p)%nat with 1%nat by lia.
    rewrite (firstn_all2 (firstn p l)) by lia.
    rewrite (skipn_all2 (firstn p l)) by lia.
    change (firstn 1 (x :: skipn (S p) l)) with [x].
    change (skipn 1 (x :: skipn (S p) l)) with (skipn (S p) l).
    rewrite app_nil_l, <- app_assoc. reflexivity.
Qed.

Lemma rot_length : forall {A} (l : list A) p, length (rot p l) = length l.
Proof.
  intros A l p. unfold rot. rewrite app_length, skipn_length, firstn_length. lia.
Qed.

Lemma lastn_length : forall {A} n (l : list A), length (lastn n l) = Nat.min n (length l).
Proof. intros A n l. unfold lastn. rewrite skipn_length. lia. Qed.

Lemma lastn_all : forall {A} n (l : list A), (length l <= n)%nat -> lastn n l = l.
Proof.
  intros A n l H. unfold lastn. replace (length l - n)%nat with 0%nat by lia. reflexivity.
Qed.

(* Appending one element to a list that already has n elements. *)
Lemma lastn_snoc : forall {A} n (l : list A) x, (0 < n)%nat -> (n <= length l)%nat ->
  lastn n (l ++ [x]) = tl (lastn n l) ++ [x].
Proof.
  intros A n l x Hn Hl. unfold lastn. rewrite app_length. cbn [length].
  replace (length l + 1 - n)%nat with (S (length l - n)) by lia.
  set (k := (length l - n)%nat). assert (k < length l)%nat by (unfold k; lia).
  clearbody k. revert k H. clear. induction l as [|y l IH]; intros k H; cbn in H; [lia|].
  destruct k as [|k].
  - cbn. reflexivity.
  - change (skipn (S (S k)) ((y :: l) ++ [x])) with (skipn (S k) (l ++ [x])).
    change (skipn (S k) (y :: l)) with (skipn k l). apply IH. lia.
Qed.

(* Sum is invariant under rotation. *)
Lemma fold_add_acc : forall (l : list N) a, fold_left N.add l a = a + fold_left N.add l 0.
Proof.
  induction l as [|x l IH]; intros a; cbn [fold_left]; [lia|].
  rewrite IH, (IH (0 + x)). lia.
Qed.
Lemma fold_add_app : forall (l m : list N),
  fold_left N.add (l ++ m) 0 = fold_left N.add l 0 + fold_left N.add m 0.
Proof. intros l m. rewrite fold_left_app. apply fold_add_acc. Qed.

Lemma sum_rot : forall p (l : list N), fold_left N.add (rot p l) 0 = fold_left N.add l 0.
Proof.
  intros p l. unfold rot. rewrite fold_add_app.
  rewrite <- (firstn_skipn p l) at 3. rewrite fold_add_app. lia.
Qed.

(* Well-formed running sum: 50 entries, pointer in range. *)
Definition rs_wf (r : RunningSum) : Prop :=
  length (rs_history r) = 50%nat /\ rs_pointer r < 50.

(* Abstraction: the values pushed since the last clear are h. *)
Definition rs_abs (r : RunningSum) (h : list N) : Prop :=
  rs_wf r /\ rot (N.to_nat (rs_pointer r)) (rs_history r) = lastn 50 (repeat 0 50 ++ h).

Lemma rs_default_abs : rs_abs RunningSum_default [].
Proof. split; [split; vm_compute; reflexivity|vm_compute; reflexivity]. Qed.

Lemma rs_push_wf : forall r x, rs_wf r -> rs_wf (rs_push r x).
Proof.
  intros r x [L P]. split; cbn [rs_push rs_history rs_pointer].
  - rewrite list_set_length. exact L.
  - rewrite L. lia.
Qed.

Lemma rs_push_abs : forall r h x, rs_abs r h -> rs_abs (rs_push r x) (h ++ [x]).
Proof.
  intros r h x [W R]. split; [apply rs_push_wf; exact W|].
  destruct W as [L P].
  rewrite app_assoc, lastn_snoc; [|lia|rewrite app_length, repeat_length; lia].
  rewrite <- R. rewrite <- rot_push by lia. cbn [rs_push rs_history rs_pointer]. f_equal.
  rewrite L. destruct (Nat.eqb_spec (S (N.to_nat (rs_pointer r))) 50); lia.
Qed.

Lemma rs_clear_abs : forall r, rs_wf r -> rs_abs (rs_clear r) [].
Proof.
  intros r [L P]. split; [split; cbn [rs_clear rs_history rs_pointer]|].
  - rewrite repeat_length. exact L.
  - exact P.
  - cbn [rs_clear rs_history rs_pointer]. rewrite L. unfold rot.
    rewrite app_nil_r. rewrite lastn_all by (rewrite repeat_length; lia).
    assert (H : forall n m (x : N), (m <= n)%nat -> skipn m (repeat x n) ++ firstn m (repeat x n) = repeat x n).
    { induction n as [|n IH]; intros m x H; destruct m as [|m]; try lia; try reflexivity.
      - cbn [firstn skipn]. rewrite app_nil_r. reflexivity.
      - cbn [repeat skipn firstn]. rewrite repeat_cons at 1.
        change (x :: firstn m (repeat x n)) with ([x] ++ firstn m (repeat x n)).
        assert (E : firstn m (repeat x n) = repeat x m).
        { clear IH. revert n H. induction m as [|m IHm]; intros n H; [reflexivity|].
          destruct n as [|n]; [lia|]. cbn. f_equal. apply IHm. lia. }
        assert (E2 : skipn m (repeat x n) = repeat x (n - m)).
        { clear IH E. revert n H. induction m as [|m IHm]; intros n H.
          - rewrite Nat.sub_0_r. reflexivity.
          - destruct n as [|n]; [lia|]. cbn. apply IHm. lia. }
        rewrite E, E2. rewrite <- repeat_cons. change ([x] ++ repeat x m) with (repeat x (S m)).
        rewrite <- repeat_app. replace (n - m + S m)%nat with (S n) by lia.
        reflexivity. }
    apply H. lia.
Qed.

Definition flag (b : bool) : N := if b then 1 else 0.

Lemma sum_flags : forall l, fold_left N.add (map flag l) 0 = count_true l.
Proof.
  induction l as [|b l IH]; [reflexivity|]. cbn [map fold_left count_true].
  rewrite fold_add_acc, IH. destruct b; reflexivity.
Qed.

Lemma sum_zeros : forall n, fold_left N.add (repeat 0 n) 0 = 0.
Proof. induction n as [|n IH]; [reflexivity|]. cbn [repeat fold_left]. exact IH. Qed.

Lemma skipn_repeat : forall n m (x : N), skipn m (repeat x n) = repeat x (n - m).
Proof.
  induction n as [|n IH]; intros m x; destruct m as [|m]; try reflexivity. cbn. apply IH.
Qed.

(* The sum is the number of flags among the last 50 pushed. *)
Lemma rs_sum_abs : forall r l, rs_abs r (map flag l) -> rs_getSum r = count_true (lastn 50 l).
Proof.
  intros r l [W R]. unfold rs_getSum. rewrite <- (sum_rot (N.to_nat (rs_pointer r))), R.
  unfold lastn. rewrite app_length, repeat_length, map_length.
  rewrite skipn_app, repeat_length, fold_add_app, skipn_repeat, sum_zeros.
  replace (50 + length l - 50 - 50)%nat with (length l - 50)%nat by lia.
  rewrite <- sum_flags, N.add_0_l. f_equal. rewrite skipn_map. reflexivity.
Qed.
