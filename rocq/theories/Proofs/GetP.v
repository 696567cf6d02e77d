(* Reading a member of a JSON value after another was written. *)
From Verif.Model Require Import Base Json.
From Verif.Proofs Require Import Tac ShowP.

Local Open Scope string_scope.

(* Neither path leads to the other *)
Fixpoint apart (p q : list string) : bool :=
  match p, q with
  | a :: p, b :: q => if String.eqb a b then apart p q else true
  | _, _ => false
  end.
Lemma find_put_other : forall k k' v m, k <> k' -> obj_find k' (obj_put k v m) = obj_find k' m.
Proof.
  intros k k' v m N0. induction m as [|[a x] m IH]; cbn [obj_put obj_find].
  - destruct (String.eqb_spec k' k); [congruence|reflexivity].
  - destruct (String.eqb_spec k a) as [->|]; cbn [obj_find].
    + destruct (String.eqb_spec k' a); [congruence|reflexivity].
    + destruct (String.eqb k' a); [reflexivity|exact IH].
Qed.
Lemma jget_null : forall q, q <> [] -> jget q JNull = None.
Proof. intros [|k q] N0; [contradiction|reflexivity]. Qed.
Lemma apart_some : forall p q, apart p q = true -> q <> [].
Proof. intros [|a p] [|b q] H; discriminate. Qed.
Lemma jupd_other : forall p q f j j', jupd p f j = Ok j' -> apart p q = true -> jget q j' = jget q j.
Proof.
  induction p as [|k p IH]; intros [|k' q] f j j' U A; try discriminate. cbn [apart] in A. cbn [jupd] in U.
  destruct j as [|b|z|g|s|a|m]; try discriminate U.
  - destruct (jupd p f JNull) as [v| |] eqn:E; cbn [bind] in U; try discriminate U. injection U as <-. cbn [jget obj_find].
    destruct (String.eqb_spec k k') as [<-|Nk].
    + rewrite String.eqb_refl, (IH q f JNull v E A). apply jget_null. eapply apart_some. exact A.
    + destruct (String.eqb_spec k' k); [congruence|reflexivity].
  - destruct (jupd p f _) as [v| |] eqn:E; cbn [bind] in U; try discriminate U. injection U as <-. cbn [jget].
    destruct (String.eqb_spec k k') as [<-|Nk].
    + rewrite find_put, (IH q f _ v E A). destruct (obj_find k m); [reflexivity|]. apply jget_null. eapply apart_some. exact A.
    + rewrite find_put_other by exact Nk. reflexivity.
Qed.
Lemma jset_other : forall p q v j j', jset p v j = Ok j' -> apart p q = true -> jget q j' = jget q j.
Proof. intros p q v j j' U A. eapply jupd_other; [exact U|exact A]. Qed.
Lemma jset_same : forall p v j j', jset p v j = Ok j' -> jget p j' = Some v.
Proof.
  intros p v. induction p as [|k p IH]; intros j j' U; unfold jset in *; cbn [jupd] in U.
  - injection U as <-. reflexivity.
  - destruct j as [|b|z|g|s|a|m]; try discriminate U.
    + destruct (jupd p _ JNull) as [x| |] eqn:E; cbn [bind] in U; try discriminate U. injection U as <-. cbn [jget obj_find]. rewrite String.eqb_refl. exact (IH _ _ E).
    + destruct (jupd p _ _) as [x| |] eqn:E; cbn [bind] in U; try discriminate U. injection U as <-. cbn [jget]. rewrite find_put. exact (IH _ _ E).
Qed.
Lemma jpush_other : forall p q v j j', jpush p v j = Ok j' -> apart p q = true -> jget q j' = jget q j.
Proof. intros p q v j j' U A. eapply jupd_other; [exact U|exact A]. Qed.

Ltac unbind H :=
  match type of H with
  | bind ?m _ = Ok _ => let X := fresh "B" in let y := fresh "y" in
      destruct m as [y|y|y] eqn:X; cbn [bind] in H; [|discriminate H|discriminate H]
  end.
Ltac got := repeat first
  [ erewrite jset_same; [|eassumption]; reflexivity
  | erewrite jset_other; [|eassumption|reflexivity]
  | erewrite jpush_other; [|eassumption|reflexivity] ].
