(* The shape of the JSON objects the decoders build: a schema that makes every assignment succeed,
   together with a set of top-level keys known to be absent. *)
From Verif.Proofs Require Import Tac.
From Verif.Model Require Import Json Tmc.

Inductive kind := KAny | KArr | KObj (l : list (string * kind)).

Fixpoint kfind (k : string) (l : list (string * kind)) : option kind :=
  match l with
  | [] => None
  | (k', v) :: r => if String.eqb k k' then Some v else kfind k r
  end.

(* A value fits a kind; null fits everywhere (it becomes what is needed) *)
Fixpoint kconf (kd : kind) (j : json) : Prop :=
  match kd with
  | KAny => True
  | KArr => match j with JNull | JArr _ => True | _ => False end
  | KObj l =>
      match j with
      | JNull => True
      | JObj m =>
          (fix go (l : list (string * kind)) : Prop :=
             match l with
             | [] => True
             | (k, kd') :: r => match obj_find k m with Some v => kconf kd' v | None => True end /\ go r
             end) l
      | _ => False
      end
  end.

Lemma kconf_null : forall kd, kconf kd JNull.
Proof. destruct kd; exact I. Qed.

Fixpoint kmembers (l : list (string * kind)) (m : list (string * json)) : Prop :=
  match l with
  | [] => True
  | (k, kd') :: r => match obj_find k m with Some v => kconf kd' v | None => True end /\ kmembers r m
  end.

Lemma kconf_obj : forall l m, kconf (KObj l) (JObj m) <-> kmembers l m.
Proof.
  intros l m. cbn [kconf]. induction l as [|[k kd] l IH]; [tauto|]. cbn [kmembers]. rewrite IH. tauto.
Qed.

Lemma kmembers_find : forall l m k kd, kmembers l m -> kfind k l = Some kd ->
  match obj_find k m with Some v => kconf kd v | None => True end.
Proof.
  induction l as [|[k' kd'] l IH]; intros m k kd H E; [discriminate|]. cbn [kmembers kfind] in *.
  destruct H as [H1 H2]. destruct (String.eqb_spec k k') as [->|N]; [injection E as <-; exact H1|].
  apply (IH m k kd H2 E).
Qed.

Lemma obj_find_put : forall k v m k', obj_find k' (obj_put k v m) = if String.eqb k' k then Some v else obj_find k' m.
Proof.
  intros k v. induction m as [|[k0 v0] m IH]; intros k'; cbn [obj_put obj_find].
  - reflexivity.
  - destruct (String.eqb_spec k k0) as [->|N]; cbn [obj_find].
    + destruct (String.eqb k' k0); reflexivity.
    + rewrite IH. destruct (String.eqb_spec k' k0) as [->|N']; [|reflexivity].
      destruct (String.eqb_spec k0 k) as [->|]; [contradiction|reflexivity].
Qed.

Lemma kmembers_put : forall l m k v, kmembers l m ->
  (forall kd, In (k, kd) l -> kconf kd v) -> kmembers l (obj_put k v m).
Proof.
  induction l as [|[k' kd'] l IH]; intros m k v H Hv; [exact I|]. cbn [kmembers] in *. destruct H as [H1 H2].
  split; [|apply IH; [exact H2|intros kd Hin; apply Hv; right; exact Hin]].
  rewrite obj_find_put. destruct (String.eqb_spec k' k) as [->|N]; [apply Hv; left; reflexivity|exact H1].
Qed.

(* The kind at a path.  Keys must be listed once. *)
Fixpoint knodup (l : list (string * kind)) : bool :=
  match l with
  | [] => true
  | (k, _) :: r => match kfind k r with Some _ => false | None => knodup r end
  end.

Fixpoint kind_at (kd : kind) (path : list string) : option kind :=
  match path with
  | [] => Some kd
  | k :: p =>
      match kd with
      | KObj l => if knodup l then
                    match kfind k l with
                    | Some kd' => kind_at kd' p
                    | None => match p with [] => Some KAny | _ => None end
                    end
                  else None
      | _ => None
      end
  end.

Lemma kfind_In : forall l k kd, In (k, kd) l -> knodup l = true -> kfind k l = Some kd.
Proof.
  induction l as [|[k' kd'] l IH]; intros k kd H N; [contradiction|]. cbn [knodup kfind] in *.
  destruct (kfind k' l) eqn:E; [discriminate|]. destruct H as [H|H].
  - injection H as -> ->. rewrite String.eqb_refl. reflexivity.
  - destruct (String.eqb_spec k k') as [->|]; [|apply IH; assumption].
    rewrite (IH k' kd H N) in E. discriminate.
Qed.

Lemma jupd_kconf : forall path kd kd' f j, kconf kd j -> kind_at kd path = Some kd' ->
  (forall x, kconf kd' x -> exists y, f x = Ok y /\ kconf kd' y) ->
  exists j', jupd path f j = Ok j' /\ kconf kd j'.
Proof.
  induction path as [|k p IH]; intros kd kd' f j C K F.
  - cbn in K. injection K as <-. cbn [jupd]. apply F. exact C.
  - cbn [kind_at] in K. destruct kd as [| |l]; try discriminate.
    destruct (knodup l) eqn:ND; [|discriminate].
    assert (Step : forall old, (forall kd0, kfind k l = Some kd0 -> kconf kd0 old) ->
              exists v, jupd p f old = Ok v /\ (forall kd0, In (k, kd0) l -> kconf kd0 v)).
    { intros old Hold. destruct (kfind k l) as [kd0|] eqn:E.
      - destruct (IH kd0 kd' f old (Hold kd0 eq_refl) K F) as (v & Ev & Cv). exists v. split; [exact Ev|].
        intros kd1 Hin. apply (kfind_In l k kd1) in Hin; [|exact ND]. rewrite E in Hin. injection Hin as <-. exact Cv.
      - destruct p as [|? ?]; [|discriminate]. injection K as <-.
        destruct (F old I) as (y & Ey & _). exists y. split; [exact Ey|].
        intros kd1 Hin. apply (kfind_In l k kd1) in Hin; [|exact ND]. rewrite E in Hin. discriminate. }
    destruct j as [|b|z|g|s|a|m]; try contradiction C.
    + cbn [jupd]. destruct (Step JNull ltac:(intros; apply kconf_null)) as (v & Ev & Cv).
      rewrite Ev. cbn [bind]. eexists. split; [reflexivity|]. apply kconf_obj.
      apply (kmembers_put l [] k v); [clear; induction l as [|[? ?] l IH]; cbn; auto|exact Cv].
    + cbn [jupd]. apply kconf_obj in C.
      destruct (Step (match obj_find k m with Some v => v | None => JNull end)) as (v & Ev & Cv).
      { intros kd0 E. pose proof (kmembers_find l m k kd0 C E) as Q. destruct (obj_find k m); [exact Q|apply kconf_null]. }
      rewrite Ev. cbn [bind]. eexists. split; [reflexivity|]. apply kconf_obj. apply kmembers_put; assumption.
Qed.

(* What jupd does to the members of the object *)
Lemma jupd_obj : forall k p f m j', jupd (k :: p) f (JObj m) = Ok j' ->
  exists v, j' = JObj (obj_put k v m) /\
            jupd p f (match obj_find k m with Some x => x | None => JNull end) = Ok v.
Proof.
  intros k p f m j' H. cbn [jupd] in H.
  destruct (jupd p f _) as [v| |] eqn:E; cbn [bind] in H; try discriminate. injection H as <-.
  exists v. split; reflexivity.
Qed.

(* The decoders' schema: only keys that hold arrays or objects are listed. *)
Definition rtplus_schema : kind := KObj [("tags"%string, KArr)].
Definition tmc_schema : kind :=
  KObj [("message"%string, KObj []);
        ("system_info"%string, KObj [("scope"%string, KArr)]);
        ("other_network"%string,
         KObj [("frequencies_khz"%string, KArr); ("pi_codes"%string, KArr); ("scope"%string, KArr)])].
Definition top_schema : kind :=
  KObj [("debug"%string, KArr);
        ("di"%string, KObj []);
        ("alt_frequencies_b"%string, KObj [("same_programme"%string, KArr); ("regional_variants"%string, KArr)]);
        ("alt_frequencies_a"%string, KArr);
        ("partial_alt_frequencies"%string, KArr);
        ("prog_item_started"%string, KObj []);
        ("open_data_app"%string, KObj []);
        ("transparent_data"%string, KObj []);
        ("in_house_data"%string, KArr);
        ("other_network"%string, KObj [("alt_frequencies"%string, KArr); ("prog_item_started"%string, KObj [])]);
        ("radiotext_plus"%string, rtplus_schema);
        ("ert_plus"%string, rtplus_schema);
        ("dab"%string, KObj []);
        ("unknown_oda"%string, KObj []);
        ("rft"%string, KObj [("data"%string, KObj []); ("file_info"%string, KObj []); ("crc_info"%string, KObj [])]);
        ("tmc"%string, tmc_schema)].

(* [conf F R j]: j is an object of that shape in which every key k selected by F has the value R k
   (None: is absent); no key occurs twice. *)
Definition conf (F : string -> bool) (R : string -> option json) (j : json) : Prop :=
  exists m, j = JObj m /\ (kconf top_schema (JObj m) /\ NoDup (map fst m)) /\
            forall k, F k = true -> obj_find k m = R k.

Definition absent : string -> option json := fun _ => None.

Lemma conf_empty : forall F, conf F absent (JObj []).
Proof. intros F. exists []. split; [reflexivity|]. split; [split; [cbn; tauto|constructor]|reflexivity]. Qed.

Lemma conf_get : forall F R j k, conf F R j -> F k = true -> jget [k] j = R k.
Proof.
  intros F R j k (m & -> & _ & A) H. cbn [jget]. specialize (A k H). rewrite A. destruct (R k); reflexivity.
Qed.

Lemma conf_weaken : forall F R F' R' j, conf F R j ->
  (forall k, F' k = true -> F k = true /\ R' k = R k) -> conf F' R' j.
Proof.
  intros F R F' R' j (m & -> & C & A) H. exists m. split; [reflexivity|]. split; [exact C|].
  intros k Hk. destruct (H k Hk) as [H1 H2]. rewrite H2. apply A, H1.
Qed.

(* What is in the object now stays in it *)
Lemma conf_now : forall F R F' j, conf F R j -> conf F' (fun k => jget [k] j) j.
Proof.
  intros F R F' j (m & -> & C & A). exists m. split; [reflexivity|]. split; [exact C|].
  intros k _. cbn [jget]. destruct (obj_find k m); reflexivity.
Qed.

Lemma obj_put_keys : forall k v m x, In x (map fst (obj_put k v m)) <-> x = k \/ In x (map fst m).
Proof.
  intros k v. induction m as [|[k0 v0] m IH]; intros x; cbn [obj_put map fst In].
  - split; intros [H|H]; auto.
  - destruct (String.eqb_spec k k0) as [->|N]; cbn [map fst In]; [|rewrite IH]; split; intros H; intuition congruence.
Qed.
Lemma obj_put_nodup : forall k v m, NoDup (map fst m) -> NoDup (map fst (obj_put k v m)).
Proof.
  intros k v. induction m as [|[k0 v0] m IH]; intros H; cbn [obj_put map fst].
  - constructor; [intros []|constructor].
  - cbn [map fst] in H. inversion H; subst. destruct (String.eqb_spec k k0) as [->|N]; cbn [map fst].
    + constructor; assumption.
    + constructor; [|apply IH; assumption]. rewrite obj_put_keys. intros [E|E]; [congruence|contradiction].
Qed.

Definition head_key (path : list string) : string := hd EmptyString path.

Lemma jupd_conf : forall F R path kd f j, conf F R j -> kind_at top_schema path = Some kd -> path <> [] ->
  F (head_key path) = false ->
  (forall x, kconf kd x -> exists y, f x = Ok y /\ kconf kd y) ->
  exists j', jupd path f j = Ok j' /\ conf F R j'.
Proof.
  intros F R path kd f j (m & -> & (C & ND) & A) K NE Fk Hf.
  destruct (jupd_kconf path top_schema kd f (JObj m) C K Hf) as (j' & E & C').
  exists j'. split; [exact E|]. destruct path as [|k p]; [contradiction|].
  destruct (jupd_obj k p f m j' E) as (v & -> & _). exists (obj_put k v m).
  split; [reflexivity|]. split; [split; [exact C'|apply obj_put_nodup; exact ND]|]. intros k' Hk'. rewrite obj_find_put.
  destruct (String.eqb_spec k' k) as [->|N]; [cbn in Fk; congruence|apply A; exact Hk'].
Qed.

(* A computation that succeeds with a result satisfying P *)
Definition good {A : Type} (P : A -> Prop) (r : res A) : Prop := exists a, r = Ok a /\ P a.

Lemma good_ok : forall (A : Type) (P : A -> Prop) a, P a -> good P (Ok a).
Proof. intros A P a H. exists a. split; [reflexivity|exact H]. Qed.

Lemma good_bind : forall (A B : Type) (P : A -> Prop) (Q : B -> Prop) m f,
  good P m -> (forall a, P a -> good Q (f a)) -> good Q (bind m f).
Proof. intros A B P Q m f (a & -> & Ha) H. cbn [bind]. apply H, Ha. Qed.

Lemma good_imp : forall (A : Type) (P Q : A -> Prop) r, good P r -> (forall a, P a -> Q a) -> good Q r.
Proof. intros A P Q r (a & -> & Ha) H. exists a. split; [reflexivity|apply H, Ha]. Qed.

Lemma jset_conf : forall F R path kd v j, conf F R j -> kind_at top_schema path = Some kd -> path <> [] ->
  F (head_key path) = false -> kconf kd v -> good (conf F R) (jset path v j).
Proof.
  intros F R path kd v j C K NE Fk Hv. unfold jset, good. eapply jupd_conf; try eassumption.
  intros x _. exists v. split; [reflexivity|exact Hv].
Qed.

Lemma jset_any : forall F R path v j, conf F R j -> kind_at top_schema path = Some KAny -> path <> [] ->
  F (head_key path) = false -> good (conf F R) (jset path v j).
Proof. intros F R path v j C K NE Fk. eapply jset_conf; try eassumption. exact I. Qed.

Lemma jpush_conf : forall F R path v j, conf F R j -> kind_at top_schema path = Some KArr -> path <> [] ->
  F (head_key path) = false -> good (conf F R) (jpush path v j).
Proof.
  intros F R path v j C K NE Fk. unfold jpush, good. eapply jupd_conf; try eassumption.
  intros x Hx. cbn [kconf] in Hx. destruct x; try contradiction; eexists; (split; [reflexivity|exact I]).
Qed.

Lemma jpush_all_conf : forall F R path l j, conf F R j -> kind_at top_schema path = Some KArr -> path <> [] ->
  F (head_key path) = false -> good (conf F R) (jpush_all path l j).
Proof.
  intros F R path l. induction l as [|v l IH]; intros j C K NE Fk; [apply good_ok; exact C|].
  cbn [jpush_all]. apply (good_bind _ _ (conf F R)); [apply jpush_conf; assumption|]. intros j1 C1.
  apply IH; assumption.
Qed.

(* [writes F keys]: none of the keys is fixed by F *)
Definition writes (F : string -> bool) (keys : list string) : Prop := Forall (fun k => F k = false) keys.

Lemma writes_in : forall F keys k, writes F keys -> existsb (String.eqb k) keys = true -> F k = false.
Proof.
  intros F keys k W E. apply existsb_exists in E. destruct E as (k' & Hin & Heq).
  apply String.eqb_eq in Heq. subst k'. revert k Hin. apply Forall_forall. exact W.
Qed.

Lemma writes_sub : forall F keys keys', writes F keys ->
  forallb (fun k => existsb (String.eqb k) keys) keys' = true -> writes F keys'.
Proof.
  intros F keys keys' W E. apply Forall_forall. intros k Hk. rewrite forallb_forall in E.
  apply (writes_in F keys k W), E, Hk.
Qed.

Ltac fkey := match goal with W : writes ?F ?keys |- ?F _ = false =>
  apply (writes_in F keys _ W); reflexivity end.

(* One assignment *)
Ltac assign :=
  first
  [ apply jset_any; [assumption|reflexivity|discriminate|cbn [head_key hd app]; fkey]
  | eapply jset_conf; [eassumption|reflexivity|discriminate|cbn [head_key hd app]; fkey|]
  | apply jpush_conf; [assumption|reflexivity|discriminate|cbn [head_key hd app]; fkey]
  | apply jpush_all_conf; [assumption|reflexivity|discriminate|cbn [head_key hd app]; fkey] ].
