(* The TMC decoder over a history: encryption, key and message under construction. *)
From Verif.Model Require Import Util Group Options Tables Json Freq RdsString Tmc Station Channel.
From Verif.Spec Require Import Numerals Unicode JsonText Session Identity History Quality Texts Apps Fields Frequencies Traffic.
From Verif.Proofs Require Import Tac Numerals JsonP Schema StationP TextP CleanP UpdateP SessionP LineP FrameP ChannelP LinesP HistoryP ShowP TraceP KeysP GetP FieldsP StringP PsP RtP EndP LpsP AppsP AfP TmcP TmcMsgP TmcLineP.

Local Open Scope string_scope.
Local Open Scope N_scope.
Local Open Scope list_scope.

Definition item_ok (i : app_item) : Prop :=
  match i with Announced _ a m => a < 65536 /\ m < 65536 | AppData _ b2 b3 b4 => b2 < 65536 /\ b3 < 65536 /\ b4 < 65536 end.
Lemma items_ok : forall now g w, received_group (now, g, w) -> Forall item_ok (app_items (g, w)).
Proof.
  intros now g w (_ & _ & R2 & R3 & R4). unfold app_items. apply Forall_app. split.
  - unfold announcement. destruct (carries 3 g w); [|constructor]. destruct (gt_version (g_type g)); repeat constructor; assumption.
  - destruct (_ && _); [|constructor]. repeat constructor; assumption.
Qed.

(* TMC is assigned to groups 8A and to no others *)
Definition settled (A : list (GroupType * N)) : Prop := forall t, to_tmc A t = GroupType_eqb t type_8A.
Definition in_place (i : app_item) : Prop :=
  match i with Announced t a _ => (is_tmc a = true -> t = type_8A) /\ (t = type_8A -> is_tmc a = true) | AppData _ _ _ _ => True end.
Lemma type_eqb_eq : forall a b, GroupType_eqb a b = true -> a = b.
Proof.
  intros [n v] [n' v'] E. unfold GroupType_eqb in E. cbn [gt_number gt_version] in E. apply andb_prop in E. destruct E as [E1 E2]. apply N.eqb_eq in E1. subst. f_equal. destruct v, v'; try discriminate; reflexivity.
Qed.
Lemma settled_cons : forall A t a, settled A -> (is_tmc a = true -> t = type_8A) -> (t = type_8A -> is_tmc a = true) -> settled ((t, a) :: A).
Proof.
  intros A t a S H1 H2 t'. unfold to_tmc. cbn [find_type]. destruct (GroupType_eqb t' t) eqn:E; [|apply S]. apply type_eqb_eq in E. subst t'.
  destruct (is_tmc a) eqn:Ea; [rewrite (H1 eq_refl); reflexivity|]. destruct (GroupType_eqb t type_8A) eqn:E8; [|reflexivity]. apply type_eqb_eq in E8. discriminate (H2 E8).
Qed.
Lemma settled_all : forall d l A v, settled A -> Forall in_place l -> settled (fst (fold_left (ti_do d) l (A, v))).
Proof.
  intros d l. induction l as [|i l IH]; intros A v S F; [exact S|]. cbn [fold_left]. inversion F as [|? ? Fi F']; subst. destruct i as [t a m|t b2 b3 b4]; cbn [ti_do]; apply IH; try assumption.
  apply settled_cons; [exact S|apply Fi|apply Fi].
Qed.
Lemma settled_nil : settled [].
Proof. intros t. reflexivity. Qed.
Lemma in_places : forall l, tmc_in_8A l -> stays_tmc l -> Forall in_place l.
Proof.
  intros l H1 H2. apply Forall_forall. intros [t a m|t b2 b3 b4] X; [|exact Logic.I]. split; [exact (H1 t a m X)|]. intros ->. exact (H2 a m X).
Qed.

(* With this, a step of the decoder *)
Definition t_do (d : TmcData) (v : view) (i : app_item) : view :=
  match i with
  | Announced _ a m => if is_tmc a then v_system v m else v
  | AppData t b2 b3 b4 => if GroupType_eqb t type_8A then v_user d v (b2 mod 32) b3 b4 else v
  end.
Lemma plain_fold : forall d l A v, settled A -> Forall in_place l -> snd (fold_left (ti_do d) l (A, v)) = fold_left (t_do d) l v.
Proof.
  intros d l. induction l as [|i l IH]; intros A v S F; [reflexivity|]. cbn [fold_left]. inversion F as [|? ? Fi F']; subst. destruct i as [t a m|t b2 b3 b4]; cbn [ti_do t_do].
  - apply IH; [apply settled_cons; [exact S|apply Fi|apply Fi]|exact F'].
  - rewrite S. apply IH; assumption.
Qed.

(* User groups by the five bits *)
Definition user_kind (d : TmcData) (v : view) (x y z : N) : view :=
  if negb (v_init v) then v else
  if x =? 0 then mkView true (v_enc v) true (z / 1024) (y mod 32) (v_msg v)
  else if v_enc v && negb (v_has v) then v
  else if x <=? 7 then v_set_msg v (msg_do d (v_enc v) (v_msg v) (x, (y, z))) else v.
Lemma user_cases : forall d v x y z, x < 32 -> z < 65536 -> v_user d v x y z = user_kind d v x y z.
Proof.
  intros d v x y z Hx Hz. unfold v_user, user_kind. destruct (v_init v) eqn:Ei; cbn [negb]; [|reflexivity].
  assert (E5 : getBits 5 x 0 = x) by (rewrite getBits_arith; change (2 ^ 0) with 1; rewrite N.div_1_r; apply N.mod_small; exact Hx).
  assert (X : In x (nseq 0 32)) by (apply nseq_In; lia).
  assert (E4 : getBool x 4 = (16 <=? x)) by (clear - X; cbv in X; repeat (destruct X as [<-|X]; [reflexivity|]); destruct X).
  assert (E3 : 16 <=? x = false -> getBool x 3 = (8 <=? x)) by (clear - X; intros H; cbv in X; repeat (destruct X as [<-|X]; [try discriminate H; reflexivity|]); destruct X).
  rewrite E5, E4. destruct (N.eqb_spec x 0) as [->|N0].
  - f_equal; rewrite getBits_arith; [change (2 ^ 10) with 1024; change (2 ^ 6) with 64; apply N.mod_small; lia|change (2 ^ 0) with 1; rewrite N.div_1_r; reflexivity].
  - destruct (16 <=? x) eqn:E16; [destruct (_ && _); [reflexivity|]; replace (x <=? 7) with false by lia; reflexivity|]. destruct (_ && _); [reflexivity|]. rewrite (E3 eq_refl).
    destruct (8 <=? x) eqn:E8; [replace (x <=? 7) with false by lia; reflexivity|]. replace (x <=? 7) with true by lia.
    unfold v_multi, msg_do. cbn [fst snd]. rewrite ci_of by lia. reflexivity.
Qed.

(* Announcements of variant 0 all say the same about encryption *)
Definition enc_is (e : bool) (l : list app_item) : Prop :=
  forall t a m, In (Announced t a m) l -> is_tmc a = true -> variant m = 0 -> (table_number m =? 0) = e.
Definition msg_of (e : bool) (m : Message) : Prop := pending e m \/ m = Message_new false.
Definition unlocked (e : bool) (v : view) : Prop := (v_init v = true -> v_enc v = e) /\ msg_of e (v_msg v).
Lemma msg_do_of : forall d e m q, msg_of e m -> 0 < fst q -> pending e (msg_do d e m q).
Proof.
  intros d e m q [P| ->] H; [apply msg_do_pending, P|]. assert (X : msg_do d e (Message_new false) q = msg_do d e (Message_new e) q).
  { unfold msg_do. cbn [m_continuity_index Message_new]. replace (fst q =? 0) with false by lia. reflexivity. }
  rewrite X. apply msg_do_pending, new_pending.
Qed.
Lemma variant_small : forall m, m < 65536 -> variant m mod 4 = variant m.
Proof. intros m H. unfold variant. apply N.mod_small. lia. Qed.
Lemma kept_step : forall d e v i, item_ok i -> enc_is e [i] -> unlocked e v -> unlocked e (t_do d v i).
Proof.
  intros d e v [t a m|t b2 b3 b4] Hi He [U1 U2]; cbn [t_do].
  - destruct (is_tmc a) eqn:Ea; [|split; assumption]. unfold v_system. rewrite variant_small by apply Hi. destruct (N.eqb_spec (variant m) 0) as [E|E]; [|split; assumption].
    split; [|exact U2]. intros _. cbn [v_enc]. apply (He t a m); [left; reflexivity|exact Ea|exact E].
  - destruct (GroupType_eqb t type_8A); [|split; assumption]. destruct Hi as (H2 & H3 & H4). assert (Hx : b2 mod 32 < 32) by (apply N.mod_lt; discriminate). rewrite user_cases by assumption. unfold user_kind. revert Hx. generalize (b2 mod 32). intros x Hx.
    destruct (v_init v) eqn:Ei; cbn [negb]; [|split; [rewrite Ei; exact U1|exact U2]]. specialize (U1 eq_refl). destruct (N.eqb_spec x 0) as [->|N0]; [split; [intros _; exact U1|exact U2]|].
    destruct (_ && _); [split; [intros _; exact U1|exact U2]|]. destruct (x <=? 7); [|split; [intros _; exact U1|exact U2]].
    split; [intros _; exact U1|]. cbn [v_set_msg v_msg]. left. rewrite U1. apply msg_do_of; [exact U2|]. cbn [fst]. lia.
Qed.
Lemma enc_is_app : forall e a b, enc_is e (a ++ b) -> enc_is e a /\ enc_is e b.
Proof. intros e a b H. split; intros t x m X; apply (H t x m); apply in_or_app; [left|right]; exact X. Qed.
Lemma kept_fold : forall d e l v, Forall item_ok l -> enc_is e l -> unlocked e v -> unlocked e (fold_left (t_do d) l v).
Proof.
  intros d e l. induction l as [|i l IH]; intros v F He U; [exact U|]. cbn [fold_left]. inversion F; subst. destruct (enc_is_app e [i] l He) as [He1 He2].
  apply IH; [assumption|exact He2|]. apply kept_step; assumption.
Qed.
Lemma init_step : forall d v i, v_init v = true -> v_init (t_do d v i) = true.
Proof.
  intros d v [t a m|t b2 b3 b4] H; cbn [t_do].
  - destruct (is_tmc a); [|exact H]. unfold v_system. destruct (_ =? 0); [reflexivity|exact H].
  - destruct (GroupType_eqb t type_8A); [|exact H]. unfold v_user. rewrite H. cbn [negb]. repeat (match goal with |- context [if ?b then _ else _] => destruct b end; [first [exact H|reflexivity]|]). exact H.
Qed.
Lemma init_fold : forall d l v, v_init v = true -> v_init (fold_left (t_do d) l v) = true.
Proof. intros d l. induction l as [|i l IH]; intros v H; [exact H|]. cbn [fold_left]. apply IH, init_step, H. Qed.
(* an announcement of variant 0 starts the service *)
Definition starts (l : list app_item) : Prop := exists t a m, In (Announced t a m) l /\ is_tmc a = true /\ variant m = 0.
Lemma started : forall d l v, starts l -> v_init (fold_left (t_do d) l v) = true.
Proof.
  intros d l v (t & a & m & X & Ea & Em). apply in_split in X. destruct X as (l1 & l2 & ->). rewrite fold_left_app. cbn [fold_left]. apply init_fold.
  cbn [t_do]. rewrite Ea. unfold v_system. rewrite Em. reflexivity.
Qed.
Lemma v0_unlocked : forall e, unlocked e v0.
Proof. intros e. split; [discriminate|right; reflexivity]. Qed.

(* The message under construction *)
Lemma multi_app : forall a b, multi_groups (a ++ b) = multi_groups a ++ multi_groups b.
Proof. intros a b. unfold multi_groups, user_groups. rewrite !flat_map_app. reflexivity. Qed.
Lemma has_step : forall d v i, v_has v = true -> v_has (t_do d v i) = true.
Proof.
  intros d v [t a m|t b2 b3 b4] H; cbn [t_do].
  - destruct (is_tmc a); [|exact H]. unfold v_system. destruct (_ =? 0); exact H.
  - destruct (GroupType_eqb t type_8A); [|exact H]. unfold v_user. destruct (negb (v_init v)); [exact H|]. repeat (match goal with |- context [if ?b then _ else _] => destruct b end; [first [exact H|reflexivity]|]). exact H.
Qed.
Lemma multi_fold : forall d e l v, Forall item_ok l -> enc_is e l -> unlocked e v -> v_init v = true -> (e = true -> v_has v = true) ->
  v_msg (fold_left (t_do d) l v) = fold_left (msg_do d e) (multi_groups l) (v_msg v).
Proof.
  intros d e l. induction l as [|i l IH]; intros v F He U Hv Hh; [reflexivity|]. cbn [fold_left]. inversion F as [|? ? Fi F']; subst. destruct (enc_is_app e [i] l He) as [He1 He2].
  rewrite (IH _ F' He2 (kept_step d e v i Fi He1 U) (init_step d v i Hv) (fun X => has_step d v i (Hh X))). change (i :: l) with ([i] ++ l). rewrite multi_app, fold_left_app. f_equal.
  destruct U as [U1 _]. specialize (U1 Hv).
  destruct i as [t a m|t b2 b3 b4]; cbn [t_do].
  - destruct (is_tmc a); [|reflexivity]. unfold v_system. destruct (_ =? 0); reflexivity.
  - unfold multi_groups, user_groups. cbn [flat_map]. destruct (GroupType_eqb t type_8A); [|reflexivity]. rewrite user_cases by (try apply Fi; apply N.mod_lt; discriminate).
    cbn [app flat_map]. rewrite app_nil_r. unfold user_kind. rewrite Hv, U1. cbn [negb]. generalize (b2 mod 32). intros x. destruct (N.eqb_spec x 0) as [->|N0]; [reflexivity|].
    replace (e && negb (v_has v)) with false by (destruct e; [rewrite Hh by reflexivity|]; reflexivity).
    replace (1 <=? x) with true by lia. cbn [andb]. destruct (x <=? 7); reflexivity.
Qed.

(* The key *)
Definition is_key (i : app_item) : bool := existsb (fun u => fst (fst u) =? 0) (user_groups [i]).
Lemma key_step : forall d v i, item_ok i -> is_key i = false -> v_has (t_do d v i) = v_has v /\ v_id (t_do d v i) = v_id v.
Proof.
  intros d v [t a m|t b2 b3 b4] Hi K; cbn [t_do].
  - destruct (is_tmc a); [|auto]. unfold v_system. destruct (_ =? 0); auto.
  - unfold is_key, user_groups in K. cbn [flat_map] in K. destruct (GroupType_eqb t type_8A); [|auto]. cbn [app existsb fst] in K. rewrite orb_false_r in K.
    rewrite user_cases by (try apply Hi; apply N.mod_lt; discriminate). unfold user_kind. rewrite K. destruct (negb _); [auto|]. destruct (_ && _); [auto|]. destruct (_ <=? 7); auto.
Qed.
Lemma key_fold : forall d l v, Forall item_ok l -> Forall (fun i => is_key i = false) l -> v_has (fold_left (t_do d) l v) = v_has v /\ v_id (fold_left (t_do d) l v) = v_id v.
Proof.
  intros d l. induction l as [|i l IH]; intros v F K; [auto|]. cbn [fold_left]. inversion F; subst. inversion K; subst.
  destruct (IH (t_do d v i)) as [E1 E2]; try assumption. destruct (key_step d v i) as [E3 E4]; try assumption. split; congruence.
Qed.
(* The number of the location table *)
Definition sets_table (i : app_item) : bool :=
  is_key i || match i with Announced _ a m => is_tmc a && (variant m =? 0) && negb (table_number m =? 0) | AppData _ _ _ _ => false end.
Lemma table_step : forall d v i, item_ok i -> sets_table i = false -> v_ltn (t_do d v i) = v_ltn v.
Proof.
  intros d v i Hi K. unfold sets_table in K. apply orb_false_elim in K. destruct K as [K1 K2]. destruct i as [t a m|t b2 b3 b4]; cbn [t_do].
  - destruct (is_tmc a); [|auto]. unfold v_system. rewrite variant_small by apply Hi. cbn [andb] in K2. destruct (variant m =? 0); [|auto]. cbn [andb] in K2. apply negb_false_iff in K2. cbn [v_ltn]. rewrite K2. reflexivity.
  - unfold is_key, user_groups in K1. cbn [flat_map] in K1. destruct (GroupType_eqb t type_8A); [|auto]. cbn [app existsb fst] in K1. rewrite orb_false_r in K1.
    rewrite user_cases by (try apply Hi; apply N.mod_lt; discriminate). unfold user_kind. rewrite K1. destruct (negb _); [auto|]. destruct (_ && _); [auto|]. destruct (_ <=? 7); auto.
Qed.
Lemma table_fold : forall d l v, Forall item_ok l -> Forall (fun i => sets_table i = false) l -> v_ltn (fold_left (t_do d) l v) = v_ltn v.
Proof.
  intros d l. induction l as [|i l IH]; intros v F K; [auto|]. cbn [fold_left]. inversion F; subst. inversion K; subst. rewrite IH by assumption. apply table_step; assumption.
Qed.

(* In terms of the specification *)
Lemma enc_never : forall l, never_encrypted l <-> enc_is false l.
Proof. intros l. split; intros H t a m X Y Z; specialize (H t a m X Y Z); [apply N.eqb_neq; exact H|apply N.eqb_neq in H; exact H]. Qed.
Lemma enc_always : forall l, always_encrypted l <-> enc_is true l.
Proof. intros l. split; intros H t a m X Y Z; specialize (H t a m X Y Z); [apply N.eqb_eq; exact H|apply N.eqb_eq in H; exact H]. Qed.
Lemma not_key : forall i, ~ gives_key i -> is_key i = false.
Proof.
  intros i H. unfold is_key. apply not_true_is_false. intros E. apply existsb_exists in E. destruct E as ([[x y] z] & X & E). cbn [fst] in E. apply N.eqb_eq in E. subst x. apply H. exists y, z. exact X.
Qed.
Lemma user_item : forall i x y z, user_groups [i] = [(x, y, z)] -> exists b2, i = AppData type_8A b2 y z /\ x = b2 mod 32.
Proof.
  intros [t a m|t b2 b3 b4] x y z E; [discriminate|]. unfold user_groups in E. cbn [flat_map] in E. destruct (GroupType_eqb t type_8A) eqn:Et; [|discriminate]. apply type_eqb_eq in Et. subst t.
  exists b2. cbn [app] in E. split; congruence.
Qed.
Lemma key_known : forall d l v key, Forall item_ok l -> last_key l key ->
  let v' := fold_left (t_do d) l v in v_init v' = true /\ v_has v' = true /\ v_id v' = key.
Proof.
  intros d l v key F (l1 & i & l2 & y & z & -> & St & U & Ey & N2). cbv zeta. rewrite fold_left_app. cbn [fold_left]. apply Forall_app in F. destruct F as [F1 F]. inversion F as [|? ? Fi F2]; subst.
  set (v1 := fold_left (t_do d) l1 v). assert (I1 : v_init v1 = true) by (apply started; exact St).
  destruct (user_item _ _ _ _ U) as (b2 & -> & Eb).
  assert (K : t_do d v1 (AppData type_8A b2 y z) = mkView true (v_enc v1) true (z / 1024) (y mod 32) (v_msg v1)).
  { cbn [t_do]. change (GroupType_eqb type_8A type_8A) with true. cbv iota. rewrite user_cases by (try apply Fi; apply N.mod_lt; discriminate). unfold user_kind. rewrite I1, <- Eb. reflexivity. }
  split; [apply init_fold; rewrite K; reflexivity|]. destruct (key_fold d l2 (t_do d v1 (AppData type_8A b2 y z)) F2) as [E1 E2].
  { apply Forall_forall. intros x X. apply not_key, N2, X. }
  rewrite E1, E2, K. auto.
Qed.
Lemma table_known : forall d l v table, Forall item_ok l -> last_table l table -> table <> 0 -> v_ltn (fold_left (t_do d) l v) = table.
Proof.
  intros d l v table F (l1 & t & a & m & l2 & -> & Ea & Em & Et & N2 & O2) N0. rewrite fold_left_app. cbn [fold_left]. apply Forall_app in F. destruct F as [F1 F]. inversion F as [|? ? Fi F2]; subst.
  set (v1 := t_do d (fold_left (t_do d) l1 v) (Announced t a m)). assert (L1 : v_ltn v1 = table_number m).
  { unfold v1. cbn [t_do]. rewrite Ea. unfold v_system. rewrite Em. cbn [v_ltn N.eqb N.modulo]. replace (table_number m =? 0) with false by lia. reflexivity. }
  clearbody v1. revert v1 L1. clear F F1 Fi. induction l2 as [|i l2 IH]; intros v1 L1; [exact L1|]. cbn [fold_left]. inversion F2 as [|? ? Fi F3]; subst. apply IH; [|intros t' a' m' X; apply (O2 t' a' m'); right; exact X|exact F3|].
  - intros x X. apply N2. right. exact X.
  - destruct (sets_table i) eqn:Es; [|rewrite table_step by assumption; exact L1]. unfold sets_table in Es. rewrite (not_key i) in Es by (apply N2; left; reflexivity). cbn [orb] in Es.
    destruct i as [t' a' m'|]; [|discriminate]. apply andb_prop in Es. destruct Es as [Es _]. apply andb_prop in Es. destruct Es as [Es1 Es2]. apply N.eqb_eq in Es2.
    cbn [t_do]. rewrite Es1. unfold v_system. rewrite Es2. specialize (O2 t' a' m' (or_introl eq_refl) Es1 Es2). cbn [v_ltn N.eqb N.modulo]. rewrite O2. replace (table_number m =? 0) with false by lia. reflexivity.
Qed.
