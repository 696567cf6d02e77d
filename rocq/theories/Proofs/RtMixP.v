(* RadioText: a text shown is of one message once its first part was received. *)
From Verif.Model Require Import Base Util Group Options Tables Json RdsString Tmc Station Channel.
From Verif.Spec Require Import Unicode JsonText Session Identity History Quality Texts.
From Verif.Proofs Require Import Tac Numerals TextP UpdateP SessionP ChannelP HostP StringP PsP RtP.

Local Open Scope N_scope.
Local Open Scope list_scope.

Lemma place_In : forall l pos x, In x (place pos l) -> exists i, nth_error l i = Some (snd x) /\ fst x = pos + N.of_nat i.
Proof.
  induction l as [|b l IH]; intros pos x I; [destruct I|]. destruct I as [<-|I].
  - exists O. split; [reflexivity|cbn; lia].
  - destruct (IH _ _ I) as (i & E & P). exists (S i). split; [exact E|lia].
Qed.
Lemma parts_placed : forall v message ps, Forall (is_part v message) ps ->
  Forall (fun x => nth_error message (N.to_nat (fst x)) = Some (snd x)) (part_writes ps).
Proof.
  intros v message ps F. rewrite Forall_forall in *. intros x I. apply in_flat_map in I. destruct I as (p & J & I). destruct (F p J) as (_ & _ & P).
  destruct (place_In _ _ _ I) as (i & E & ->). replace (N.to_nat (p_pos p + N.of_nat i)) with (N.to_nat (p_pos p) + i)%nat by lia. exact (P i _ E).
Qed.
Lemma first_there : forall v message x ps, is_part v message x -> p_pos x = 0 -> exists e, In (0, e) (part_writes (x :: ps)).
Proof.
  intros v message x ps (_ & Ne & _) P. destruct (p_chars x) as [|e r] eqn:E; [congruence|]. exists e. unfold part_writes. cbn [flat_map]. rewrite E, P. left. reflexivity.
Qed.
Lemma prefix_nth : forall (A : Type) (l m : list A), (forall i x, nth_error l i = Some x -> nth_error m i = Some x) -> exists r, m = l ++ r.
Proof.
  intros A. induction l as [|x l IH]; intros m H; [exists m; reflexivity|]. destruct m as [|y m]; [discriminate (H O x eq_refl)|].
  pose proof (H O x eq_refl) as E. injection E as ->. destruct (IH m) as [r ->]; [intros i z; exact (H (S i) z)|]. exists r. reflexivity.
Qed.

(* The characters of a text without gaps that are in some of the latest parts are the message's *)
Lemma of_message : forall v message before x after e m l, Forall (is_part v message) (x :: after) -> p_pos x = 0 ->
  before ++ x :: after = e ++ m -> gapless (part_writes m) l -> exists r, message = l ++ r.
Proof.
  intros v message before x after e m l F P E G. apply prefix_nth. destruct (suffix_split _ _ _ _ _ _ (eq_sym E)) as [[k K]|[k ->]].
  - apply (gapless_since [] (part_writes m) l message); [exact G| |].
    + destruct G as [S _]. destruct (sequence_since_0 _ _ S) as (w1 & w2 & -> & _ & b & w3 & -> & _). exists b. apply in_or_app. right. left. reflexivity.
    + apply (parts_placed v). assert (F2 : Forall (is_part v message) (k ++ m)) by (rewrite <- K; apply Forall_cons_iff in F; apply F). apply Forall_app in F2. apply F2.
  - apply (gapless_since (part_writes k) (part_writes (x :: after)) l message).
    + unfold part_writes in *. rewrite <- flat_map_app. exact G.
    + apply (first_there v message); [|exact P]. apply Forall_cons_iff in F. apply F.
    + apply (parts_placed v). exact F.
Qed.
Lemma text_end : forall t, rds_text (t ++ [end_of_text]) = rds_text t ++ [0x20].
Proof. intros t. unfold rds_text, utf8_text. rewrite map_app, flat_map_app. reflexivity. Qed.
Lemma trimmed_blank : forall t s, trimmed (t ++ [0x20]) s -> trimmed t s.
Proof.
  intros t s (n & E & N0). destruct n as [|n].
  - rewrite app_nil_r in E. exfalso. exact (N0 t (eq_sym E)).
  - exists n. split; [|exact N0]. replace (S n) with (n + 1)%nat in E by lia. rewrite repeat_app, app_assoc in E. apply app_inj_tail in E. apply E.
Qed.

(* Either the whole message, or a beginning shown with the first part *)
Lemma rt_one_message : forall v message before x after s, Forall (is_part v message) (x :: after) -> p_pos x = 0 -> N.of_nat (length message) <= rt_size v ->
  rt_shown (before ++ x :: after) s ->
  (exists t, text_of_message message t /\ trimmed (rds_text t) s) \/
  (exists rest q, x :: after = rest ++ [q] /\ p_pos q = 0 /\ (rest <> [] -> exists t r, message = t ++ r /\ (1 < length t)%nat /\ ~ In end_of_text t /\ trimmed (rds_text t) s)).
Proof.
  intros v message before x after s F P L [(e & m & v' & l & f & E & U & (G & C) & T)|(b & q & E & P0 & (e & m & v' & l & f & E1 & U & G & L1 & N1 & T) & _)].
  - left. destruct (of_message v message before x after e m l F P E G) as [r Em].
    assert (V : v' = v).
    { destruct (snoc_cases _ m) as [->|(m0 & z & ->)]; [destruct G as [S _]; destruct (sequence_since_0 _ _ S) as (w1 & w2 & X & _ & b & w3 & -> & _); destruct w1; discriminate|].
      apply Forall_app in U. destruct U as [_ U]. apply Forall_cons_iff in U. destruct U as [[_ <-] _].
      assert (I : exists y, x :: after = y ++ [z]).
      { destruct (snoc_cases _ after) as [->|(a0 & y & ->)].
        - exists []. change (before ++ [x] = e ++ m0 ++ [z]) in E. rewrite app_assoc in E. apply app_inj_tail in E. destruct E as [_ ->]. reflexivity.
        - exists (x :: a0). replace (before ++ x :: a0 ++ [y]) with ((before ++ x :: a0) ++ [y]) in E by (rewrite <- app_assoc; reflexivity). rewrite (app_assoc e) in E. apply app_inj_tail in E. destruct E as [_ ->]. reflexivity. }
      destruct I as [y I]. rewrite I in F. apply Forall_app in F. destruct F as [_ F]. apply Forall_cons_iff in F. apply F. }
    subst v'. destruct C as [[C N0]|(l' & -> & N0)].
    + assert (r = []) as -> by (destruct r; [reflexivity|]; rewrite Em, app_length in L; cbn [length] in L; lia). rewrite app_nil_r in Em. subst message.
      exists l. split; [split; [exact N0|left; reflexivity]|exact T].
    + exists l'. split; [split; [exact N0|right; exists r; rewrite Em, <- app_assoc; reflexivity]|]. rewrite text_end in T. apply trimmed_blank. exact T.
  - right. destruct (snoc_cases _ after) as [->|(a0 & y & ->)].
    + exists [], q. change (before ++ [x] = b ++ [q]) in E. apply app_inj_tail in E. destruct E as [_ ->]. split; [reflexivity|]. split; [exact P0|]. congruence.
    + exists (x :: a0), q. replace (before ++ x :: a0 ++ [y]) with ((before ++ x :: a0) ++ [y]) in E by (rewrite <- app_assoc; reflexivity). apply app_inj_tail in E. destruct E as [Eb ->].
      split; [reflexivity|]. split; [exact P0|]. intros _. assert (F2 : Forall (is_part v message) (x :: a0)).
      { change (x :: a0 ++ [q]) with ((x :: a0) ++ [q]) in F. apply Forall_app in F. apply F. }
      rewrite E1 in Eb. destruct (of_message v message before x a0 e m l F2 P Eb G) as [r Em]. exists l, r. split; [exact Em|]. split; [lia|]. split; assumption.
Qed.

Lemma rt_not_mixed : forall env o w0 gs now g w c out line v0 v message before x after,
  host_ok env -> o_output_type o = OutJSON -> Forall received_group (gs ++ [(now, g, w)]) ->
  run_groups env o (Channel_new o w0) (gs ++ [(now, g, w)]) = Ok (c, out ++ [Some line]) -> says line ["radiotext"%string] v0 ->
  let ps := flat_map rt_segment (decoded_in (gs ++ [(now, g, w)]) (out ++ [Some line])) in
  steady ps -> ps = before ++ x :: after -> p_pos x = 0 -> Forall (is_part v message) (x :: after) -> N.of_nat (length message) <= rt_size v ->
  exists s, v0 = VStr s /\
    ((exists t, text_of_message message t /\ trimmed (rds_text t) s) \/
     (exists rest q, x :: after = rest ++ [q] /\ p_pos q = 0 /\ (rest <> [] -> exists t r, message = t ++ r /\ (1 < length t)%nat /\ ~ In end_of_text t /\ trimmed (rds_text t) s))).
Proof.
  intros env o w0 gs now g w c out line v0 v message before x after H OJ F E S ps Sy Ep P Fp L.
  destruct (rt_complete env o w0 gs now g w c out line v0 H OJ F E S Sy) as (s & Ev & R). exists s. split; [exact Ev|]. fold ps in R. rewrite Ep in R.
  exact (rt_one_message v message before x after s Fp P L R).
Qed.
Lemma first_end : forall t u r r', ~ In end_of_text t -> ~ In end_of_text u -> t ++ end_of_text :: r = u ++ end_of_text :: r' -> t = u.
Proof.
  induction t as [|x t IH]; intros [|y u] r r' Nt Nu E; cbn [app] in E.
  - reflexivity.
  - exfalso. apply Nu. left. congruence.
  - exfalso. apply Nt. left. congruence.
  - injection E as -> E. f_equal. apply (IH u r r'); [intros I; apply Nt; right; exact I|intros I; apply Nu; right; exact I|exact E].
Qed.
