(* C38, C39: files. *)
From Verif.Model Require Import Base Util Group Options Tables Json Rft Tmc Station Channel.
From Verif.Spec Require Import JsonText Base64 Session Identity History Files Host Cases.
From Verif.Proofs Require Import Tac Numerals TextP UpdateP SessionP ChannelP LineP ShowP TraceP PsP HostP TraceLP FilesP.
From Verif.Props Require Import P_Channel P_Radiotext.

Local Open Scope string_scope.
Local Open Scope N_scope.
Local Open Scope list_scope.

(* --- C39 --- *)
(* A file is shown only with a segment of it, when its size is known and every byte of it has been
   received in a segment with the same toggle bit since the toggle bit was last different and since a file
   was last shown for that pipe; each byte is the one received last.  h are the lines since the station was
   adopted. *)
Theorem C39_only_complete_files : forall env o w0 gs now g w c out line v,
  host_ok env -> host_text env -> o_output_type o = OutJSON ->
  Forall received_group (gs ++ [(now, g, w)]) ->
  run_groups env o (Channel_new o w0) (gs ++ [(now, g, w)]) = Ok (c, out ++ [Some line]) ->
  says line contents v ->
  exists old h q t a d n text file, lines_in gs out = old ++ h /\
    segment_in (g, w) = Some (q, t, a, d) /\ last_size q (rev h) = Some n /\ 0 < n /\
    v = VStr text /\ decode64 text = Some file /\ bytes_from ((a, d) :: segments_since q t (rev h)) n file.
Proof.
  intros env o w0 gs now g w c out line v H HT OJ F E Sy.
  destruct (last_file env o H HT OJ gs now g w w0 c out line F E) as (old & h & D & Ls). unfold line_shows in Ls. unfold says in Sy.
  destruct (segment_in (g, w)) as [[[[q t] a] d]|]; [|congruence]. cbv zeta in Ls. destruct Ls as [(n & file & text & (Sz & Pn & _) & Sl & De & Bf)|[_ Nl]]; [|congruence].
  exists old, h, q, t, a, d, n, text, file. unfold says in Sl. repeat (split; [assumption || congruence || reflexivity|]). exact Bf.
Qed.
Print Assumptions C39_only_complete_files.

(* --- C38 --- *)
(* gs0: groups until the program has settled on station p.  gs1: further groups.  gs2: groups that say
   nothing about pipe q but segments of the file, in any order and any number of times, and its size. *)
Definition transmission (env : Env) (o : Options) (w0 p : N) (gs0 gs1 gs2 : list (Z * Group * N)) (out1 out2 : list (option bytes)) (q t : N) (file : list N) : Prop :=
  Forall received_group (gs0 ++ gs1 ++ gs2) /\ p <> 0 /\ three p (pis gs0) /\ Forall (stays p) (gs1 ++ gs2) /\
  (exists c out0, run_groups env o (Channel_new o w0) (gs0 ++ gs1 ++ gs2) = Ok (c, out0 ++ out1 ++ out2) /\ length out0 = length gs0 /\ length out1 = length gs1) /\
  0 < N.of_nat (length file) <= largest_file /\
  new_file q t (groups_of (gs0 ++ gs1)) (lines_in gs1 out1) /\
  no_other_size q (N.of_nat (length file)) (groups_of (gs0 ++ gs1)) (lines_in gs1 out1) /\
  Forall (sends q t file) (groups_of gs2).

Lemma app_same : forall (A : Type) (a b c d : list A), length a = length c -> a ++ b = c ++ d -> a = c /\ b = d.
Proof.
  intros A a. induction a as [|x a IH]; intros b [|y c] d L E; try discriminate; [split; [reflexivity|exact E]|].
  cbn [app] in E. injection E as -> E. injection L as L. destruct (IH _ _ _ L E) as [-> ->]. split; reflexivity.
Qed.
Lemma settled : forall env o w0 p gs0 gs1 gs2 out1 out2 q t file, host_ok env -> host_text env -> o_output_type o = OutJSON ->
  transmission env o w0 p gs0 gs1 gs2 out1 out2 q t file ->
  exists h0 c c', ch_fine c /\ locked p c /\ files_at h0 (ch_station c) /\ segments_since q t (rev h0) = [] /\
    (last_size q (rev h0) = None \/ last_size q (rev h0) = Some (N.of_nat (length file))) /\
    (last_size q (rev (lines_in gs1 out1)) = Some (N.of_nat (length file)) -> last_size q (rev h0) = Some (N.of_nat (length file))) /\
    run_groups env o c gs2 = Ok (c', out2).
Proof.
  intros env o w0 p gs0 gs1 gs2 out1 out2 q t file H HT OJ (F & Np & Th & St & (c & out0 & E & Lo0 & Lo1) & _ & Nf & Ns & _).
  rewrite run_groups_app in E. destruct (run_groups env o (Channel_new o w0) gs0) as [[c0 o0]| |] eqn:E0; cbn [bind] in E; try discriminate.
  rewrite run_groups_app in E. destruct (run_groups env o c0 gs1) as [[c1 o1]| |] eqn:E1; cbn [bind] in E; try discriminate.
  destruct (run_groups env o c1 gs2) as [[c2 o2]| |] eqn:E2; cbn [bind] in E; try discriminate.
  assert (Eo : o0 ++ o1 ++ o2 = out0 ++ out1 ++ out2) by congruence.
  destruct (app_same _ _ _ _ _ (eq_trans (eq_sym (run_length _ _ _ _ _ _ E0)) (eq_sym Lo0)) Eo) as [-> Eo1].
  destruct (app_same _ _ _ _ _ (eq_trans (eq_sym (run_length _ _ _ _ _ _ E1)) (eq_sym Lo1)) Eo1) as [-> ->].
  apply Forall_app in F. destruct F as [F0 F]. apply Forall_app in F. destruct F as [F1 _]. apply Forall_app in St. destruct St as [S1 _].
  destruct (lines_history files_at env o H HT OJ (files_at_new) (files_at_new_pi) (files_at_had) (files_step env o H) gs0 w0 c0 out0 F0 E0) as (old & h & D & Hh).
  pose proof (run_fine env o gs0 _ _ _ H (host_text_txt env HT) (created_fine o _ (or_introl (ex_intro _ w0 eq_refl))) F0 E0) as Fc.
  pose proof (three_locked _ _ _ _ _ _ _ OJ E0 Np Th) as L0.
  destruct (steady_lines files_at env o H HT OJ (files_at_had) (files_step env o H) p gs1 h c0 c1 out1 Fc L0 Hh F1 S1 E1) as (L1 & Hc1 & I1).
  assert (Sub : forall g w ln, In (g, w, ln) (h ++ lines_in gs1 out1) -> In (g, w) (groups_of (gs0 ++ gs1))).
  { intros g w ln X. unfold groups_of. rewrite map_app. apply in_or_app. apply in_app_or in X. destruct X as [X|X]; [left|right; eapply lines_sub; exact X].
    eapply (lines_sub gs0 out0). rewrite D. apply in_or_app. right. exact X. }
  exists (h ++ lines_in gs1 out1), c1, c2. split; [exact Hc1|]. split; [exact L1|]. split; [exact I1|]. split; [eapply fresh; eassumption|]. split; [eapply sized; eassumption|].
  split; [apply size_suffix|]. reflexivity || exact E2.
Qed.

(* Once the size is known and every segment has been received, a line has shown exactly the file. *)
Theorem C38_file_received : forall env o w0 p gs0 gs1 gs now g w out1 out2 q t file t1 a1 d1,
  host_ok env -> host_text env -> o_output_type o = OutJSON ->
  transmission env o w0 p gs0 gs1 (gs ++ [(now, g, w)]) out1 out2 q t file ->
  segment_in (g, w) = Some (q, t1, a1, d1) ->
  last_size q (rev (lines_in gs1 out1)) = Some (N.of_nat (length file)) \/ (exists x, In x (groups_of gs) /\ size_in x = Some (q, N.of_nat (length file))) ->
  (forall i, 5 * i < N.of_nat (length file) -> exists x d, In x (groups_of (gs ++ [(now, g, w)])) /\ segment_in x = Some (q, t, i, d)) ->
  exists x line text t' a d, In (x, line) (lines_in (gs ++ [(now, g, w)]) out2) /\ segment_in x = Some (q, t', a, d) /\
    says line contents (VStr text) /\ decode64 text = Some file.
Proof.
  intros env o w0 p gs0 gs1 gs now g w out1 out2 q t file t1 a1 d1 H HT OJ T Es Kn Cov.
  destruct (settled _ _ _ _ _ _ _ _ _ _ _ _ H HT OJ T) as (h0 & c & c' & Hc & L & I0 & Nb & Sz & Sk & E).
  destruct T as (F & _ & _ & St & _ & Fl & _ & _ & Sd). apply Forall_app in F. destruct F as [_ F]. apply Forall_app in F. destruct F as [_ F]. apply Forall_app in St. destruct St as [_ St].
  destruct (whole_file env o H HT OJ p q t file Fl h0 c gs now g w c' out2 t1 a1 d1 Hc L I0 Nb Sz F St Sd E Es) as (g' & w' & line & text & t' & a & d & X1 & X2 & X3 & X4).
  - destruct Kn as [Kn|(x & X & Y)]; [left; exact (Sk Kn)|right]. apply in_flat_map. exists x. split; [exact X|]. rewrite Y. left. reflexivity.
  - exact Cov.
  - exists (g', w'), line, text, t', a, d. auto.
Qed.
Print Assumptions C38_file_received.

(* And while it is being received no other file is shown for the pipe. *)
Theorem C38_nothing_else : forall env o w0 p gs0 gs1 gs now g w out1 out line q t file t1 a1 d1 v,
  host_ok env -> host_text env -> o_output_type o = OutJSON ->
  transmission env o w0 p gs0 gs1 (gs ++ [(now, g, w)]) out1 (out ++ [Some line]) q t file ->
  segment_in (g, w) = Some (q, t1, a1, d1) -> says line contents v ->
  exists text, v = VStr text /\ decode64 text = Some file.
Proof.
  intros env o w0 p gs0 gs1 gs now g w out1 out line q t file t1 a1 d1 v H HT OJ T Es Sy.
  destruct (settled _ _ _ _ _ _ _ _ _ _ _ _ H HT OJ T) as (h0 & c & c' & Hc & L & I0 & Nb & Sz & _ & E).
  destruct T as (F & _ & _ & St & _ & Fl & _ & _ & Sd). apply Forall_app in F. destruct F as [_ F]. apply Forall_app in F. destruct F as [_ F]. apply Forall_app in St. destruct St as [_ St].
  destruct (one_line env o H HT OJ p q t file Fl h0 c gs now g w c' out line t1 a1 d1 Hc L I0 Nb Sz F St Sd E Es) as [_ [(text & X1 & X2)|[X _]]]; unfold says in *; [|congruence].
  exists text. split; [congruence|exact X2].
Qed.
Print Assumptions C38_nothing_else.

(* A file of seven bytes: its second segment first, twice, then its size, then its first segment. *)
Definition seven : list N := [82; 101; 100; 115; 101; 97; 33].
Definition stream (t : Z) (l : list Group) : list (Z * Group * N) := map (fun x => (snd (fst x), fst (fst x), 1)) (combine (combine l (map (fun i => ((t + i) * sec)%Z) [0; 1; 2; 3; 4; 5]%Z)) l).
Definition seg0 (toggle : N) : Group := group4 (0x2300 + 128 * toggle) 0x0052 0x6564 0x7365.
Definition seg1 (toggle : N) : Group := group4 (0x2300 + 128 * toggle) 0x0161 0x2100 0x0000.
Definition size_of (n : N) : Group := group4 0x8003 0xFF7F 0x0000 n.
Definition seven_before : list (Z * Group * N) := stream 11 [seg1 1; seg1 1; size_of 7].
Definition seven_last : Z * Group * N := ((20 * sec)%Z, seg0 1, 1).
Definition outputs (gs : list (Z * Group * N)) : list (option bytes) :=
  match run_groups plain_host Options_default (Channel_new Options_default 0) gs with Ok (_, out) => out | _ => [] end.
Ltac no_seg := repeat (constructor; [vm_compute; discriminate|]); constructor.
Ltac no_siz := repeat (constructor; [vm_compute; discriminate|]); constructor.
Definition opt_eqb (a b : option N) : bool := match a, b with Some x, Some y => x =? y | None, None => true | _, _ => false end.
Definition sends_check (q t : N) (file : list N) (x : Group * N) : bool :=
  match segment_in x with
  | Some (q', t', a, d) => negb (q' =? q) || ((t' =? t) && (length d =? 5)%nat &&
      forallb (fun k => negb (5 * a + k <? N.of_nat (length file)) || opt_eqb (nth_error d (N.to_nat k)) (nth_error file (N.to_nat (5 * a + k)))) [0; 1; 2; 3; 4])
  | None => true
  end && match size_in x with Some (q', n) => negb (q' =? q) || (n =? N.of_nat (length file)) | None => true end.
Lemma sends_checked : forall q t file l, forallb (sends_check q t file) l = true -> Forall (sends q t file) l.
Proof.
  intros q t file l F. rewrite forallb_forall in F. rewrite Forall_forall. intros x X. specialize (F x X). unfold sends_check in F. apply andb_prop in F. destruct F as [F1 F2]. split.
  - intros t' a d E. rewrite E, N.eqb_refl in F1. cbn [negb orb] in F1. apply andb_prop in F1. destruct F1 as [F1 F3]. apply andb_prop in F1. destruct F1 as [F0 F1]. apply N.eqb_eq in F0. apply Nat.eqb_eq in F1.
    split; [exact F0|]. split; [exact F1|]. intros k K1 K2. rewrite forallb_forall in F3.
    assert (Ik : In k [0; 1; 2; 3; 4]) by (assert (Ck : k = 0 \/ k = 1 \/ k = 2 \/ k = 3 \/ k = 4) by lia; destruct Ck as [->|[->|[->|[->| ->]]]]; cbn [In]; auto 10).
    specialize (F3 k Ik). replace (5 * a + k <? N.of_nat (length file)) with true in F3 by (symmetry; apply N.ltb_lt; exact K2). cbn [negb orb] in F3. unfold opt_eqb in F3.
    destruct (nth_error d (N.to_nat k)), (nth_error file (N.to_nat (5 * a + k))); try discriminate; [apply N.eqb_eq in F3; congruence|reflexivity].
  - intros n E. rewrite E, N.eqb_refl in F2. cbn [negb orb] in F2. apply N.eqb_eq in F2. exact F2.
Qed.
Ltac sending := apply sends_checked; vm_compute; reflexivity.
Example C38_case : exists out2,
  transmission plain_host Options_default 0 0x2204 ps_groups [] (seven_before ++ [seven_last]) [] out2 3 1 seven /\
  segment_in (snd (fst seven_last), snd seven_last) = Some (3, 1, 0, [82; 101; 100; 115; 101]) /\
  (exists x, In x (groups_of seven_before) /\ size_in x = Some (3, 7)) /\
  (forall i, 5 * i < 7 -> exists x d, In x (groups_of (seven_before ++ [seven_last])) /\ segment_in x = Some (3, 1, i, d)) /\
  exists line, last out2 None = Some line /\ says line contents (VStr (bs "UmVkc2VhIQ==")).
Proof.
  exists (skipn 3 (outputs (ps_groups ++ seven_before ++ [seven_last]))). split.
  - split; [repeat constructor; reflexivity|]. split; [discriminate|]. split; [exists []; reflexivity|]. split; [repeat constructor; (left; reflexivity) || (right; reflexivity)|].
    split.
    { exists (fst (final Options_default (ps_groups ++ seven_before ++ [seven_last]))), (firstn 3 (outputs (ps_groups ++ seven_before ++ [seven_last]))). split; [vm_compute; reflexivity|]. split; vm_compute; reflexivity. }
    split; [split; reflexivity || discriminate|]. split; [left; no_seg|]. split; [left; no_siz|]. sending.
  - split; [reflexivity|]. split; [exists (size_of 7, 1); split; [vm_compute; auto 10|reflexivity]|]. split.
    + intros i Hi. assert (Ci : i = 0 \/ i = 1) by lia. destruct Ci as [->| ->].
      * exists (seg0 1, 1), [82; 101; 100; 115; 101]. split; [vm_compute; auto 10|reflexivity].
      * exists (seg1 1, 1), [97; 33; 0; 0; 0]. split; [vm_compute; auto 10|reflexivity].
    + eexists. split; [vm_compute; reflexivity|]. vm_compute. reflexivity.
Qed.

(* Without the condition on the size it fails: after a file of five bytes, the first segment of the next
   file, whose size has not been received, is shown as a file of five bytes. *)
Definition after_five : list (Z * Group * N) := stream 11 [size_of 5; seg0 0].
Theorem C38_old_size_refuted : exists gs1 gs2 out1 out2 line text short,
  let gs0 := ps_groups in
  Forall received_group (gs0 ++ gs1 ++ gs2) /\ three 0x2204 (pis gs0) /\ Forall (stays 0x2204) (gs1 ++ gs2) /\
  (exists c out0, run_groups plain_host Options_default (Channel_new Options_default 0) (gs0 ++ gs1 ++ gs2) = Ok (c, out0 ++ out1 ++ out2) /\ length out0 = length gs0 /\ length out1 = length gs1) /\
  new_file 3 1 (groups_of (gs0 ++ gs1)) (lines_in gs1 out1) /\ Forall (sends 3 1 seven) (groups_of gs2) /\
  In (Some line) out2 /\ says line contents (VStr text) /\ decode64 text = Some short /\ short <> seven.
Proof.
  exists after_five, (stream 20 [seg0 1; size_of 7; seg1 1]).
  exists (firstn 2 (skipn 3 (outputs (ps_groups ++ after_five ++ stream 20 [seg0 1; size_of 7; seg1 1])))), (skipn 5 (outputs (ps_groups ++ after_five ++ stream 20 [seg0 1; size_of 7; seg1 1]))).
  exists (match nth 5 (outputs (ps_groups ++ after_five ++ stream 20 [seg0 1; size_of 7; seg1 1])) None with Some l => l | None => [] end), (bs "UmVkc2U="), [82; 101; 100; 115; 101].
  cbv zeta. split; [repeat constructor; reflexivity|]. split; [exists []; reflexivity|]. split; [repeat constructor; (left; reflexivity) || (right; reflexivity)|].
  split. { exists (fst (final Options_default (ps_groups ++ after_five ++ stream 20 [seg0 1; size_of 7; seg1 1]))), (firstn 3 (outputs (ps_groups ++ after_five ++ stream 20 [seg0 1; size_of 7; seg1 1]))). split; [vm_compute; reflexivity|]. split; vm_compute; reflexivity. }
  split. { right. eexists. eexists. split; [vm_compute; reflexivity|]. left. discriminate. }
  split; [sending|]. split; [vm_compute; auto|]. split; [vm_compute; reflexivity|]. split; [vm_compute; reflexivity|discriminate].
Qed.
Print Assumptions C38_old_size_refuted.

(* The hypotheses of C39 are met by the same transmission; and the same file sent again is shown again *)
Example C39_case : exists c out line, Forall received_group ((ps_groups ++ seven_before) ++ [seven_last]) /\
  run_groups plain_host Options_default (Channel_new Options_default 0) ((ps_groups ++ seven_before) ++ [seven_last]) = Ok (c, out ++ [Some line]) /\
  says line contents (VStr (bs "UmVkc2VhIQ==")).
Proof.
  exists (fst (final Options_default ((ps_groups ++ seven_before) ++ [seven_last]))), (removelast (outputs ((ps_groups ++ seven_before) ++ [seven_last]))), (the_line Options_default ((ps_groups ++ seven_before) ++ [seven_last])).
  split; [repeat constructor; reflexivity|]. split; vm_compute; reflexivity.
Qed.
Example C38_again_case : let again := seven_before ++ [seven_last] ++ stream 30 [seg0 1; seg1 1] in
  exists line, last (outputs (ps_groups ++ again)) None = Some line /\ says line contents (VStr (bs "UmVkc2VhIQ==")) /\
  new_file 3 1 (groups_of (ps_groups ++ seven_before ++ [seven_last])) (lines_in (seven_before ++ [seven_last]) (skipn 3 (outputs (ps_groups ++ seven_before ++ [seven_last])))).
Proof.
  cbv zeta. eexists. split; [vm_compute; reflexivity|]. split; [vm_compute; reflexivity|]. right. eexists. eexists. split; [vm_compute; reflexivity|]. right. vm_compute. reflexivity.
Qed.
