(* C112: the usage text. *)
From Verif.Model Require Import Base Util Float Group Options Json Tmc Station Input Channel Dsp Main Getopt Usage.
From Verif.Spec Require Import Session Host Program Demo CommandLine Words Help.
From Verif.Proofs Require Import Tac CommandP WordsP.
From Verif.Props Require Import P_Input P_Main P_Command.
From Verif.Model Require Import Main.

Local Open Scope char_scope.
Local Open Scope N_scope.
Local Open Scope list_scope.

(* --- C112 --- *)
(* Each option that the usage text lists is accepted, by letter and by name, with an argument exactly if it is listed with
   one, whatever the argument is. *)
Theorem C112_listed_options_exist : forall e, In e (entries usage_text) ->
  if e_argument e then
    (forall arg, command_line [dash :: dash :: e_name e; arg] = Ok ([tells e arg], false) /\
                 command_line [dash :: dash :: e_name e ++ equals :: arg] = Ok ([tells e arg], false)) /\
    (forall c arg, e_letter e = Some c ->
                 command_line [[dash; c]; arg] = Ok ([tells e arg], false) /\ (arg <> [] -> command_line [dash :: c :: arg] = Ok ([tells e arg], false)))
  else
    command_line [dash :: dash :: e_name e] = Ok ([tells e []], false) /\
    (forall c, e_letter e = Some c -> command_line [[dash; c]] = Ok ([tells e []], false)).
Proof.
  intros e H. remember (entries usage_text) as l eqn:El. vm_compute in El. subst l.
  repeat (destruct H as [<-|H]; [cbn [e_argument];
    first [split; [intros arg; split; reflexivity|intros c arg Ec; injection Ec as <-; split; [reflexivity|intros Na; destruct arg as [|x arg]; [congruence|reflexivity]]]
          |split; [reflexivity|intros c Ec; first [discriminate Ec|injection Ec as <-; reflexivity]]]|]).
  destruct H.
Qed.
Print Assumptions C112_listed_options_exist.

(* And there are no others: whatever the words of the command line are, each option that the program is given is in the
   list, except for --help (and what is taken for it, C100). *)
Theorem C112_no_other_options : forall words ops other op, command_line words = Ok (ops, other) -> In op ops ->
  listed usage_text op \/ exists arg, op = OptChar "?" arg.
Proof.
  intros words ops other op E I. destruct (words_known words) as (ops' & other' & E' & K). assert (ops' = ops) as -> by congruence.
  rewrite Forall_forall in K. specialize (K op I). destruct op as [|c arg]; cbn [known listed] in *.
  - left. exists (mkEntry None (bs "no-fec") false). split; [vm_compute; do 8 right; left; reflexivity|reflexivity].
  - destruct (Ascii.ascii_dec c "?") as [->|N]; [right; exists arg; reflexivity|left].
    assert (X : existsb (fun e => match e_letter e with Some n => n =? N_of_ascii c | None => false end) (entries usage_text) = true).
    { unfold letters in K. repeat (destruct K as [<-|K]; [first [congruence|vm_compute; reflexivity]|]). destruct K. }
    apply existsb_exists in X. destruct X as (e & He & Le). exists e. split; [exact He|]. destruct (e_letter e); [|discriminate]. apply N.eqb_eq in Le. congruence.
Qed.
Print Assumptions C112_no_other_options.

(* The formats that are listed for --input and --output are the ones that are not refused. *)
Theorem C112_listed_formats : forall ne name,
  (unacceptable ne (OptChar "i" name) <-> ~ In name (values (N_of_ascii "i") usage_text)) /\
  (unacceptable ne (OptChar "o" name) <-> ~ In name (values (N_of_ascii "o") usage_text)).
Proof.
  intros ne name.
  assert (D : forall l : list bytes, In name l \/ ~ In name l) by (intros l; destruct (in_dec (list_eq_dec N.eq_dec) name l); [left|right]; assumption).
  assert (B : forall a, bytes_eqb name a = true <-> name = a) by (intros a; apply bytes_eqb_spec).
  split; cbn [unacceptable]; [unfold input_named|unfold output_named];
    match goal with |- context[values ?a ?b] => let v := eval vm_compute in (values a b) in replace (values a b) with v by (vm_compute; reflexivity) end.
  - destruct (bytes_eqb name (bs "hex")) eqn:E1; [apply B in E1; subst; split; [discriminate|intros X; elim X; cbn; tauto]|].
    destruct (bytes_eqb name (bs "mpx")) eqn:E2; [apply B in E2; subst; split; [discriminate|intros X; elim X; cbn; tauto]|].
    destruct (bytes_eqb name (bs "tef")) eqn:E3; [apply B in E3; subst; split; [discriminate|intros X; elim X; cbn; tauto]|].
    destruct (bytes_eqb name (bs "bits")) eqn:E4; [apply B in E4; subst; split; [discriminate|intros X; elim X; cbn; tauto]|].
    split; [|reflexivity]. intros _ [<-|[<-|[<-|[<-|[]]]]]; discriminate.
  - destruct (bytes_eqb name (bs "hex")) eqn:E1; [apply B in E1; subst; split; [discriminate|intros X; elim X; cbn; tauto]|].
    destruct (bytes_eqb name (bs "json")) eqn:E2; [apply B in E2; subst; split; [discriminate|intros X; elim X; cbn; tauto]|].
    split; [|reflexivity]. intros _ [<-|[<-|[]]]; discriminate.
Qed.
Print Assumptions C112_listed_formats.

(* The text is what standard output has after --help or its beginnings, alone or with options that are not refused, except
   that --version adds its line. *)
Theorem C112_help : forall (D : Type) fuel (w : World D) words ops version debug, say words ops false ->
  ~ (Exists (unacceptable (w_numbers w)) ops \/ at_odds (w_numbers w) ops) -> gives "?" ops \/ gives "v" ops ->
  exists out, program fuel w words = Ok (Some (EXIT_SUCCESS, out)) /\
    ((gives "?" ops /\ ~ gives "v" ops /\ about_itself version debug out = usage_text) \/
     (~ gives "?" ops /\ gives "v" ops /\ about_itself version debug out = version_text version debug) \/
     (gives "?" ops /\ gives "v" ops /\ about_itself version debug out = usage_text ++ version_text version debug)).
Proof.
  intros D fuel w words ops version debug S N G. unfold program. rewrite (said words ops false S). cbn [bind].
  assert (K : Forall known ops) by (destruct (words_known words) as (ops' & o' & E & K); rewrite (said words ops false S) in E; congruence).
  unfold main. destruct (getOptions_all (w_numbers w) ops false K) as [(F & A & o & E & M)|(X & _)]; [|contradiction]. rewrite E. destruct M. cbv zeta.
  assert (Q : o_early_exit o = true) by (apply m_stop; tauto). rewrite Q.
  assert (I : o_init_error o = false) by (destruct (o_init_error o); [destruct m_error as [m_error _]; specialize (m_error eq_refl); discriminate|reflexivity]). rewrite I.
  eexists. split; [reflexivity|].
  destruct (o_print_usage o) eqn:U, (o_print_version o) eqn:V; cbn [app about_itself flat_map]; rewrite ?app_nil_r.
  - right. right. rewrite <- m_version. destruct m_usage as [Mu _]. destruct (Mu eq_refl) as [Mu'|Mu']; [|discriminate]. split; [exact Mu'|]. split; reflexivity.
  - left. destruct m_usage as [Mu _]. destruct (Mu eq_refl) as [Mu'|Mu']; [|discriminate]. rewrite <- m_version. split; [exact Mu'|]. split; [discriminate|reflexivity].
  - right. left. split; [intros X; destruct m_usage as [_ Mu]; specialize (Mu (or_introl X)); discriminate|]. rewrite <- m_version. split; reflexivity.
  - exfalso. destruct G as [G|G]; [destruct m_usage as [_ Mu]; specialize (Mu (or_introl G)); discriminate|apply m_version in G; discriminate].
Qed.
Print Assumptions C112_help.

(* The list has 18 options; --help itself is not in it. *)
Example C112_case : length (entries usage_text) = 18%nat /\ In (mkEntry (Some (N_of_ascii "t")) (bs "timestamp") true) (entries usage_text) /\
  values (N_of_ascii "i") usage_text = [bs "bits"; bs "hex"; bs "mpx"; bs "tef"] /\ ~ listed usage_text (OptChar "?" []) /\
  say [bs "--help"] [OptChar "?" []] false.
Proof.
  split; [vm_compute; reflexivity|]. split; [vm_compute; do 14 right; left; reflexivity|]. split; [vm_compute; reflexivity|]. split.
  - intros (e & H & L). remember (entries usage_text) as l eqn:El. vm_compute in El. subst l. repeat (destruct H as [<-|H]; [discriminate L|]). destruct H.
  - apply (by_name (bs "help") (mkDoc None (bs "help") false (OptChar "?"))); [split; [cbn; tauto|left; reflexivity]|reflexivity|constructor].
Qed.
