(* The command line (C88). *)
From Verif.Model Require Import Base Util Float Options.
From Verif.Spec Require Import CommandLine.
From Verif.Proofs Require Import Tac.
Local Open Scope char_scope.
Local Open Scope N_scope.
Local Open Scope list_scope.

Definition is_opt (l : ascii) (op : Opt) : bool := match op with OptChar c _ => Ascii.eqb c l | _ => false end.
Definition giveb (l : ascii) (ops : list Opt) : bool := existsb (is_opt l) ops.
Definition no_fec (op : Opt) : bool := match op with OptNoFec => true | _ => false end.
Lemma gives_b : forall l ops, giveb l ops = true <-> gives l ops.
Proof.
  intros l ops. unfold giveb, gives. rewrite existsb_exists. split.
  - intros ([|c arg] & I & E); [discriminate|]. cbn in E. apply Ascii.eqb_eq in E. subst c. exists arg. exact I.
  - intros (arg & I). exists (OptChar l arg). split; [exact I|]. cbn. apply Ascii.eqb_refl.
Qed.
Lemma gives_snoc : forall l ops op, giveb l (ops ++ [op]) = giveb l ops || is_opt l op.
Proof. intros. unfold giveb. rewrite existsb_app. cbn [existsb]. rewrite orb_false_r. reflexivity. Qed.
Lemma last_snoc : forall (A : Type) (f : Opt -> option A) d ops op, last_of f d (ops ++ [op]) = match f op with Some v => v | None => last_of f d ops end.
Proof. intros. unfold last_of. rewrite fold_left_app. reflexivity. Qed.

Definition so_far (ne : NumEnv) (ops : list Opt) : Options * bool * bool :=
  (mkOptions (giveb "u" ops) (giveb "e" ops) (giveb "p" ops) false false (giveb "?" ops) (giveb "v" ops) (giveb "t" ops) (giveb "E" ops) (giveb "R" ops)
     (giveb "r" ops) (giveb "c" ops) true (giveb "s" ops) (last_of (rate_meant ne) (S754_zero false) ops) (last_of (channels_meant ne) 1 ops)
     (last_of input_meant MPX_stdin ops) (last_of output_meant OutJSON ops) (flat_map tables_meant ops) (last_of file_meant [] ops) (last_of format_meant [] ops),
   negb (existsb no_fec ops), false).

Lemma unit_factor : forall arg, rate_factor arg = f32_of_Z (rate_unit arg).
Proof.
  intros arg. unfold rate_factor, rate_unit. destruct arg as [|c l] using rev_ind; [reflexivity|]. rewrite rev_app_distr, last_last, app_length. cbn [rev app length].
  change (N_of_ascii "k") with 107. change (N_of_ascii "K") with 75. change (N_of_ascii "M") with 77. change (N_of_ascii "m") with 109.
  destruct l as [|x l _] using rev_ind; [reflexivity|]. rewrite rev_app_distr, app_length. cbn [rev app length].
  replace (2 <=? N.of_nat (length l + 1 + 1)) with true by (symmetry; apply N.leb_le; lia). cbn [andb].
  destruct ((c =? 107) || (c =? 75)); [reflexivity|]. destruct ((c =? 77) || (c =? 109)); reflexivity.
Qed.
Lemma one_option : forall ne ops op, known op ->
  (~ unacceptable ne op /\ apply_opt ne (so_far ne ops) op = Ok (so_far ne (ops ++ [op]))) \/
  (unacceptable ne op /\ exists m, apply_opt ne (so_far ne ops) op = Throw m).
Proof.
  intros ne ops op K. unfold so_far. pose proof unit_factor as UF. rewrite !gives_snoc, !last_snoc, flat_map_app, existsb_app.
  destruct op as [|c arg].
  - left. split; [intros []|]. cbn [is_opt rate_meant channels_meant input_meant output_meant file_meant format_meant tables_meant flat_map no_fec existsb]. rewrite !orb_false_r, ?orb_true_r, ?app_nil_r. reflexivity.
  - cbn [known] in K. unfold letters in K. cbn [In] in K.
    repeat (destruct K as [<-|K]); [..|destruct K];
      cbn [is_opt Ascii.eqb Bool.eqb rate_meant channels_meant input_meant output_meant file_meant format_meant tables_meant flat_map no_fec existsb apply_opt unacceptable app];
      rewrite ?orb_false_r, ?orb_true_r, ?app_nil_r; try (left; split; [intros []|reflexivity]).
    + (* channels *)
      destruct (ne_strtoul ne arg) as [v er]. cbn [fst snd]. fold (u32 v). destruct er; cbn [orb]; [right; split; [left; reflexivity|eexists; reflexivity]|].
      destruct (N.ltb_spec (u32 v) 1) as [L|L]; [right; split; [right; unfold u32 in *; lia|eexists; reflexivity]|].
      destruct (N.ltb_spec 32 (u32 v)) as [L'|L']; cbn [orb]; [right; split; [right; unfold u32 in *; lia|eexists; reflexivity]|].
      left. split; [intros [E|E]; [discriminate|apply E; unfold u32 in *; lia]|reflexivity].
    + unfold input_named. destruct (bytes_eqb arg (bs "hex")); [left; split; [discriminate|reflexivity]|]. destruct (bytes_eqb arg (bs "mpx")); [left; split; [discriminate|reflexivity]|].
      destruct (bytes_eqb arg (bs "tef")); [left; split; [discriminate|reflexivity]|]. destruct (bytes_eqb arg (bs "bits")); [left; split; [discriminate|reflexivity]|]. right. split; [reflexivity|eexists; reflexivity].
    + unfold output_named. destruct (bytes_eqb arg (bs "hex")); [left; split; [discriminate|reflexivity]|]. destruct (bytes_eqb arg (bs "json")); [left; split; [discriminate|reflexivity]|]. right. split; [reflexivity|eexists; reflexivity].
    + rewrite <- !UF. destruct (ne_strtof ne arg) as [v er]. cbn [fst snd]. cbv zeta. destruct er; cbn [orb]; [right; split; [left; reflexivity|eexists; reflexivity]|].
      change (f32_of_Z 128000) with kMinimumSampleRate. change (f32_of_Z 40000000) with kMaximumSampleRate.
      destruct (SFltb (f32_mul v (rate_factor arg)) kMinimumSampleRate) eqn:L; cbn [orb]; [right; split; [right; left; reflexivity|eexists; reflexivity]|].
      destruct (SFltb kMaximumSampleRate (f32_mul v (rate_factor arg))) eqn:L'; [right; split; [right; right; reflexivity|eexists; reflexivity]|].
      left. split; [intros [E|[E|E]]; discriminate|reflexivity].
Qed.
Lemma all_options : forall ne ops before, Forall known ops ->
  (Forall (fun op => ~ unacceptable ne op) ops /\ apply_opts ne (so_far ne before) ops = Ok (so_far ne (before ++ ops))) \/
  (Exists (unacceptable ne) ops /\ exists m, apply_opts ne (so_far ne before) ops = Throw m).
Proof.
  intros ne ops. induction ops as [|op ops IH]; intros before K; [left; rewrite app_nil_r; split; [constructor|reflexivity]|].
  apply Forall_cons_iff in K. destruct K as [K1 K]. cbn [apply_opts]. destruct (one_option ne before op K1) as [[N E]|[U [m E]]]; rewrite E; cbn [bind].
  - change (o_init_error (fst (fst (so_far ne (before ++ [op]))))) with false. cbv iota. destruct (IH (before ++ [op]) K) as [[F E2]|[X E2]].
    + left. split; [constructor; assumption|]. rewrite E2, <- app_assoc. reflexivity.
    + right. split; [right; exact X|exact E2].
  - right. split; [left; exact U|exists m; reflexivity].
Qed.
Lemma rate_last : forall ne ops, giveb "r" ops = true -> last_of (fun op => option_map Some (rate_meant ne op)) None ops = Some (last_of (rate_meant ne) (S754_zero false) ops).
Proof.
  intros ne ops. induction ops as [|op ops IH] using rev_ind; intros G; [discriminate|]. rewrite !last_snoc. rewrite gives_snoc in G.
  destruct (rate_meant ne op) as [v|] eqn:R; [reflexivity|]. cbn [option_map]. apply IH. destruct (giveb "r" ops); [reflexivity|]. cbn [orb] in G.
  destruct op as [|c arg]; [discriminate|]. cbn [is_opt] in G. apply Ascii.eqb_eq in G. subst c. discriminate R.
Qed.
Lemma rate_none : forall ne ops, giveb "r" ops = false -> last_of (rate_meant ne) (S754_zero false) ops = S754_zero false.
Proof.
  intros ne ops. induction ops as [|op ops IH] using rev_ind; intros G; [reflexivity|]. rewrite last_snoc. rewrite gives_snoc in G. apply orb_false_iff in G. destruct G as [G1 G2].
  destruct (rate_meant ne op) as [v|] eqn:R; [|apply IH; exact G1]. exfalso. destruct op as [|c arg]; [discriminate|]. cbn [is_opt] in G2. unfold rate_meant in R.
  destruct c as [[] [] [] [] [] [] [] []]; discriminate.
Qed.

Theorem getOptions_all : forall ne ops extra, Forall known ops ->
  (Forall (fun op => ~ unacceptable ne op) ops /\ ~ at_odds ne ops /\ exists o, getOptions ne ops extra = Ok o /\ meant ne ops extra o) \/
  ((Exists (unacceptable ne) ops \/ at_odds ne ops) /\ exists m, getOptions ne ops extra = Throw m).
Proof.
  intros ne ops extra K. unfold getOptions. destruct (all_options ne ops [] K) as [[F E]|[X [m E]]]; change (so_far ne []) with (Options_default, true, false) in E; rewrite E; cbn [bind app]; [|right; split; [left; exact X|exists m; reflexivity]].
  unfold so_far. cbn [o_rbds o_feed_thru o_show_partial o_early_exit o_init_error o_print_usage o_print_version o_timestamp o_bler o_show_raw o_is_rate_defined o_is_num_channels_defined o_use_fec o_streams o_samplerate o_num_channels o_input_type o_output_type o_loctable_dirs o_sndfilename o_time_format]. cbv zeta.
  remember (last_of input_meant MPX_stdin ops) as inp eqn:Ei. unfold at_odds. rewrite <- Ei.
  destruct (giveb "e" ops && match inp with MPX_sndfile => true | _ => false end) eqn:B1.
  { right. split; [|eexists; reflexivity]. right. left. apply andb_prop in B1. destruct B1 as [B1 B2]. split; [apply gives_b; exact B1|]. destruct inp; congruence. }
  destruct ((1 <? last_of (channels_meant ne) 1 ops) && negb match inp with MPX_stdin | MPX_sndfile => true | _ => false end) eqn:B2.
  { right. split; [|eexists; reflexivity]. right. right. left. apply andb_prop in B2. destruct B2 as [B2 B3]. apply N.ltb_lt in B2. split; [exact B2|]. destruct inp; cbn in *; congruence. }
  destruct (giveb "s" ops && negb match inp with MPX_stdin | MPX_sndfile => true | _ => false end && negb match inp with HexInput => true | _ => false end) eqn:B3.
  { right. split; [|eexists; reflexivity]. right. right. right. apply andb_prop in B3. destruct B3 as [B3 B5]. apply andb_prop in B3. destruct B3 as [B3 B4]. split; [apply gives_b; exact B3|]. destruct inp; cbn in *; split; congruence. }
  left. split; [exact F|]. split.
  { intros [[O1 O2]|[[O1 O2]|(O1 & O2 & O3)]].
    - apply gives_b in O1. rewrite O1, O2 in B1. discriminate.
    - apply N.ltb_lt in O1. rewrite O1 in B2. destruct inp; cbn in *; congruence.
    - apply gives_b in O1. rewrite O1 in B3. destruct inp; cbn in *; congruence. }
  eexists. split; [reflexivity|].
  constructor; cbn [o_rbds o_feed_thru o_show_partial o_early_exit o_init_error o_print_usage o_print_version o_timestamp o_bler o_show_raw o_is_rate_defined o_is_num_channels_defined o_use_fec o_streams o_samplerate o_num_channels o_input_type o_output_type o_loctable_dirs o_sndfilename o_time_format];
    try (apply gives_b); try reflexivity; try exact Ei.
  - intros G. apply gives_b in G. rewrite G. rewrite rate_last by exact G. cbn [negb]. rewrite andb_false_r. reflexivity.
  - intros G. assert (G' : giveb "r" ops = false) by (destruct (giveb "r" ops) eqn:Q; [apply gives_b in Q; contradiction|reflexivity]). rewrite G', rate_none by exact G'. cbn [negb orb]. rewrite andb_true_r.
    change kTargetSampleRate with (f32_of_Z 171000). destruct inp, (giveb "?" ops), extra; reflexivity.
  - destruct (existsb no_fec ops) eqn:Q; cbn [negb].
    + split; [intros _|reflexivity]. apply existsb_exists in Q. destruct Q as (x & I & X). destruct x; [exact I|discriminate].
    + split; [discriminate|]. intros I. assert (existsb no_fec ops = true) by (apply existsb_exists; exists OptNoFec; split; [exact I|reflexivity]). congruence.
  - rewrite orb_true_iff, gives_b. reflexivity.
  - rewrite !orb_true_iff, !gives_b. tauto.
Qed.

Definition knownb (op : Opt) : bool := match op with OptNoFec => true | OptChar c _ => existsb (Ascii.eqb c) letters end.
Lemma known_all : forall ops, forallb knownb ops = true -> Forall known ops.
Proof.
  intros ops H. rewrite forallb_forall in H. apply Forall_forall. intros op I. specialize (H op I). destruct op as [|c arg]; [exact Logic.I|]. cbn [knownb known] in *. apply existsb_exists in H. destruct H as (x & J & E). apply Ascii.eqb_eq in E. subst x. exact J.
Qed.
