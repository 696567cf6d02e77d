(* The words of the command line. *)
From Verif.Model Require Import Base Util Float Group Options Json Tmc Station Input Channel Dsp Main Getopt.
From Verif.Spec Require Import CommandLine Words.
From Verif.Proofs Require Import Tac.

Local Open Scope char_scope.
Local Open Scope N_scope.
Local Open Scope list_scope.

Lemma bytes_eqb_spec : forall a b, bytes_eqb a b = true <-> a = b.
Proof.
  induction a as [|x a IH]; intros [|y b]; cbn [bytes_eqb]; split; intros H; try discriminate; try reflexivity.
  - apply andb_prop in H. destruct H as [H1 H2]. apply N.eqb_eq in H1. apply IH in H2. congruence.
  - injection H as <- <-. rewrite N.eqb_refl. apply IH. reflexivity.
Qed.
Lemma starts_spec : forall p s, starts_with p s = true <-> exists r, s = p ++ r.
Proof.
  induction p as [|x p IH]; intros s; cbn [starts_with app]; [split; [exists s; reflexivity|reflexivity]|].
  destruct s as [|y s]; [split; [discriminate|intros [r H]; discriminate]|].
  rewrite andb_true_iff, N.eqb_eq, IH. split; [intros [-> [r ->]]; exists r; reflexivity|intros [r H]; injection H as -> ->; split; [reflexivity|exists r; reflexivity]].
Qed.

(* ---- the two tables ---- *)
Definition as_long (d : documented) : long_option :=
  match d_means d [] with OptNoFec => mkLong (d_long d) (d_argument d) true "000" | OptChar c _ => mkLong (d_long d) (d_argument d) false c end.
Lemma doc_long : forall d, In d usage -> In (as_long d) long_options /\ lo_name (as_long d) = d_long d /\ lo_arg (as_long d) = d_argument d /\
  forall a, read_got (returned (as_long d) (Some a)) = Ok (d_means d a) /\ (d_argument d = false -> read_got (returned (as_long d) None) = Ok (d_means d [])).
Proof.
  intros d H. unfold usage in H. repeat (destruct H as [<-|H]; [split; [cbn; tauto|split; [reflexivity|split; [reflexivity|intros a; split; [reflexivity|first [reflexivity|discriminate]]]]]|]). destruct H.
Qed.
Lemma long_doc : forall o, In o long_options -> exists d, In d usage /\ as_long d = o.
Proof.
  intros o H. unfold long_options in H.
  repeat (destruct H as [<-|H]; [match goal with |- exists d, In d usage /\ as_long d = ?o => let r := eval vm_compute in (find (fun d => bytes_eqb (d_long d) (lo_name o)) usage) in
    match r with Some ?d => exists d; split; [cbn; tauto|reflexivity] end end|]). destruct H.
Qed.
Lemma same_name : forall o o', In o long_options -> In o' long_options -> lo_name o = lo_name o' -> o = o'.
Proof.
  assert (E : forallb (fun i => forallb (fun j => match nth_error long_options i, nth_error long_options j with Some o, Some o' => (i =? j)%nat || negb (bytes_eqb (lo_name o) (lo_name o')) | _, _ => true end) (seq 0 19)) (seq 0 19) = true) by (vm_compute; reflexivity).
  intros o o' H H' N. apply In_nth_error in H. apply In_nth_error in H'. destruct H as [i H], H' as [j H'].
  assert (Hi : (i < 19)%nat) by (apply (nth_error_Some long_options i); congruence). assert (Hj : (j < 19)%nat) by (apply (nth_error_Some long_options j); congruence).
  rewrite forallb_forall in E. specialize (E i ltac:(apply in_seq; lia)). rewrite forallb_forall in E. specialize (E j ltac:(apply in_seq; lia)). rewrite H, H', N in E.
  rewrite (proj2 (bytes_eqb_spec _ _) eq_refl) in E. rewrite orb_false_r in E. apply Nat.eqb_eq in E. congruence.
Qed.
Lemma same_doc : forall d d', In d usage -> In d' usage -> d_long d = d_long d' -> d = d'.
Proof.
  assert (E : forallb (fun i => forallb (fun j => match nth_error usage i, nth_error usage j with Some o, Some o' => (i =? j)%nat || negb (bytes_eqb (d_long o) (d_long o')) | _, _ => true end) (seq 0 19)) (seq 0 19) = true) by (vm_compute; reflexivity).
  intros o o' H H' N. apply In_nth_error in H. apply In_nth_error in H'. destruct H as [i H], H' as [j H'].
  assert (Hi : (i < 19)%nat) by (apply (nth_error_Some usage i); congruence). assert (Hj : (j < 19)%nat) by (apply (nth_error_Some usage j); congruence).
  rewrite forallb_forall in E. specialize (E i ltac:(apply in_seq; lia)). rewrite forallb_forall in E. specialize (E j ltac:(apply in_seq; lia)). rewrite H, H', N in E.
  rewrite (proj2 (bytes_eqb_spec _ _) eq_refl) in E. rewrite orb_false_r in E. apply Nat.eqb_eq in E. congruence.
Qed.
Lemma filter_one : forall (A : Type) (p : A -> bool) l x, NoDup l -> In x l -> p x = true -> (forall y, In y l -> p y = true -> y = x) -> filter p l = [x].
Proof.
  intros A p. induction l as [|a l IH]; intros x Nd H P U; [destruct H|]. inversion Nd as [|? ? Na Nl]; subst. cbn [filter]. destruct (p a) eqn:Pa.
  - assert (a = x) as <- by (apply U; [left; reflexivity|exact Pa]). f_equal. destruct (filter p l) as [|b m] eqn:F; [reflexivity|].
    assert (Hb : In b (filter p l)) by (rewrite F; left; reflexivity). apply filter_In in Hb. destruct Hb as [Hb Pb]. assert (b = a) as -> by (apply U; [right; exact Hb|exact Pb]). contradiction.
  - destruct H as [->|H]; [congruence|]. apply IH; auto. intros y Hy. apply U. right. exact Hy.
Qed.
Lemma long_nodup : NoDup long_options.
Proof.
  apply (NoDup_map_inv lo_name). assert (E : (fix nd (l : list bytes) := match l with [] => true | x :: r => negb (existsb (bytes_eqb x) r) && nd r end) (map lo_name long_options) = true) by (vm_compute; reflexivity).
  revert E. generalize (map lo_name long_options). induction l as [|x l IH]; intros E; [constructor|]. apply andb_prop in E. destruct E as [E1 E2]. constructor; [|apply IH; exact E2].
  intros H. apply negb_true_iff in E1. rewrite <- not_true_iff_false in E1. apply E1. apply existsb_exists. exists x. split; [exact H|apply bytes_eqb_spec; reflexivity].
Qed.
Lemma find_names : forall n d, names n d -> find_long n = Some (as_long d).
Proof.
  intros n d (Hd & H). destruct (doc_long d Hd) as (L & Nm & _). unfold find_long.
  destruct (find (fun o => bytes_eqb (lo_name o) n) long_options) as [o|] eqn:F.
  - apply find_some in F. destruct F as [Ho F]. apply bytes_eqb_spec in F. f_equal.
    destruct H as [H|(_ & U)]; [apply same_name; [exact Ho|exact L|congruence]|].
    destruct (long_doc o Ho) as (d' & Hd' & <-). f_equal. apply (U d' []); [exact Hd'|]. destruct (doc_long d' Hd') as (_ & Nm' & _). rewrite app_nil_r. congruence.
  - destruct H as [H|([r H] & U)].
    + apply (find_none _ _ F) in L. rewrite Nm, (proj2 (bytes_eqb_spec _ _) H) in L. discriminate.
    + rewrite (filter_one _ _ long_options (as_long d) long_nodup L); [reflexivity|apply starts_spec; exists r; congruence|].
      intros o Ho S. apply starts_spec in S. destruct S as [r' S]. destruct (long_doc o Ho) as (d' & Hd' & <-). f_equal. apply (U d' r'); [exact Hd'|]. destruct (doc_long d' Hd') as (_ & Nm' & _). congruence.
Qed.
Lemma names_find : forall n o, find_long n = Some o -> exists d, names n d.
Proof.
  intros n o H. unfold find_long in H. destruct (find _ long_options) as [o'|] eqn:F.
  - apply find_some in F. destruct F as [Ho F]. apply bytes_eqb_spec in F. destruct (long_doc o' Ho) as (d & Hd & <-). exists d. split; [exact Hd|left]. destruct (doc_long d Hd) as (_ & Nm & _). congruence.
  - destruct (filter _ long_options) as [|a [|b l]] eqn:G; try discriminate. injection H as ->.
    assert (Hi : In o (filter (fun o => starts_with n (lo_name o)) long_options)) by (rewrite G; left; reflexivity). apply filter_In in Hi. destruct Hi as [Ho S].
    destruct (long_doc o Ho) as (d & Hd & <-). destruct (doc_long d Hd) as (L & Nm & _). apply starts_spec in S. destruct S as [r S]. exists d. split; [exact Hd|right]. split; [exists r; congruence|].
    intros d' r' Hd' N'. destruct (doc_long d' Hd') as (L' & Nm' & _).
    assert (I : In (as_long d') [as_long d]). { rewrite <- G. apply filter_In. split; [exact L'|]. apply starts_spec. exists r'. congruence. }
    destruct I as [I|[]]. apply same_doc; [exact Hd'|exact Hd|]. congruence.
Qed.
Lemma names_plain : forall n d, names n d -> n <> [] /\ ~ In equals n.
Proof.
  intros n d N. pose proof N as (Hd & H). split.
  - intros ->. assert (X : exists d', In d' usage /\ d' <> d).
    { destruct (bytes_eqb (d_long d) (bs "help")) eqn:B.
      - exists (flag "b" "input-bits"). split; [left; reflexivity|]. intros <-. discriminate B.
      - exists (mkDoc None (bs "help") false (OptChar "?")). split; [cbn; tauto|]. intros <-. discriminate B. }
    destruct X as (d' & Hd' & Nd). destruct H as [H|(_ & U)].
    + clear - Hd H. unfold usage in Hd. repeat (destruct Hd as [<-|Hd]; [discriminate H|]). destruct Hd.
    + apply Nd. apply (U d' (d_long d')); [exact Hd'|reflexivity].
  - intros I. assert (I' : In equals (d_long d)) by (destruct H as [H|([r H] & _)]; rewrite H; [exact I|apply in_or_app; left; exact I]).
    clear - Hd I'. unfold usage in Hd. repeat (destruct Hd as [<-|Hd]; [vm_compute in I'; repeat (destruct I' as [I'|I']; [discriminate I'|]); destruct I'|]). destruct Hd.
Qed.
Lemma split_name : forall n a, ~ In equals n -> split_equals (n ++ equals :: a) = (n, Some a) /\ split_equals n = (n, None).
Proof.
  induction n as [|c n IH]; intros a H; [split; reflexivity|]. cbn [split_equals app]. assert (Hc : c =? 61 = false) by (apply N.eqb_neq; intros ->; apply H; left; reflexivity).
  rewrite Hc. destruct (IH a ltac:(intros I; apply H; right; exact I)) as [-> ->]. split; reflexivity.
Qed.

(* ---- letters ---- *)
Lemma flag_letter : forall c, is_flag c -> short_option (N_of_ascii c) = Some false.
Proof. intros c (d & H & L & A). unfold usage in H. repeat (destruct H as [<-|H]; [first [discriminate A|discriminate L|injection L as <-; reflexivity]|]). destruct H. Qed.
Lemma argument_letter : forall c, takes_argument c -> short_option (N_of_ascii c) = Some true.
Proof. intros c (d & H & L & A). unfold usage in H. repeat (destruct H as [<-|H]; [first [discriminate A|discriminate L|injection L as <-; reflexivity]|]). destruct H. Qed.
Lemma in_optstring_In : forall s c b, in_optstring s c = Some b -> In c s.
Proof.
  induction s as [|x s IH]; intros c b H; [discriminate|]. cbn [in_optstring] in H. destruct (x =? c) eqn:E; [left; apply N.eqb_eq; exact E|right; apply (IH c b); exact H].
Qed.
Lemma letter_known : forall c b, short_option c = Some b -> exists a, c = N_of_ascii a /\ (if b then takes_argument a else is_flag a).
Proof.
  intros c b H. unfold short_option in H. destruct (c =? 58) eqn:Cc; [discriminate|]. pose proof (in_optstring_In _ _ _ H) as I. vm_compute in I.
  repeat (destruct I as [<-|I]; [first [discriminate Cc|vm_compute in H; injection H as <-; match goal with |- exists a, ?n = _ /\ _ => let a := eval vm_compute in (ascii_of_N n) in exists a end; split; [reflexivity|]; cbv iota beta;
        match goal with |- _ ?a => let r := eval vm_compute in (find (fun d => match d_letter d with Some x => Ascii.eqb x a | None => false end) usage) in match r with Some ?d => exists d; split; [cbn; tauto|split; reflexivity] end end]|]).
  destruct I.
Qed.

(* ---- one word ---- *)
Definition just (ls : list ascii) : list got := map (fun c => (Some c, None)) ls.
Lemma flags_first : forall ls r rest, Forall is_flag ls ->
  letters_of (chars ls ++ r) rest = let '(l, t) := letters_of r rest in (just ls ++ l, t).
Proof.
  induction ls as [|c ls IH]; intros r rest F; [cbn [chars map app]; destruct (letters_of r rest); reflexivity|]. inversion F as [|? ? Fc Fl]; subst.
  cbn [chars map app letters_of]. rewrite (flag_letter c Fc), ascii_N_embedding. fold (chars ls). rewrite (IH r rest Fl). destruct (letters_of r rest). reflexivity.
Qed.
Lemma read_app : forall l l', read_all (l ++ l') = (a <- read_all l ;; b <- read_all l' ;; Ok (a ++ b)).
Proof.
  induction l as [|g l IH]; intros l'; cbn [app read_all bind]; [destruct (read_all l'); reflexivity|]. destruct (read_got g); cbn [bind]; [|reflexivity|reflexivity].
  rewrite IH. destruct (read_all l); cbn [bind]; [|reflexivity|reflexivity]. destruct (read_all l'); reflexivity.
Qed.
Lemma flag_reads : forall c, is_flag c -> reads_optarg c = false.
Proof. intros c (d & H & L & A). unfold usage in H. repeat (destruct H as [<-|H]; [first [discriminate A|discriminate L|injection L as <-; reflexivity]|]). destruct H. Qed.
Lemma read_flags : forall ls, Forall is_flag ls -> read_all (just ls) = Ok (given ls).
Proof.
  induction 1 as [|c ls Fc Fl IH]; [reflexivity|]. cbn [just map read_all read_got given]. rewrite (flag_reads c Fc). cbn [bind]. fold (just ls). rewrite IH. reflexivity.
Qed.
Lemma flag_not_dash : forall c, is_flag c \/ takes_argument c -> N_of_ascii c <> 45.
Proof. intros c [(d & H & L & A)|(d & H & L & A)]; unfold usage in H; repeat (destruct H as [<-|H]; [first [discriminate A|discriminate L|injection L as <-; discriminate]|]); destruct H. Qed.

(* A word of letters: what getopt_all does *)
Lemma word_letters : forall (c : N) (r : bytes) (rest : list bytes), c <> 45 -> getopt_all ((45 :: c :: r : bytes) :: rest) =
  let '(l, taken) := letters_of (c :: r) rest in
  let '(l', other') := match rest with _ :: rest' => if taken : bool then getopt_all rest' else getopt_all rest | [] => ([], false) end in (l ++ l', other').
Proof.
  intros c r rest Nc. assert (E : forall (A : Type) (a b : A), match c with 45 => a | _ => b end = b).
  { intros A a b. destruct c as [|p]; [reflexivity|]. do 6 (destruct p as [p|p|]; try reflexivity). congruence. }
  cbn [getopt_all].
  replace (match c with 45 => _ | _ => _ end) with (let '(l, t) := letters_of (c :: r) rest in (l, t, false, false)).
  - destruct (letters_of (c :: r) rest) as [l t]. reflexivity.
  - symmetry. destruct c as [|p]; [reflexivity|]. do 6 (destruct p as [p|p|]; try reflexivity). congruence.
Qed.
Lemma word_long : forall (n : bytes) (rest : list bytes), n <> [] -> getopt_all ((45 :: 45 :: n : bytes) :: rest) =
  let '(l, taken) := long_of n rest in
  let '(l', other') := match rest with _ :: rest' => if taken : bool then getopt_all rest' else getopt_all rest | [] => ([], false) end in (l ++ l', other').
Proof. intros [|c n] rest Nn; [congruence|]. cbn [getopt_all]. destruct (long_of (c :: n) rest) as [l t]. reflexivity. Qed.
Lemma word_other : forall (w : bytes) (rest : list bytes), w = [dash] \/ hd 0 w <> dash -> getopt_all (w :: rest) = (fst (getopt_all rest), true).
Proof.
  intros w rest H.
  assert (E : getopt_all (w :: rest) = let '(l', other') := match rest with _ :: rest' => getopt_all rest | [] => ([], false) end in (l', true)).
  { destruct H as [->|H]; [reflexivity|]. destruct w as [|c w]; [reflexivity|]. cbn [hd] in H. destruct c as [|p]; [reflexivity|]. do 6 (destruct p as [p|p|]; try reflexivity). elim H. reflexivity. }
  rewrite E. destruct rest as [|x rest]; [reflexivity|]. destruct (getopt_all (x :: rest)). reflexivity.
Qed.
Definition next_to (l : list got) (rest : list bytes) : list got * bool := (l ++ fst (getopt_all rest), snd (getopt_all rest)).
Lemma letters_stay : forall (c : N) (r : bytes) (rest : list bytes) l, c <> 45 -> letters_of (c :: r) rest = (l, false) -> getopt_all ((45 :: c :: r : bytes) :: rest) = next_to l rest.
Proof.
  intros c r rest l Nc E. rewrite (word_letters c r rest Nc), E. unfold next_to. destruct rest as [|x rest]; [reflexivity|]. destruct (getopt_all (x :: rest)). reflexivity.
Qed.
Lemma letters_take : forall c r a rest l, c <> 45 -> letters_of (c :: r) (a :: rest) = (l, true) -> getopt_all ((45 :: c :: r : bytes) :: a :: rest) = next_to l rest.
Proof. intros c r a rest l Nc E. rewrite (word_letters c r (a :: rest) Nc), E. unfold next_to. destruct (getopt_all rest). reflexivity. Qed.
Lemma long_stay : forall n rest l, n <> [] -> long_of n rest = (l, false) -> getopt_all ((45 :: 45 :: n : bytes) :: rest) = next_to l rest.
Proof.
  intros n rest l Nn E. rewrite (word_long n rest Nn), E. unfold next_to. destruct rest as [|x rest]; [reflexivity|]. destruct (getopt_all (x :: rest)). reflexivity.
Qed.
Lemma long_take : forall n a rest l, n <> [] -> long_of n (a :: rest) = (l, true) -> getopt_all ((45 :: 45 :: n : bytes) :: a :: rest) = next_to l rest.
Proof. intros n a rest l Nn E. rewrite (word_long n (a :: rest) Nn), E. unfold next_to. destruct (getopt_all rest). reflexivity. Qed.

(* The word consists of flags and of something that begins with c *)
Lemma letters_shape : forall ls (c : N) (r : bytes), Forall is_flag ls -> ls <> [] \/ c <> 45 -> exists c' r', chars ls ++ c :: r = c' :: r' /\ c' <> 45.
Proof.
  intros [|a ls] c r F H; cbn [chars map app]; eexists _, _; (split; [reflexivity|]); [destruct H; congruence|].
  apply flag_not_dash. left. apply (Forall_inv F).
Qed.

Lemma say_gives : forall ws ops e, say ws ops e -> forall rest, exists l, read_all l = Ok ops /\
  getopt_all (ws ++ rest) = (l ++ fst (getopt_all rest), e || snd (getopt_all rest)).
Proof.
  induction 1 as [|ls ws ops e Nl F S IH|ls c arg ws ops e F T Na S IH|ls c arg ws ops e F T S IH|n d ws ops e Nm A S IH|n d arg ws ops e Nm A S IH|n d arg ws ops e Nm A S IH|w ws ops e Hw S IH]; intros rest.
  - exists []. split; [reflexivity|]. cbn [app orb]. destruct (getopt_all rest); reflexivity.
  - destruct (IH rest) as (l & R & E). exists (just ls ++ l). split; [rewrite read_app, (read_flags ls F); cbn [bind]; rewrite R; reflexivity|].
    destruct ls as [|c ls]; [congruence|]. cbn [app chars map]. rewrite (letters_stay _ _ _ (just (c :: ls))).
    + unfold next_to. rewrite E. cbn [fst snd map app]. rewrite <- !app_assoc. reflexivity.
    + apply flag_not_dash. left. apply (Forall_inv F).
    + change (N_of_ascii c :: map N_of_ascii ls) with (chars (c :: ls)). rewrite <- (app_nil_r (chars (c :: ls))), (flags_first (c :: ls) [] _ F). cbn [letters_of]. rewrite app_nil_r. reflexivity.
  - destruct (IH rest) as (l & R & E). exists (just ls ++ (Some c, Some arg) :: l). split; [rewrite read_app, (read_flags ls F); cbn [bind read_all read_got]; rewrite R; reflexivity|].
    destruct (letters_shape ls (N_of_ascii c) arg F (or_intror (flag_not_dash c (or_intror T)))) as (c' & r' & Ew & Nc). cbn [app]. unfold dash. rewrite Ew.
    rewrite (letters_stay c' r' _ (just ls ++ [(Some c, Some arg)]) Nc).
    + unfold next_to. rewrite E. cbn [fst snd]. rewrite <- !app_assoc. reflexivity.
    + rewrite <- Ew, (flags_first ls _ _ F). cbn [letters_of]. rewrite (argument_letter c T), ascii_N_embedding. destruct arg as [|x arg]; [congruence|reflexivity].
  - destruct (IH rest) as (l & R & E). exists (just ls ++ (Some c, Some arg) :: l). split; [rewrite read_app, (read_flags ls F); cbn [bind read_all read_got]; rewrite R; reflexivity|].
    destruct (letters_shape ls (N_of_ascii c) [] F (or_intror (flag_not_dash c (or_intror T)))) as (c' & r' & Ew & Nc). cbn [app]. unfold dash. rewrite Ew.
    rewrite (letters_take c' r' arg _ (just ls ++ [(Some c, Some arg)]) Nc).
    + unfold next_to. rewrite E. cbn [fst snd]. rewrite <- !app_assoc. reflexivity.
    + rewrite <- Ew, (flags_first ls _ _ F). cbn [letters_of]. rewrite (argument_letter c T), ascii_N_embedding. reflexivity.
  - destruct (IH rest) as (l & R & E). destruct (names_plain n d Nm) as [Nn Ne]. destruct (doc_long d (proj1 Nm)) as (_ & _ & La & Ra).
    exists (returned (as_long d) None :: l). split; [cbn [read_all]; rewrite (proj2 (Ra []) A); cbn [bind]; rewrite R; reflexivity|]. cbn [app]. unfold dash.
    rewrite (long_stay n _ [returned (as_long d) None] Nn); [unfold next_to; rewrite E; reflexivity|].
    unfold long_of. rewrite (proj2 (split_name n [] Ne)), (find_names n d Nm), La, A. reflexivity.
  - destruct (IH rest) as (l & R & E). destruct (names_plain n d Nm) as [Nn Ne]. destruct (doc_long d (proj1 Nm)) as (_ & _ & La & Ra).
    exists (returned (as_long d) (Some arg) :: l). split; [cbn [read_all]; rewrite (proj1 (Ra arg)); cbn [bind]; rewrite R; reflexivity|]. cbn [app]. unfold dash.
    rewrite (long_stay (n ++ equals :: arg) _ [returned (as_long d) (Some arg)]); [unfold next_to; rewrite E; reflexivity|destruct n; discriminate|].
    unfold long_of. rewrite (proj1 (split_name n arg Ne)), (find_names n d Nm), La, A. reflexivity.
  - destruct (IH rest) as (l & R & E). destruct (names_plain n d Nm) as [Nn Ne]. destruct (doc_long d (proj1 Nm)) as (_ & _ & La & Ra).
    exists (returned (as_long d) (Some arg) :: l). split; [cbn [read_all]; rewrite (proj1 (Ra arg)); cbn [bind]; rewrite R; reflexivity|]. cbn [app]. unfold dash.
    rewrite (long_take n arg _ [returned (as_long d) (Some arg)] Nn); [unfold next_to; rewrite E; reflexivity|].
    unfold long_of. rewrite (proj2 (split_name n [] Ne)), (find_names n d Nm), La, A. reflexivity.
  - destruct (IH rest) as (l & R & E). exists l. split; [exact R|]. change ((w :: ws) ++ rest) with (w :: (ws ++ rest)). rewrite (word_other w (ws ++ rest) Hw), E. reflexivity.
Qed.

Lemma said : forall ws ops e, say ws ops e -> command_line ws = Ok (ops, e).
Proof.
  intros ws ops e S. destruct (say_gives ws ops e S []) as (l & R & E). rewrite app_nil_r in E. unfold command_line. rewrite E. cbn [getopt_all fst snd]. rewrite app_nil_r, orb_false_r, R. reflexivity.
Qed.
Lemma said_end : forall ws ops e others, say ws ops e -> command_line (ws ++ [dash; dash] :: others) = Ok (ops, e || negb (match others with [] => true | _ => false end)).
Proof.
  intros ws ops e others S. destruct (say_gives ws ops e S ([dash; dash] :: others)) as (l & R & E). unfold command_line. rewrite E.
  change (getopt_all ([dash; dash] :: others)) with (@nil got, match others with [] => false | _ => true end). cbn [fst snd]. rewrite app_nil_r, R. cbn [bind]. destruct others; reflexivity.
Qed.

(* ---- any words ---- *)
Definition sound (g : got) : Prop := match g with (None, _) => True | (Some c, a) => In c letters /\ (reads_optarg c = true -> a <> None) end.
Lemma sound_read : forall l, Forall sound l -> exists ops, read_all l = Ok ops /\ Forall known ops.
Proof.
  induction 1 as [|[[c|] a] l H _ (ops & R & K)]; [exists []; split; [reflexivity|constructor]| |].
  - destruct H as [Hc Ha]. destruct a as [a|].
    + exists (OptChar c a :: ops). cbn [read_all read_got bind]. rewrite R. split; [reflexivity|constructor; [exact Hc|exact K]].
    + exists (OptChar c [] :: ops). cbn [read_all read_got]. destruct (reads_optarg c) eqn:Rc; [elim (Ha eq_refl eq_refl)|]. cbn [bind]. rewrite R. split; [reflexivity|constructor; [exact Hc|exact K]].
  - exists (OptNoFec :: ops). cbn [read_all read_got bind]. rewrite R. split; [reflexivity|constructor; [exact I|exact K]].
Qed.
Lemma complaint_sound : sound complaint_about.
Proof. split; [cbn; tauto|discriminate]. Qed.
Lemma flag_in : forall c, is_flag c \/ takes_argument c -> In c letters.
Proof. intros c [(d & H & L & A)|(d & H & L & A)]; unfold usage in H; repeat (destruct H as [<-|H]; [first [discriminate A|discriminate L|injection L as <-; cbn; tauto]|]); destruct H. Qed.
Lemma letters_sound : forall chars rest, Forall sound (fst (letters_of chars rest)).
Proof.
  induction chars as [|c r IH]; intros rest; [constructor|]. cbn [letters_of]. destruct (short_option c) as [b|] eqn:So.
  - destruct (letter_known c b So) as (a & -> & K). rewrite ascii_N_embedding. destruct b.
    + assert (X : forall x, Forall sound [(Some a, Some x)]) by (intros x; constructor; [split; [apply flag_in; right; exact K|discriminate]|constructor]).
      destruct r, rest; try apply X. constructor; [apply complaint_sound|constructor].
    + specialize (IH rest). destruct (letters_of r rest). constructor; [split; [apply flag_in; left; exact K|rewrite (flag_reads a K); discriminate]|exact IH].
  - specialize (IH rest). destruct (letters_of r rest). constructor; [apply complaint_sound|exact IH].
Qed.
Lemma returned_sound : forall d a, In d usage -> (d_argument d = true -> a <> None) -> sound (returned (as_long d) a).
Proof. intros d a H A. unfold usage in H. repeat (destruct H as [<-|H]; [cbn; first [exact I|split; [tauto|first [discriminate|intros _; apply A; reflexivity]]]|]). destruct H. Qed.
Lemma long_sound : forall w rest, Forall sound (fst (long_of w rest)).
Proof.
  intros w rest. unfold long_of. destruct (split_equals w) as [n v]. destruct (find_long n) as [o|] eqn:F; [|constructor; [apply complaint_sound|constructor]].
  assert (Ho : In o long_options).
  { unfold find_long in F. destruct (find _ _) eqn:E; [injection F as ->; apply find_some in E; apply E|]. destruct (filter _ _) as [|x [|y m]] eqn:G; try discriminate. injection F as ->.
    assert (X : In o [o]) by (left; reflexivity). rewrite <- G in X. apply filter_In in X. apply X. }
  destruct (long_doc o Ho) as (d & Hd & <-). destruct (doc_long d Hd) as (_ & _ & La & _). rewrite La.
  destruct (d_argument d) eqn:A, v as [v|], rest as [|a rest]; cbn [fst]; (constructor; [|constructor]); try apply complaint_sound; apply returned_sound; try exact Hd; intros X; try discriminate; congruence.
Qed.
Lemma all_sound_len : forall k words, (length words <= k)%nat -> Forall sound (fst (getopt_all words)).
Proof.
  induction k as [|k IH]; intros [|w rest] L; try constructor; cbn [length] in L; [lia|]. cbn [getopt_all].
  match goal with |- context [match w with [] => ?x | _ => _ end] => idtac end.
  assert (X : exists l t o s, (match w with
        | [45; 45] => ([], false, match rest with [] => false | _ => true end, true)
        | 45 :: 45 :: name => let '(l, t) := long_of name rest in (l, t, false, false)
        | 45 :: c :: r => let '(l, t) := letters_of (c :: r) rest in (l, t, false, false)
        | _ => ([], false, true, false)
        end) = (l, t, o, s) /\ Forall sound l).
  { assert (Y : forall cs, exists l t o s, (let '(l, t) := letters_of cs rest in (l, t, false, false)) = (l, t, o, s) /\ Forall sound l).
    { intros cs. pose proof (letters_sound cs rest) as H. destruct (letters_of cs rest) as [l t]. exists l, t, false, false. split; [reflexivity|exact H]. }
    assert (Z : forall n, exists l t o s, (let '(l, t) := long_of n rest in (l, t, false, false)) = (l, t, o, s) /\ Forall sound l).
    { intros n. pose proof (long_sound n rest) as H. destruct (long_of n rest) as [l t]. exists l, t, false, false. split; [reflexivity|exact H]. }
    assert (N : forall (o s : bool), exists l t o' s', (@nil got, false, o, s) = (l, t, o', s') /\ Forall sound l) by (intros o s; exists [], false, o, s; split; [reflexivity|constructor]).
    destruct w as [|c w]; [apply N|]. destruct c as [|p]; [apply N|]. do 6 (destruct p as [p|p|]; try apply N).
    destruct w as [|c w]; [apply N|]. destruct c as [|p]; [apply Y|]. do 6 (destruct p as [p|p|]; try apply Y). destruct w as [|c w]; [apply N|apply Z]. }
  destruct X as (l & t & o & s & -> & F). destruct s; [exact F|].
  assert (G : Forall sound (fst (match rest with [] => ([], false) | _ :: rest' => if t : bool then getopt_all rest' else getopt_all rest end))).
  { destruct rest as [|x rest']; [constructor|]. destruct t; apply IH; cbn [length] in *; lia. }
  destruct (match rest with [] => _ | _ => _ end) as [l' o']. cbn [fst] in *. apply Forall_app. split; assumption.
Qed.
Lemma words_known : forall words, exists ops extra, command_line words = Ok (ops, extra) /\ Forall known ops.
Proof.
  intros words. pose proof (all_sound_len (length words) words (le_n _)) as S. unfold command_line. destruct (getopt_all words) as [l other]. destruct (sound_read l S) as (ops & -> & K).
  exists ops, other. split; [reflexivity|exact K].
Qed.

(* ---- wrong words ---- *)
Lemma wrong_complains : forall w rest, wrong w rest -> In complaint_about (fst (getopt_all (w :: rest))).
Proof.
  assert (P : forall l rest, In complaint_about l -> In complaint_about (fst (next_to l rest))) by (intros l rest H; apply in_or_app; left; exact H).
  destruct 1 as [ls c r rest F U Sh|ls c F T|n rest Nn Ne U|n arg rest Ne U|n d arg rest Nm A|n d Nm A].
  - destruct (letters_shape ls c r F Sh) as (c' & r' & Ew & Nc). unfold dash. rewrite Ew, (word_letters c' r' rest Nc), <- Ew, (flags_first ls _ _ F). cbn [letters_of].
    destruct (short_option c) as [b|] eqn:So.
    + destruct (letter_known c b So) as (a & E & K). destruct (U a E) as [U1 U2]. destruct b; contradiction.
    + destruct (letters_of r rest) as [l t]. destruct (match rest with [] => _ | _ => _ end) as [l' o']. cbn [fst]. apply in_or_app. left. apply in_or_app. right. left. reflexivity.
  - destruct (letters_shape ls (N_of_ascii c) [] F (or_intror (flag_not_dash c (or_intror T)))) as (c' & r' & Ew & Nc). unfold dash. rewrite Ew.
    rewrite (letters_stay c' r' [] (just ls ++ [complaint_about]) Nc); [apply P; apply in_or_app; right; left; reflexivity|].
    rewrite <- Ew, (flags_first ls _ _ F). cbn [letters_of]. rewrite (argument_letter c T). reflexivity.
  - unfold dash. rewrite (long_stay n rest [complaint_about] Nn); [apply P; left; reflexivity|]. unfold long_of. rewrite (proj2 (split_name n [] Ne)).
    destruct (find_long n) as [o|] eqn:Fl; [|reflexivity]. destruct (names_find n o Fl) as [d D]. elim (U d D).
  - unfold dash. rewrite (long_stay (n ++ equals :: arg) rest [complaint_about]); [apply P; left; reflexivity|destruct n; discriminate|]. unfold long_of. rewrite (proj1 (split_name n arg Ne)).
    destruct (find_long n) as [o|] eqn:Fl; [|reflexivity]. destruct (names_find n o Fl) as [d D]. elim (U d D).
  - destruct (names_plain n d Nm) as [Nn Ne]. destruct (doc_long d (proj1 Nm)) as (_ & _ & La & _). unfold dash. rewrite (long_stay (n ++ equals :: arg) rest [complaint_about]); [apply P; left; reflexivity|destruct n; discriminate|].
    unfold long_of. rewrite (proj1 (split_name n arg Ne)), (find_names n d Nm), La, A. reflexivity.
  - destruct (names_plain n d Nm) as [Nn Ne]. destruct (doc_long d (proj1 Nm)) as (_ & _ & La & _). unfold dash. rewrite (long_stay n [] [complaint_about] Nn); [apply P; left; reflexivity|].
    unfold long_of. rewrite (proj2 (split_name n [] Ne)), (find_names n d Nm), La, A. reflexivity.
Qed.
Lemma read_in : forall l ops, read_all l = Ok ops -> In complaint_about l -> In (OptChar "?" []) ops.
Proof.
  induction l as [|g l IH]; intros ops R H; [destruct H|]. cbn [read_all] in R. destruct (read_got g) as [op| |] eqn:Rg; cbn [bind] in R; try discriminate. destruct (read_all l) as [ops'| |] eqn:Rl; cbn [bind] in R; try discriminate.
  injection R as <-. destruct H as [->|H]; [injection Rg as <-; left; reflexivity|right; exact (IH ops' eq_refl H)].
Qed.
Lemma wrong_word : forall ws ops e w rest, say ws ops e -> wrong w rest -> exists ops' extra, command_line (ws ++ w :: rest) = Ok (ops', extra) /\ Forall known ops' /\ In (OptChar "?" []) ops'.
Proof.
  intros ws ops e w rest S W. destruct (words_known (ws ++ w :: rest)) as (ops' & extra & E & K). exists ops', extra. split; [exact E|]. split; [exact K|].
  destruct (say_gives ws ops e S (w :: rest)) as (l & R & G). unfold command_line in E. rewrite G in E. destruct (read_all _) as [x| |] eqn:Rl in E; cbn [bind] in E; try discriminate. injection E as <- _.
  apply (read_in _ _ Rl). apply in_or_app. right. apply wrong_complains. exact W.
Qed.
