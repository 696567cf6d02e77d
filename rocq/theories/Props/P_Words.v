(* C100: the words of the command line. *)
From Verif.Model Require Import Base Util Float Group Options Json Tmc Station Input Channel Dsp Main Getopt.
From Verif.Spec Require Import Session Host Program Demo CommandLine Words.
From Verif.Proofs Require Import Tac CommandP WordsP.
From Verif.Props Require Import P_Input P_Main P_Command.
From Verif.Model Require Import Main.

Local Open Scope char_scope.
Local Open Scope N_scope.
Local Open Scope list_scope.

(* --- C100 --- *)
(* Options are understood however they are written: letters alone or together, long names or their
   beginnings, arguments in the same word or in the next. *)
Theorem C100_words : forall words ops other, say words ops other -> command_line words = Ok (ops, other).
Proof. exact said. Qed.
Print Assumptions C100_words.

(* After "--" there are no more options *)
Theorem C100_end_of_options : forall words ops other rest, say words ops other ->
  command_line (words ++ [dash; dash] :: rest) = Ok (ops, if rest then other else true).
Proof. intros words ops other rest S. rewrite (said_end words ops other rest S). destruct rest, other; reflexivity. Qed.
Print Assumptions C100_end_of_options.

(* So the program does what the options mean, and the same if they are written differently. *)
Theorem C100_program : forall (D : Type) fuel (w : World D) words ops other, say words ops other -> program fuel w words = main fuel w ops other.
Proof. intros D fuel w words ops other S. unfold program. rewrite (said words ops other S). reflexivity. Qed.
Print Assumptions C100_program.
Theorem C100_same_options : forall (D : Type) fuel (w : World D) words words' ops other, say words ops other -> say words' ops other ->
  program fuel w words = program fuel w words'.
Proof. intros D fuel w words words' ops other S S'. rewrite (C100_program D fuel w words ops other S), (C100_program D fuel w words' ops other S'). reflexivity. Qed.
Print Assumptions C100_same_options.

(* Whatever the words are, an option that reads its argument has one (no null pointer is read), and
   only options that exist come out. *)
Theorem C100_any_words : forall words, exists ops extra, command_line words = Ok (ops, extra) /\ Forall known ops.
Proof. exact words_known. Qed.
Print Assumptions C100_any_words.

(* Whatever the words are, the program ends in order (C63). *)
Theorem C100_program_ends : forall (D : Type) (w : World D) words fuel,
  host_ok (w_env w) -> audio_ok (w_snd w) (w_liquid w) -> (length (w_audio w) < fuel)%nat ->
  exists ops extra, command_line words = Ok (ops, extra) /\
  ((exists code out, program fuel w words = Ok (Some (code, out)) /\
     (code = EXIT_FAILURE -> existsb complaint out = true /\ all_lines out = [])) \/
  (exists m, program fuel w words = Throw m /\ rate_refused w ops extra m)).
Proof.
  intros D w words fuel H A L. destruct (words_known words) as (ops & extra & E & _). exists ops, extra. split; [exact E|]. unfold program. rewrite E. cbn [bind].
  exact (C63_program_ends D w ops extra fuel H A L).
Qed.
Print Assumptions C100_program_ends.

(* A wrong word after any options: nothing is decoded; the usage is shown, or a message if an option
   is refused. *)
Theorem C100_wrong_word : forall (D : Type) fuel (w : World D) words ops other x rest, say words ops other -> wrong x rest ->
  exists code out, program fuel w (words ++ x :: rest) = Ok (Some (code, out)) /\ all_lines out = [] /\
    (In Usage out \/ code = EXIT_FAILURE /\ out = [Message]).
Proof.
  intros D fuel w words ops other x rest S W. destruct (wrong_word words ops other x rest S W) as (ops' & extra & E & K & I). unfold program. rewrite E. cbn [bind].
  destruct (C88_program D fuel w ops' extra K) as [R Q].
  destruct (getOptions_all (w_numbers w) ops' extra K) as [(F & A & _)|(X & _)].
  - assert (N : ~ (Exists (unacceptable (w_numbers w)) ops' \/ at_odds (w_numbers w) ops')).
    { intros [X|X]; [|contradiction]. rewrite Exists_exists in X. destruct X as (op & Io & U). rewrite Forall_forall in F. elim (F op Io U). }
    assert (G : gives "?" ops') by (exists []; exact I).
    destruct (Q N (or_intror (or_introl G))) as (out & Em & Us & _ & Al). eexists _, out. split; [exact Em|]. split; [exact Al|left]. apply Us. left. exact G.
  - rewrite (R X). exists EXIT_FAILURE, [Message]. split; [reflexivity|]. split; [reflexivity|right; split; reflexivity].
Qed.
Print Assumptions C100_wrong_word.

Ltac among := cbn; tauto.
Ltac unlike H := unfold usage in H; repeat (destruct H as [<-|H]; [first [discriminate|reflexivity]|]); destruct H.
Ltac full := split; [among|left; reflexivity].
Ltac beginning rest := split; [among|right; split; [exists (bs rest); reflexivity|let d := fresh in let r := fresh in let H := fresh in let E := fresh in intros d r H E; unlike H]].

(* But a wrong word alone is reported as success: a name that does not exist, one that is ambiguous, a
   letter that does not exist, an argument that is missing *)
Theorem C100_wrong_word_refuted : Forall (fun x => wrong x [] /\ forall (D : Type) fuel (w : World D), program fuel w [x] = Ok (Some (EXIT_SUCCESS, [Usage])))
  [bs "--bogus"; bs "--in"; bs "-z"; bs "-t"; bs "--file"; bs "--rbds=1"].
Proof.
  repeat (constructor; [split; [|reflexivity]|]); [| | | | | |constructor].
  - apply (no_such_name (bs "bogus")); [discriminate|vm_compute; intuition discriminate|]. intros d (H & [E|([r E] & U)]); unlike H.
  - apply (no_such_name (bs "in")); [discriminate|vm_compute; intuition discriminate|]. intros d (H & [E|([r E] & U)]); [unlike H|].
    pose proof (U (flag "b" "input-bits") (bs "put-bits") ltac:(among) eq_refl) as X. pose proof (U (flag "h" "input-hex") (bs "put-hex") ltac:(among) eq_refl) as Y. rewrite <- X in Y. discriminate.
  - apply (no_such_letter [] 122 []); [constructor| |right; discriminate].
    intros a E. split; intros (d & H & L & A); unfold usage in H; repeat (destruct H as [<-|H]; [first [discriminate L|injection L as <-; discriminate E]|]); destruct H.
  - apply (letter_without_argument [] "t"); [constructor|]. exists (setting "t" "timestamp"). split; [among|split; reflexivity].
  - apply (name_without_argument (bs "file") (setting "f" "file")); [full|reflexivity].
  - apply (unwanted_argument (bs "rbds") (flag "u" "rbds") (bs "1")); [full|reflexivity].
Qed.
Print Assumptions C100_wrong_word_refuted.

(* The same options in two ways *)
Definition some_options : list Opt :=
  [OptChar "E" []; OptChar "u" []; OptChar "r" (bs "171k"); OptChar "t" (bs "%c"); OptChar "p" []; OptChar "o" (bs "hex"); OptChar "f" (bs "-"); OptNoFec].
Ltac is_one := match goal with |- _ ?a => let r := eval vm_compute in (find (fun d => match d_letter d with Some x => Ascii.eqb x a | None => false end) usage) in
  match r with Some ?d => exists d; split; [among|split; reflexivity] end end.
Example C100_case :
  say [bs "-Eu"; bs "-r171k"; bs "--timest=%c"; bs "-po"; bs "hex"; bs "--file"; bs "-"; bs "--no-fec"] some_options false /\
  say [bs "--bler"; bs "-u"; bs "--samplerate"; bs "171k"; bs "-t"; bs "%c"; bs "--show-p"; bs "--output=hex"; bs "-f-"; bs "--no"] some_options false /\
  command_line [bs "-u"; bs "-"; bs "--rbds"; bs "--"; bs "-v"] = Ok ([OptChar "u" []; OptChar "u" []], true).
Proof.
  split; [|split; [|reflexivity]].
  - apply (by_letters ["E"; "u"]); [discriminate|constructor; [|constructor; [|constructor]]; is_one|].
    apply (by_letters_with [] "r" (bs "171k")); [constructor|is_one|discriminate|].
    apply (by_name_with (bs "timest") (setting "t" "timestamp") (bs "%c")); [beginning "amp"%string|reflexivity|].
    apply (by_letters_then ["p"] "o" (bs "hex")); [constructor; [is_one|constructor]|is_one|].
    apply (by_name_then (bs "file") (setting "f" "file") (bs "-")); [full|reflexivity|].
    apply (by_name (bs "no-fec") (mkDoc None (bs "no-fec") false (fun _ => OptNoFec))); [full|reflexivity|]. constructor.
  - apply (by_name (bs "bler") (flag "E" "bler")); [full|reflexivity|].
    apply (by_letters ["u"]); [discriminate|constructor; [is_one|constructor]|].
    apply (by_name_then (bs "samplerate") (setting "r" "samplerate")); [full|reflexivity|].
    apply (by_letters_then [] "t"); [constructor|is_one|].
    apply (by_name (bs "show-p") (flag "p" "show-partial")); [beginning "artial"%string|reflexivity|].
    apply (by_name_with (bs "output") (setting "o" "output") (bs "hex")); [full|reflexivity|].
    apply (by_letters_with [] "f" (bs "-")); [constructor|is_one|discriminate|].
    apply (by_name (bs "no") (mkDoc None (bs "no-fec") false (fun _ => OptNoFec))); [beginning "-fec"%string|reflexivity|]. constructor.
Qed.
