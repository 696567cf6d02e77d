(* How options are written on the command line, as --help lists them and as POSIX and GNU programs
   accept them. *)
From Verif.Model Require Import Base Options.

Local Open Scope char_scope.
Local Open Scope N_scope.
Local Open Scope list_scope.

(* The options of the usage text (src/redsea.cc:33-108), in its order, and --help: letter, long name,
   whether there is an argument, and what the program is told (C88 says what it makes of it) *)
Record documented := mkDoc { d_letter : option ascii; d_long : bytes; d_argument : bool; d_means : bytes -> Opt }.
Definition flag (c : ascii) (name : string) : documented := mkDoc (Some c) (bs name) false (OptChar c).
Definition setting (c : ascii) (name : string) : documented := mkDoc (Some c) (bs name) true (OptChar c).
Definition usage : list documented := [
  flag "b" "input-bits"; setting "c" "channels"; flag "e" "feed-through"; flag "E" "bler"; setting "f" "file";
  flag "h" "input-hex"; setting "i" "input"; setting "l" "loctable"; mkDoc None (bs "no-fec") false (fun _ => OptNoFec);
  setting "o" "output"; flag "p" "show-partial"; setting "r" "samplerate"; flag "R" "show-raw"; flag "s" "streams";
  setting "t" "timestamp"; flag "u" "rbds"; flag "v" "version"; flag "x" "output-hex";
  mkDoc None (bs "help") false (OptChar "?")
].

Definition dash : N := 45.
Definition equals : N := 61.
Definition chars (ls : list ascii) : bytes := map N_of_ascii ls.
Definition is_flag (c : ascii) : Prop := exists d, In d usage /\ d_letter d = Some c /\ d_argument d = false.
Definition takes_argument (c : ascii) : Prop := exists d, In d usage /\ d_letter d = Some c /\ d_argument d = true.
Definition given (ls : list ascii) : list Opt := map (fun c => OptChar c []) ls.
(* n is the long name of an option, or the beginning of no other name *)
Definition names (n : bytes) (d : documented) : Prop :=
  In d usage /\ (d_long d = n \/ (exists r, d_long d = n ++ r) /\ forall d' r', In d' usage -> d_long d' = n ++ r' -> d' = d).

(* words ops other: the words say the options ops; other: there are words among them that are no
   options *)
Inductive say : list bytes -> list Opt -> bool -> Prop :=
| say_nothing : say [] [] false
(* -xyz *)
| by_letters : forall ls ws ops e, ls <> [] -> Forall is_flag ls -> say ws ops e ->
    say ((dash :: chars ls) :: ws) (given ls ++ ops) e
(* -xyzARG, -xyz ARG *)
| by_letters_with : forall ls c (arg : bytes) ws ops e, Forall is_flag ls -> takes_argument c -> arg <> [] -> say ws ops e ->
    say ((dash :: chars ls ++ N_of_ascii c :: arg) :: ws) (given ls ++ OptChar c arg :: ops) e
| by_letters_then : forall ls c (arg : bytes) ws ops e, Forall is_flag ls -> takes_argument c -> say ws ops e ->
    say ((dash :: chars ls ++ [N_of_ascii c]) :: arg :: ws) (given ls ++ OptChar c arg :: ops) e
(* --name *)
| by_name : forall (n : bytes) d ws ops e, names n d -> d_argument d = false -> say ws ops e ->
    say ((dash :: dash :: n) :: ws) (d_means d [] :: ops) e
(* --name=ARG, --name ARG *)
| by_name_with : forall (n : bytes) d (arg : bytes) ws ops e, names n d -> d_argument d = true -> say ws ops e ->
    say ((dash :: dash :: n ++ equals :: arg) :: ws) (d_means d arg :: ops) e
| by_name_then : forall (n : bytes) d (arg : bytes) ws ops e, names n d -> d_argument d = true -> say ws ops e ->
    say ((dash :: dash :: n) :: arg :: ws) (d_means d arg :: ops) e
(* something else *)
| no_option : forall (w : bytes) ws ops e, w = [dash] \/ hd 0 w <> dash -> say ws ops e -> say (w :: ws) ops true.

(* A word that is not acceptable, before the words rest *)
Inductive wrong : bytes -> list bytes -> Prop :=
| no_such_letter : forall ls c (r : bytes) rest, Forall is_flag ls -> (forall a, c = N_of_ascii a -> ~ is_flag a /\ ~ takes_argument a) ->
    ls <> [] \/ c <> dash -> wrong (dash :: chars ls ++ c :: r) rest
| letter_without_argument : forall ls c, Forall is_flag ls -> takes_argument c -> wrong (dash :: chars ls ++ [N_of_ascii c]) []
| no_such_name : forall (n : bytes) rest, n <> [] -> ~ In equals n -> (forall d, ~ names n d) -> wrong (dash :: dash :: n) rest
| no_such_name_with : forall (n : bytes) (arg : bytes) rest, ~ In equals n -> (forall d, ~ names n d) -> wrong (dash :: dash :: n ++ equals :: arg) rest
| unwanted_argument : forall (n : bytes) d (arg : bytes) rest, names n d -> d_argument d = false -> wrong (dash :: dash :: n ++ equals :: arg) rest
| name_without_argument : forall n d, names n d -> d_argument d = true -> wrong (dash :: dash :: n) [].
