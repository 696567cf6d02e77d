(* How the usage text is read: which options it lists, which take an argument, and which values it
   lists for an option. *)
From Verif.Model Require Import Base Options.

Local Open Scope char_scope.
Local Open Scope N_scope.
Local Open Scope list_scope.

(* Pieces of a text between separators *)
Fixpoint pieces (sep : N) (text : bytes) : list bytes :=
  match text with
  | [] => [[]]
  | c :: r => if c =? sep then [] :: pieces sep r
              else match pieces sep r with p :: ps => (c :: p) :: ps | [] => [[c]] end
  end.
Definition space : N := 32.
Definition newline : N := 10.

(* A line "-c, --name ARG  ...", "-c, --name  ...", "--name ARG  ..." or "--name  ..." lists an option *)
Record entry := mkEntry { e_letter : option N; e_name : bytes; e_argument : bool }.
Definition argument_follows (words : list bytes) : bool := match words with (_ :: _) :: _ => true | _ => false end.
Definition entry_of (line : bytes) : option entry :=
  match pieces space line with
  | [45; c; 44] :: (45 :: 45 :: name) :: rest => Some (mkEntry (Some c) name (argument_follows rest))
  | (45 :: 45 :: name) :: rest => Some (mkEntry None name (argument_follows rest))
  | _ => None
  end.
Definition entries (text : bytes) : list entry :=
  flat_map (fun l => match entry_of l with Some e => [e] | None => [] end) (pieces newline text).

(* A value of an option is listed below it, after 25 spaces *)
Definition value_of_line (line : bytes) : option bytes :=
  if bytes_eqb (firstn 25 line) (repeat space 25) then
    match pieces space (skipn 25 line) with (c :: r) :: _ => Some (c :: r) | _ => None end
  else None.
(* The lines after the entry of option [letter], up to the next entry *)
Fixpoint below (letter : N) (inside : bool) (lines : list bytes) : list bytes :=
  match lines with
  | [] => []
  | l :: r => match entry_of l with
              | Some e => below letter (match e_letter e with Some c => c =? letter | None => false end) r
              | None => if inside then l :: below letter inside r else below letter inside r
              end
  end.
Definition values (letter : N) (text : bytes) : list bytes :=
  flat_map (fun l => match value_of_line l with Some v => [v] | None => [] end) (below letter false (pieces newline text)).

(* An option that the program was given is in the list *)
Definition listed (text : bytes) (op : Opt) : Prop :=
  match op with
  | OptNoFec => exists e, In e (entries text) /\ e_name e = bs "no-fec"
  | OptChar c _ => exists e, In e (entries text) /\ e_letter e = Some (N_of_ascii c)
  end.
(* What the program is told by an option of the list *)
Definition tells (e : entry) (arg : bytes) : Opt :=
  match e_letter e with Some c => OptChar (ascii_of_N c) arg | None => OptNoFec end.
