(* The words of the command line: the tables of options in src/options.cc, and getopt_long, which is
   part of the C library and modelled as its manual describes it (GNU: words that are no options may
   stand anywhere; a long name may be abbreviated as long as it is not ambiguous). *)
From Verif.Model Require Import Base Util Float Group Options Json Tmc Station Input Channel Dsp Main.

Local Open Scope char_scope.
Local Open Scope N_scope.
Local Open Scope list_scope.

(* src/options.cc:41-62.  lo_flag: the option stores lo_val in fec_flag, and getopt_long returns 0. *)
Record long_option := mkLong { lo_name : bytes; lo_arg : bool; lo_flag : bool; lo_val : ascii }.
Definition no_argument := false.
Definition required_argument := true.
Definition long_options : list long_option := [
  mkLong (bs "input-bits")   no_argument       false "b";
  mkLong (bs "channels")     required_argument false "c";
  mkLong (bs "feed-through") no_argument       false "e";
  mkLong (bs "bler")         no_argument       false "E";
  mkLong (bs "file")         required_argument false "f";
  mkLong (bs "input-hex")    no_argument       false "h";
  mkLong (bs "input")        required_argument false "i";
  mkLong (bs "loctable")     required_argument false "l";
  mkLong (bs "output")       required_argument false "o";
  mkLong (bs "show-partial") no_argument       false "p";
  mkLong (bs "samplerate")   required_argument false "r";
  mkLong (bs "show-raw")     no_argument       false "R";
  mkLong (bs "timestamp")    required_argument false "t";
  mkLong (bs "rbds")         no_argument       false "u";
  mkLong (bs "streams")      no_argument       false "s";
  mkLong (bs "version")      no_argument       false "v";
  mkLong (bs "output-hex")   no_argument       false "x";
  mkLong (bs "no-fec")       no_argument       true  "000";
  mkLong (bs "help")         no_argument       false "?"
].
(* src/options.cc:68 *)
Definition optstring : bytes := bs "bc:eEf:hi:l:o:pr:Rst:uvx".

(* What one call of getopt_long gives: the character returned (None: 0, after storing a flag) and
   optarg (None: a null pointer) *)
Definition got : Type := option ascii * option bytes.
Definition complaint_about : got := (Some "?", None).

(* getopt: whether a letter is an option, and whether it takes an argument *)
Fixpoint in_optstring (s : bytes) (c : N) : option bool :=
  match s with
  | [] => None
  | x :: r => if x =? c then Some (match r with y :: _ => y =? 58 | [] => false end) else in_optstring r c
  end.
Definition short_option (c : N) : option bool := if c =? 58 then None else in_optstring optstring c.

Fixpoint starts_with (p s : bytes) : bool :=
  match p, s with
  | [], _ => true
  | x :: p', y :: s' => (x =? y) && starts_with p' s'
  | _ :: _, [] => false
  end.
(* The name and the argument of a long option *)
Fixpoint split_equals (w : bytes) : bytes * option bytes :=
  match w with
  | [] => ([], None)
  | c :: r => if c =? 61 then ([], Some r) else let '(n, a) := split_equals r in (c :: n, a)
  end.
(* getopt_long: an exact match, or the only one that begins so *)
Definition find_long (name : bytes) : option long_option :=
  match find (fun o => bytes_eqb (lo_name o) name) long_options with
  | Some o => Some o
  | None => match filter (fun o => starts_with name (lo_name o)) long_options with
            | [o] => Some o
            | _ => None
            end
  end.
Definition returned (o : long_option) (arg : option bytes) : got := (if lo_flag o then None else Some (lo_val o), arg).

(* getopt_long: the letters of a word after its '-'; and whether the word after it was taken as an
   argument *)
Fixpoint letters_of (chars : bytes) (rest : list bytes) : list got * bool :=
  match chars with
  | [] => ([], false)
  | c :: r =>
      match short_option c with
      | None => let '(l, t) := letters_of r rest in (complaint_about :: l, t)
      | Some false => let '(l, t) := letters_of r rest in ((Some (ascii_of_N c), None) :: l, t)
      | Some true =>
          match r, rest with
          | [], a :: _ => ([(Some (ascii_of_N c), Some a)], true)
          | [], [] => ([complaint_about], false)
          | _, _ => ([(Some (ascii_of_N c), Some r)], false)
          end
      end
  end.
(* getopt_long: a word after its "--" *)
Definition long_of (word : bytes) (rest : list bytes) : list got * bool :=
  let '(name, value) := split_equals word in
  match find_long name with
  | None => ([complaint_about], false)
  | Some o =>
      match lo_arg o, value, rest with
      | false, None, _ => ([returned o None], false)
      | false, Some _, _ => ([complaint_about], false)
      | true, Some v, _ => ([returned o (Some v)], false)
      | true, None, a :: _ => ([returned o (Some a)], true)
      | true, None, [] => ([complaint_about], false)
      end
  end.
(* getopt_long, called until it returns -1; and whether words remain that are no options
   (argc > optind) *)
Fixpoint getopt_all (words : list bytes) : list got * bool :=
  match words with
  | [] => ([], false)
  | w :: rest =>
      let '(l, taken, other, stop) :=
        match w with
        | [45; 45] => ([], false, match rest with [] => false | _ => true end, true)
        | 45 :: 45 :: name => let '(l, t) := long_of name rest in (l, t, false, false)
        | 45 :: c :: r => let '(l, t) := letters_of (c :: r) rest in (l, t, false, false)
        | _ => ([], false, true, false)
        end in
      if stop : bool then (l, other)
      else
        let '(l', other') := match rest with
                             | _ :: rest' => if taken : bool then getopt_all rest' else getopt_all rest
                             | [] => ([], false)
                             end in
        (l ++ l', other || other')
  end.

(* src/options.cc:70-163: the cases that read optarg as a string; a null pointer there is undefined
   behaviour.  (The model looks at all options before the first of them takes effect.) *)
Definition reads_optarg (c : ascii) : bool :=
  match c with "c" | "f" | "i" | "l" | "o" | "r" | "t" => true | _ => false end.
Definition read_got (g : got) : res Opt :=
  match g with
  | (None, _) => Ok OptNoFec
  | (Some c, Some a) => Ok (OptChar c a)
  | (Some c, None) => if reads_optarg c then UB "null pointer as a string" else Ok (OptChar c [])
  end.
Fixpoint read_all (l : list got) : res (list Opt) :=
  match l with
  | [] => Ok []
  | g :: r => op <- read_got g ;; ops <- read_all r ;; Ok (op :: ops)
  end.

(* src/options.cc:68-69: the words after the name of the program *)
Definition command_line (words : list bytes) : res (list Opt * bool) :=
  let '(l, other) := getopt_all words in
  ops <- read_all l ;; Ok (ops, other).

(* src/redsea.cc:205-238 from the words of the command line on *)
Definition program {D : Type} (fuel : nat) (w : World D) (words : list bytes) : res (option (exit_code * list output_item)) :=
  '(ops, extra) <- command_line words ;; main fuel w ops extra.
