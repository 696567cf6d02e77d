(* What the options on the command line mean, as README.md and --help list them. *)
From Verif.Model Require Import Base Float Options.

Local Open Scope char_scope.
Local Open Scope N_scope.
Local Open Scope list_scope.

(* The options there are.  (For any other, getopt returns '?'.) *)
Definition letters : list ascii :=
  ["b"; "c"; "e"; "E"; "f"; "h"; "i"; "l"; "o"; "p"; "r"; "R"; "s"; "t"; "u"; "v"; "x"; "?"].
Definition known (op : Opt) : Prop := match op with OptNoFec => True | OptChar c _ => In c letters end.

(* An option is given *)
Definition gives (letter : ascii) (ops : list Opt) : Prop := exists arg, In (OptChar letter arg) ops.
(* Of options that set the same thing the last counts *)
Definition last_of {A : Type} (means : Opt -> option A) (otherwise : A) (ops : list Opt) : A :=
  fold_left (fun a op => match means op with Some v => v | None => a end) ops otherwise.

Definition input_named (name : bytes) : option InputType :=
  if bytes_eqb name (bs "hex") then Some HexInput else if bytes_eqb name (bs "mpx") then Some MPX_stdin
  else if bytes_eqb name (bs "tef") then Some TEF6686 else if bytes_eqb name (bs "bits") then Some ASCIIbits else None.
Definition output_named (name : bytes) : option OutputType :=
  if bytes_eqb name (bs "hex") then Some OutHex else if bytes_eqb name (bs "json") then Some OutJSON else None.
Definition input_meant (op : Opt) : option InputType :=
  match op with
  | OptChar "b" _ => Some ASCIIbits
  | OptChar "h" _ => Some HexInput
  | OptChar "f" _ => Some MPX_sndfile
  | OptChar "i" name => input_named name
  | _ => None
  end.
Definition output_meant (op : Opt) : option OutputType :=
  match op with OptChar "x" _ => Some OutHex | OptChar "o" name => output_named name | _ => None end.
Definition file_meant (op : Opt) : option bytes := match op with OptChar "f" name => Some name | _ => None end.
Definition format_meant (op : Opt) : option bytes := match op with OptChar "t" format => Some format | _ => None end.
Definition tables_meant (op : Opt) : list bytes := match op with OptChar "l" dir => [dir] | _ => [] end.
(* Numbers are read by strtoul (cut to 32 bits) and strtof; a rate may end in k or M, large or small, after
   something else *)
Definition rate_unit (arg : bytes) : Z :=
  let ends_in (c : ascii) := (2 <=? N.of_nat (length arg)) && (last arg 0 =? N_of_ascii c) in
  if ends_in "k" || ends_in "K" then 1000%Z else if ends_in "M" || ends_in "m" then 1000000%Z else 1%Z.
Definition channels_meant (ne : NumEnv) (op : Opt) : option N :=
  match op with OptChar "c" arg => Some (fst (ne_strtoul ne arg) mod 2 ^ 32) | _ => None end.
Definition rate_meant (ne : NumEnv) (op : Opt) : option spec_float :=
  match op with OptChar "r" arg => Some (f32_mul (fst (ne_strtof ne arg)) (f32_of_Z (rate_unit arg))) | _ => None end.

Definition is_audio (t : InputType) : bool := match t with MPX_stdin | MPX_sndfile => true | _ => false end.

(* An option that is refused wherever it stands *)
Definition unacceptable (ne : NumEnv) (op : Opt) : Prop :=
  match op with
  | OptChar "i" name => input_named name = None
  | OptChar "o" name => output_named name = None
  | OptChar "c" arg => snd (ne_strtoul ne arg) = true \/ ~ (1 <= fst (ne_strtoul ne arg) mod 2 ^ 32 <= 32)
  | OptChar "r" arg => let rate := f32_mul (fst (ne_strtof ne arg)) (f32_of_Z (rate_unit arg)) in
      snd (ne_strtof ne arg) = true \/ SFltb rate (f32_of_Z 128000) = true \/ SFltb (f32_of_Z 40000000) rate = true
  | _ => False
  end.
(* Options that do not go together *)
Definition at_odds (ne : NumEnv) (ops : list Opt) : Prop :=
  let input := last_of input_meant MPX_stdin ops in
  (gives "e" ops /\ input = MPX_sndfile) \/
  (1 < last_of (channels_meant ne) 1 ops /\ is_audio input = false) \/
  (gives "s" ops /\ is_audio input = false /\ input <> HexInput).

(* The settings that the options amount to; extra: an argument that is no option *)
Record meant (ne : NumEnv) (ops : list Opt) (extra : bool) (o : Options) : Prop := {
  m_input : o_input_type o = last_of input_meant MPX_stdin ops;
  m_output : o_output_type o = last_of output_meant OutJSON ops;
  m_file : o_sndfilename o = last_of file_meant [] ops;
  m_time : o_timestamp o = true <-> gives "t" ops;
  m_format : o_time_format o = last_of format_meant [] ops;
  m_tables : o_loctable_dirs o = flat_map tables_meant ops;
  m_channels : o_num_channels o = last_of (channels_meant ne) 1 ops;
  m_channels_given : o_is_num_channels_defined o = true <-> gives "c" ops;
  m_rate : gives "r" ops -> Some (o_samplerate o) = last_of (fun op => option_map Some (rate_meant ne op)) None ops;
  m_rate_default : ~ gives "r" ops -> o_samplerate o =
    if match o_input_type o with MPX_stdin => negb (o_print_usage o) | _ => false end then f32_of_Z 171000 else S754_zero false;
  m_rate_given : o_is_rate_defined o = true <-> gives "r" ops;
  m_fec : o_use_fec o = false <-> In OptNoFec ops;
  m_feed : o_feed_thru o = true <-> gives "e" ops;
  m_bler : o_bler o = true <-> gives "E" ops;
  m_partial : o_show_partial o = true <-> gives "p" ops;
  m_raw : o_show_raw o = true <-> gives "R" ops;
  m_streams : o_streams o = true <-> gives "s" ops;
  m_rbds : o_rbds o = true <-> gives "u" ops;
  m_version : o_print_version o = true <-> gives "v" ops;
  m_usage : o_print_usage o = true <-> gives "?" ops \/ extra = true;
  m_error : o_init_error o = true <-> extra = true;
  m_stop : o_early_exit o = true <-> gives "v" ops \/ gives "?" ops \/ extra = true
}.
