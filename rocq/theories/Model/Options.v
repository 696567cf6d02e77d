(* src/options.hh: program options, and src/options.cc: their validation. *)
From Verif.Model Require Import Base Util Float.

(* src/options.hh:26-28 *)
Inductive InputType := MPX_stdin | MPX_sndfile | ASCIIbits | HexInput | TEF6686.
Inductive OutputType := OutHex | OutJSON.

(* src/options.hh:30-56 *)
Record Options := mkOptions {
  o_rbds : bool;
  o_feed_thru : bool;
  o_show_partial : bool;
  o_early_exit : bool;
  o_init_error : bool;
  o_print_usage : bool;
  o_print_version : bool;
  o_timestamp : bool;
  o_bler : bool;
  o_show_raw : bool;
  o_is_rate_defined : bool;
  o_is_num_channels_defined : bool;
  o_use_fec : bool;
  o_streams : bool;
  o_samplerate : spec_float;
  o_num_channels : N;
  o_input_type : InputType;
  o_output_type : OutputType;
  o_loctable_dirs : list bytes;
  o_sndfilename : bytes;
  o_time_format : bytes
}.

Definition Options_default : Options :=
  mkOptions false false false false false false false false false false false false true false
    (S754_zero false) 1 MPX_stdin OutJSON [] [] [].

(* One result of getopt_long (src/options.cc:69-70): the option letter and its argument (empty for
   options without one).  '0' stands for the long option --no-fec (flag), which returns 0. *)
Inductive Opt :=
| OptNoFec
| OptChar (c : ascii) (arg : bytes).

(* What the C library makes of a number: the value and whether errno is ERANGE after the call
   (errno is never reset, so [true] persists). *)
Record NumEnv := mkNumEnv {
  ne_strtoul : bytes -> N * bool;
  ne_strtof : bytes -> spec_float * bool
}.

Definition kMinimumSampleRate : spec_float := S754_finite false 16384000 (-7).    (* 128'000.f *)
Definition kMaximumSampleRate : spec_float := S754_finite false 10000000 2.       (* 40'000'000.f *)
Definition kTargetSampleRate : spec_float := S754_finite false 10944000 (-6).     (* 171'000.f *)

(* src/options.cc:129-136 *)
Definition rate_factor (arg : bytes) : spec_float :=
  match rev arg with
  | c :: _ :: _ =>
      if (c =? 107) || (c =? 75) then f32_of_Z 1000
      else if (c =? 77) || (c =? 109) then f32_of_Z 1000000
      else f32_of_Z 1
  | _ => f32_of_Z 1
  end.

Definition set_input (o : Options) (t : InputType) : Options :=
  mkOptions (o_rbds o) (o_feed_thru o) (o_show_partial o) (o_early_exit o) (o_init_error o)
    (o_print_usage o) (o_print_version o) (o_timestamp o) (o_bler o) (o_show_raw o)
    (o_is_rate_defined o) (o_is_num_channels_defined o) (o_use_fec o) (o_streams o) (o_samplerate o)
    (o_num_channels o) t (o_output_type o) (o_loctable_dirs o) (o_sndfilename o) (o_time_format o).
Definition set_output (o : Options) (t : OutputType) : Options :=
  mkOptions (o_rbds o) (o_feed_thru o) (o_show_partial o) (o_early_exit o) (o_init_error o)
    (o_print_usage o) (o_print_version o) (o_timestamp o) (o_bler o) (o_show_raw o)
    (o_is_rate_defined o) (o_is_num_channels_defined o) (o_use_fec o) (o_streams o) (o_samplerate o)
    (o_num_channels o) (o_input_type o) t (o_loctable_dirs o) (o_sndfilename o) (o_time_format o).

(* src/options.cc:71-166: the effect of one option.  [fec] is fec_flag, [erange] is errno == ERANGE. *)
Definition apply_opt (ne : NumEnv) (st : Options * bool * bool) (op : Opt) : res (Options * bool * bool) :=
  let '(o, fec, erange) := st in
  match op with
  | OptNoFec => Ok (o, false, erange)
  | OptChar c arg =>
      let same v : res (Options * bool * bool) := Ok (v, fec, erange) in
      match c with
      | "b"%char => same (set_input o ASCIIbits)
      | "c"%char =>
          let '(v, er) := ne_strtoul ne arg in
          let n := u32 v in
          if erange || er || (n <? 1) || (32 <? n) then Throw "check the number of channels"
          else Ok (mkOptions (o_rbds o) (o_feed_thru o) (o_show_partial o) (o_early_exit o)
                     (o_init_error o) (o_print_usage o) (o_print_version o) (o_timestamp o) (o_bler o)
                     (o_show_raw o) (o_is_rate_defined o) true (o_use_fec o) (o_streams o)
                     (o_samplerate o) n (o_input_type o) (o_output_type o) (o_loctable_dirs o)
                     (o_sndfilename o) (o_time_format o), fec, erange || er)
      | "e"%char => same (mkOptions (o_rbds o) true (o_show_partial o) (o_early_exit o)
                     (o_init_error o) (o_print_usage o) (o_print_version o) (o_timestamp o) (o_bler o)
                     (o_show_raw o) (o_is_rate_defined o) (o_is_num_channels_defined o) (o_use_fec o)
                     (o_streams o) (o_samplerate o) (o_num_channels o) (o_input_type o)
                     (o_output_type o) (o_loctable_dirs o) (o_sndfilename o) (o_time_format o))
      | "E"%char => same (mkOptions (o_rbds o) (o_feed_thru o) (o_show_partial o) (o_early_exit o)
                     (o_init_error o) (o_print_usage o) (o_print_version o) (o_timestamp o) true
                     (o_show_raw o) (o_is_rate_defined o) (o_is_num_channels_defined o) (o_use_fec o)
                     (o_streams o) (o_samplerate o) (o_num_channels o) (o_input_type o)
                     (o_output_type o) (o_loctable_dirs o) (o_sndfilename o) (o_time_format o))
      | "f"%char => same (mkOptions (o_rbds o) (o_feed_thru o) (o_show_partial o) (o_early_exit o)
                     (o_init_error o) (o_print_usage o) (o_print_version o) (o_timestamp o) (o_bler o)
                     (o_show_raw o) (o_is_rate_defined o) (o_is_num_channels_defined o) (o_use_fec o)
                     (o_streams o) (o_samplerate o) (o_num_channels o) MPX_sndfile
                     (o_output_type o) (o_loctable_dirs o) arg (o_time_format o))
      | "h"%char => same (set_input o HexInput)
      | "i"%char =>
          if bytes_eqb arg (bs "hex") then same (set_input o HexInput)
          else if bytes_eqb arg (bs "mpx") then same (set_input o MPX_stdin)
          else if bytes_eqb arg (bs "tef") then same (set_input o TEF6686)
          else if bytes_eqb arg (bs "bits") then same (set_input o ASCIIbits)
          else Throw "unknown input format"
      | "o"%char =>
          if bytes_eqb arg (bs "hex") then same (set_output o OutHex)
          else if bytes_eqb arg (bs "json") then same (set_output o OutJSON)
          else Throw "unknown output format"
      | "x"%char => same (set_output o OutHex)
      | "p"%char => same (mkOptions (o_rbds o) (o_feed_thru o) true (o_early_exit o)
                     (o_init_error o) (o_print_usage o) (o_print_version o) (o_timestamp o) (o_bler o)
                     (o_show_raw o) (o_is_rate_defined o) (o_is_num_channels_defined o) (o_use_fec o)
                     (o_streams o) (o_samplerate o) (o_num_channels o) (o_input_type o)
                     (o_output_type o) (o_loctable_dirs o) (o_sndfilename o) (o_time_format o))
      | "r"%char =>
          let '(v, er) := ne_strtof ne arg in
          let rate := f32_mul v (rate_factor arg) in
          if erange || er then Throw "check the sample rate"
          else if SFltb rate kMinimumSampleRate || SFltb kMaximumSampleRate rate
          then Throw "sample rate out of range"
          else Ok (mkOptions (o_rbds o) (o_feed_thru o) (o_show_partial o) (o_early_exit o)
                     (o_init_error o) (o_print_usage o) (o_print_version o) (o_timestamp o) (o_bler o)
                     (o_show_raw o) true (o_is_num_channels_defined o) (o_use_fec o) (o_streams o)
                     rate (o_num_channels o) (o_input_type o) (o_output_type o) (o_loctable_dirs o)
                     (o_sndfilename o) (o_time_format o), fec, erange || er)
      | "R"%char => same (mkOptions (o_rbds o) (o_feed_thru o) (o_show_partial o) (o_early_exit o)
                     (o_init_error o) (o_print_usage o) (o_print_version o) (o_timestamp o) (o_bler o)
                     true (o_is_rate_defined o) (o_is_num_channels_defined o) (o_use_fec o)
                     (o_streams o) (o_samplerate o) (o_num_channels o) (o_input_type o)
                     (o_output_type o) (o_loctable_dirs o) (o_sndfilename o) (o_time_format o))
      | "s"%char => same (mkOptions (o_rbds o) (o_feed_thru o) (o_show_partial o) (o_early_exit o)
                     (o_init_error o) (o_print_usage o) (o_print_version o) (o_timestamp o) (o_bler o)
                     (o_show_raw o) (o_is_rate_defined o) (o_is_num_channels_defined o) (o_use_fec o)
                     true (o_samplerate o) (o_num_channels o) (o_input_type o)
                     (o_output_type o) (o_loctable_dirs o) (o_sndfilename o) (o_time_format o))
      | "t"%char => same (mkOptions (o_rbds o) (o_feed_thru o) (o_show_partial o) (o_early_exit o)
                     (o_init_error o) (o_print_usage o) (o_print_version o) true (o_bler o)
                     (o_show_raw o) (o_is_rate_defined o) (o_is_num_channels_defined o) (o_use_fec o)
                     (o_streams o) (o_samplerate o) (o_num_channels o) (o_input_type o)
                     (o_output_type o) (o_loctable_dirs o) (o_sndfilename o) arg)
      | "u"%char => same (mkOptions true (o_feed_thru o) (o_show_partial o) (o_early_exit o)
                     (o_init_error o) (o_print_usage o) (o_print_version o) (o_timestamp o) (o_bler o)
                     (o_show_raw o) (o_is_rate_defined o) (o_is_num_channels_defined o) (o_use_fec o)
                     (o_streams o) (o_samplerate o) (o_num_channels o) (o_input_type o)
                     (o_output_type o) (o_loctable_dirs o) (o_sndfilename o) (o_time_format o))
      | "l"%char => same (mkOptions (o_rbds o) (o_feed_thru o) (o_show_partial o) (o_early_exit o)
                     (o_init_error o) (o_print_usage o) (o_print_version o) (o_timestamp o) (o_bler o)
                     (o_show_raw o) (o_is_rate_defined o) (o_is_num_channels_defined o) (o_use_fec o)
                     (o_streams o) (o_samplerate o) (o_num_channels o) (o_input_type o)
                     (o_output_type o) (o_loctable_dirs o ++ [arg]) (o_sndfilename o) (o_time_format o))
      | "v"%char => same (mkOptions (o_rbds o) (o_feed_thru o) (o_show_partial o) (o_early_exit o)
                     (o_init_error o) (o_print_usage o) true (o_timestamp o) (o_bler o)
                     (o_show_raw o) (o_is_rate_defined o) (o_is_num_channels_defined o) (o_use_fec o)
                     (o_streams o) (o_samplerate o) (o_num_channels o) (o_input_type o)
                     (o_output_type o) (o_loctable_dirs o) (o_sndfilename o) (o_time_format o))
      | "?"%char => same (mkOptions (o_rbds o) (o_feed_thru o) (o_show_partial o) (o_early_exit o)
                     (o_init_error o) true (o_print_version o) (o_timestamp o) (o_bler o)
                     (o_show_raw o) (o_is_rate_defined o) (o_is_num_channels_defined o) (o_use_fec o)
                     (o_streams o) (o_samplerate o) (o_num_channels o) (o_input_type o)
                     (o_output_type o) (o_loctable_dirs o) (o_sndfilename o) (o_time_format o))
      | _ => same (mkOptions (o_rbds o) (o_feed_thru o) (o_show_partial o) (o_early_exit o)
                     true true (o_print_version o) (o_timestamp o) (o_bler o)
                     (o_show_raw o) (o_is_rate_defined o) (o_is_num_channels_defined o) (o_use_fec o)
                     (o_streams o) (o_samplerate o) (o_num_channels o) (o_input_type o)
                     (o_output_type o) (o_loctable_dirs o) (o_sndfilename o) (o_time_format o))
      end
  end.

(* src/options.cc:69-171: the loop over the options; it stops after an init_error *)
Fixpoint apply_opts (ne : NumEnv) (st : Options * bool * bool) (ops : list Opt) : res (Options * bool * bool) :=
  match ops with
  | [] => Ok st
  | op :: r =>
      st <- apply_opt ne st op ;;
      if o_init_error (fst (fst st)) then Ok st else apply_opts ne st r
  end.

(* src/options.cc:173-205.  [extra] is argc > optind (an argument that is not an option). *)
Definition getOptions (ne : NumEnv) (ops : list Opt) (extra : bool) : res Options :=
  '(o, fec, _) <- apply_opts ne (Options_default, true, false) ops ;;
  let early := o_print_usage o || o_print_version o || extra in
  let usage := o_print_usage o || extra in
  let init_error := o_init_error o || extra in
  let is_mpx := match o_input_type o with MPX_stdin | MPX_sndfile => true | _ => false end in
  let is_file := match o_input_type o with MPX_sndfile => true | _ => false end in
  let is_stdin := match o_input_type o with MPX_stdin => true | _ => false end in
  let is_hex := match o_input_type o with HexInput => true | _ => false end in
  if o_feed_thru o && is_file then Throw "feed-thru is not supported for audio file inputs"
  else if (1 <? o_num_channels o) && negb is_mpx
  then Throw "multi-channel input is only supported for MPX signals"
  else if o_streams o && negb is_mpx && negb is_hex
  then Throw "RDS2 data streams are only supported for MPX and hex input"
  else
    let rate := if is_stdin && negb usage && negb init_error && negb (o_is_rate_defined o)
                then kTargetSampleRate else o_samplerate o in
    Ok (mkOptions (o_rbds o) (o_feed_thru o) (o_show_partial o) early init_error usage
          (o_print_version o) (o_timestamp o) (o_bler o) (o_show_raw o) (o_is_rate_defined o)
          (o_is_num_channels_defined o) fec (o_streams o) rate (o_num_channels o) (o_input_type o)
          (o_output_type o) (o_loctable_dirs o) (o_sndfilename o) (o_time_format o)).
