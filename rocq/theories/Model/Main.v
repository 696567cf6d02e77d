(* src/redsea.cc: the program, and src/dsp/subcarrier.cc: the demodulator around the parts of
   liquid-dsp, which are oracles. *)
From Verif.Model Require Import Base Util Float Group BlockSync Options Json Tmc Station Channel Input Dsp.

(* What liquid-dsp does for one SubcarrierSet (src/dsp/subcarrier.hh:68-85): the state of the
   resampler and of the four demodulator contexts, and
   - the samples at 171 kHz made from one sample (src/dsp/subcarrier.cc:118-143; not called if the
     ratio is 1),
   - one sample for one data stream (src/dsp/subcarrier.cc:170-209): mixing, filters and, if it is
     the turn of a decimated sample (third argument), the symbol that comes out, if any.  The phase
     error and the oscillator do not depend on what the biphase decoder does with the symbol,
   - reset (src/dsp/subcarrier.cc:106-112). *)
Record Liquid (D : Type) := mkLiquid {
  lq_init : spec_float -> D;
  lq_resample : D -> spec_float -> D * list spec_float;
  lq_sample : D -> N -> spec_float -> bool -> D * option (spec_float * spec_float);
  lq_reset : D -> D
}.
Arguments mkLiquid {D}.
Arguments lq_init {D}.
Arguments lq_resample {D}.
Arguments lq_sample {D}.
Arguments lq_reset {D}.

(* src/dsp/subcarrier.hh:57-87; the biphase and delta decoders of the four contexts are a list *)
Record SubcarrierSet (D : Type) := mkSubcarrierSet {
  ss_sample_num : N;
  ss_ratio : spec_float;
  ss_liquid : D;
  ss_decoders : list (BiphaseDecoder * N)
}.
Arguments mkSubcarrierSet {D}.
Arguments ss_sample_num {D}.
Arguments ss_ratio {D}.
Arguments ss_liquid {D}.
Arguments ss_decoders {D}.

(* src/dsp/subcarrier.cc:91-104 *)
Definition SubcarrierSet_new {D : Type} (lq : Liquid D) (samplerate : spec_float) : res (SubcarrierSet D) :=
  _ <- SubcarrierSet_create samplerate ;;
  Ok (mkSubcarrierSet 0 (f32_div f32_target_rate samplerate) (lq_init lq samplerate)
        (repeat (BiphaseDecoder_init, 0) 4)).

(* src/dsp/subcarrier.cc:106-112 *)
Definition ss_reset {D : Type} (lq : Liquid D) (s : SubcarrierSet D) : SubcarrierSet D :=
  mkSubcarrierSet 0 (ss_ratio s) (lq_reset lq (ss_liquid s)) (ss_decoders s).

(* src/dsp/subcarrier.cc:115-144.  (Whether the result fits in the buffer: resample_into in
   Model/Subcarrier.v.) *)
Fixpoint resample_loop {D : Type} (lq : Liquid D) (d : D) (chunk : list spec_float) : D * list spec_float :=
  match chunk with
  | [] => (d, [])
  | x :: r => let '(d, l) := lq_resample lq d x in
              let '(d, l') := resample_loop lq d r in (d, l ++ l')
  end.
Definition resampleChunk {D : Type} (lq : Liquid D) (s : SubcarrierSet D) (chunk : list spec_float)
    : SubcarrierSet D * list spec_float :=
  if SFeqb (ss_ratio s) (f32_of_Z 1) then (s, chunk)
  else let '(d, l) := resample_loop lq (ss_liquid s) chunk in
       (mkSubcarrierSet (ss_sample_num s) (ss_ratio s) d (ss_decoders s), l).

Definition kDecimateRatio : N := 24.       (* src/dsp/subcarrier.hh:70-72: int(171000 / 1187.5 / 2 / 3) *)

(* src/dsp/subcarrier.cc:193-203: the bits a symbol gives, 0 or 1 of them *)
Definition decode_symbol (dec : BiphaseDecoder * N) (symbol : spec_float * spec_float)
    : res ((BiphaseDecoder * N) * list bool) :=
  '(b, data, valid) <- biphase_push (fst dec) symbol ;;
  if valid : bool then
    let '(prev, bit) := delta_decode (snd dec) (if data : bool then 1 else 0) in
    Ok ((b, prev), [bit =? 1])
  else Ok ((b, snd dec), []).

(* src/dsp/subcarrier.cc:166-210: one sample, the data streams [streams]; one list of new bits for
   each *)
Fixpoint sample_streams {D : Type} (lq : Liquid D) (turn : bool) (x : spec_float) (streams : list N)
    (s : SubcarrierSet D) : res (SubcarrierSet D * list (list bool)) :=
  match streams with
  | [] => Ok (s, [])
  | n :: r =>
      let '(d, symbol) := lq_sample lq (ss_liquid s) n x turn in
      '(decs, bits) <-
        (match (if turn then symbol else None) with
         | Some symbol =>
             dec <- arr_get (ss_decoders s) n ;;
             '(dec, bits) <- decode_symbol dec symbol ;;
             Ok (list_set (ss_decoders s) (N.to_nat n) dec, bits)
         | None => Ok (ss_decoders s, [])
         end) ;;
      '(s, out) <- sample_streams lq turn x r
                     (mkSubcarrierSet (ss_sample_num s) (ss_ratio s) d decs) ;;
      Ok (s, bits :: out)
  end.

(* src/dsp/subcarrier.cc:162-223: all samples; sample_num_ is a 32-bit number *)
Fixpoint process_samples {D : Type} (lq : Liquid D) (streams : list N) (samples : list spec_float)
    (s : SubcarrierSet D) : res (SubcarrierSet D * list (list bool)) :=
  match samples with
  | [] => Ok (s, map (fun _ => []) streams)
  | x :: r =>
      '(s, bits) <- sample_streams lq (ss_sample_num s mod kDecimateRatio =? 0) x streams s ;;
      let s := mkSubcarrierSet (u32 (ss_sample_num s + 1)) (ss_ratio s) (ss_liquid s) (ss_decoders s) in
      '(s, bits') <- process_samples lq streams r s ;;
      Ok (s, map (fun p => fst p ++ snd p) (combine bits bits'))
  end.

(* src/dsp/subcarrier.cc:150-226 *)
Definition processChunk {D : Type} (lq : Liquid D) (s : SubcarrierSet D) (chunk : list spec_float)
    (streams : list N) : res (SubcarrierSet D * list (list bool)) :=
  let '(s, samples) := resampleChunk lq s chunk in process_samples lq streams samples s.

(* src/dsp/subcarrier.cc:233-235 *)
Definition getSecondsSinceLastReset {D : Type} (s : SubcarrierSet D) : spec_float :=
  f32_div (f32_of_Z (Z.of_N (ss_sample_num s))) f32_target_rate.

(* What the program writes: usage, version, a message on stderr, or a line for a group (on stdout,
   or stderr with --feed-through).  The channel number is not written: it tells which Channel object
   printed the line. *)
Inductive output_item := Usage | Version | Message | Line (channel : N) (text : bytes).
Inductive exit_code := EXIT_SUCCESS | EXIT_FAILURE.

Definition lines_of (channel : N) (out : list (option bytes)) : list output_item :=
  flat_map (fun l => match l with Some t => [Line channel t] | None => [] end) out.

(* src/redsea.cc:151-158: the data streams of one channel after a chunk *)
Fixpoint feed_streams {D : Type} (env : Env) (lq : Liquid D) (o : Options) (time now : Z)
    (streams : list (N * list bool)) (c : Channel) (s : SubcarrierSet D)
    : res (Channel * SubcarrierSet D * list (option bytes)) :=
  match streams with
  | [] => Ok (c, s, [])
  | (n, bits) :: r =>
      '(c, out) <- processBits env o c time now bits n ;;
      lost <- getSecondsSinceCarrierLost c ;;
      let again := SFltb (f32_of_Z 10) lost && SFltb (f32_of_Z 5) (getSecondsSinceLastReset s) in
      let c := if again then resetPI c else c in
      let s := if again then ss_reset lq s else s in
      '(c, s, out') <- feed_streams env lq o time now r c s ;;
      Ok (c, s, out ++ out')
  end.

Definition Receiver (D : Type) : Type := Channel * SubcarrierSet D.

(* src/redsea.cc:149-159: one channel of one buffer *)
Definition feed_channel {D : Type} (env : Env) (lq : Liquid D) (o : Options) (now : Z) (streams : list N)
    (r : MPXReader spec_float) (ch : N) (cs : Receiver D) : res (Receiver D * list (option bytes)) :=
  '(chunk, time) <- readChunk r ch ;;
  '(s, bits) <- processChunk lq (snd cs) chunk streams ;;
  '(c, s, out) <- feed_streams env lq o time now (combine streams bits) (fst cs) s ;;
  Ok ((c, s), out).

(* src/redsea.cc:149-159: all channels of one buffer, from number ch on *)
Fixpoint feed_channels {D : Type} (env : Env) (lq : Liquid D) (o : Options) (now : Z) (streams : list N)
    (r : MPXReader spec_float) (ch : N) (css : list (Receiver D)) : res (list (Receiver D) * list output_item) :=
  match css with
  | [] => Ok ([], [])
  | cs :: rest =>
      '(cs, out) <- feed_channel env lq o now streams r ch cs ;;
      '(rest, out') <- feed_channels env lq o now streams r (ch + 1) rest ;;
      Ok (cs :: rest, lines_of ch out ++ out')
  end.

(* src/redsea.cc:147-160.  [clock] gives the clock reading of each fillBuffer.  None: still running
   after [fuel] buffers. *)
Fixpoint mpx_loop {D : Type} (fuel : nat) (env : Env) (lq : Liquid D) (o : Options) (clock : nat -> Z)
    (streams : list N) (r : MPXReader spec_float) (css : list (Receiver D))
    : res (option (list (Receiver D) * list output_item)) :=
  if mr_is_eof r then Ok (Some (css, []))
  else match fuel with
  | O => Ok None
  | S f =>
      let r := fillBuffer (clock O) r in
      '(css, out) <- feed_channels env lq o (clock O) streams r 0 css ;;
      rest <- mpx_loop f env lq o (fun n => clock (S n)) streams r css ;;
      Ok (match rest with Some (css, out') => Some (css, out ++ out') | None => None end)
  end.

(* src/redsea.cc:162 *)
Fixpoint flush_channels {D : Type} (env : Env) (o : Options) (now : Z) (ch : N) (css : list (Receiver D))
    : res (list output_item) :=
  match css with
  | [] => Ok []
  | cs :: rest =>
      '(_, out) <- flush env o now (fst cs) ;;
      out' <- flush_channels env o now (ch + 1) rest ;;
      Ok (lines_of ch out ++ out')
  end.

(* src/redsea.cc:141-145 *)
Fixpoint make_receivers {D : Type} (lq : Liquid D) (o : Options) (n : nat) (ch : N) : res (list (Receiver D)) :=
  match n with
  | O => Ok []
  | S m => s <- SubcarrierSet_new lq (o_samplerate o) ;;
           rest <- make_receivers lq o m (ch + 1) ;;
           Ok ((Channel_new o ch, s) :: rest)
  end.

(* An attempt to open audio: failed (with an end-of-file error or another), or the number of channels
   and the sample rate *)
Inductive opened := Refused (beyond_eof : bool) | Opened (num_channels : N) (rate : Z).

(* What libsndfile says: whether the stream on standard input can be opened; what an audio file is;
   and the unspecified value std::lround gives for something that is not a number. *)
Record SndEnv := mkSndEnv {
  snd_stdin_opens : bool;
  snd_file : bytes -> opened;
  snd_lround_nan : Z
}.

Definition kMinimumRate : Z := 128000.
Definition kMaximumRate : Z := 40000000.

(* src/io/input.cc:43-97; Refused is an exception, [true] for BeyondEofError *)
Definition mpx_init (se : SndEnv) (o : Options) : opened :=
  let checked n rate :=
    if (rate <? kMinimumRate)%Z then Refused false
    else if o_streams o && (rate <? 171000)%Z then Refused false
    else if (kMaximumRate <? rate)%Z then Refused false
    else Opened n rate in
  match o_input_type o with
  | MPX_stdin =>
      if snd_stdin_opens se then
        checked (o_num_channels o)
          (match sf_lround (o_samplerate o) with Ok z => z | _ => snd_lround_nan se end)
      else Refused true
  | _ => match snd_file se (o_sndfilename o) with
         | Refused e => Refused e
         | Opened n rate => checked n rate
         end
  end.

Definition with_audio (o : Options) (num_channels : N) (samplerate : spec_float) : Options :=
  mkOptions (o_rbds o) (o_feed_thru o) (o_show_partial o) (o_early_exit o) (o_init_error o)
    (o_print_usage o) (o_print_version o) (o_timestamp o) (o_bler o) (o_show_raw o)
    (o_is_rate_defined o) (o_is_num_channels_defined o) (o_use_fec o) (o_streams o) samplerate
    num_channels (o_input_type o) (o_output_type o) (o_loctable_dirs o) (o_sndfilename o)
    (o_time_format o).

(* src/redsea.cc:119-165.  [samples]: what sf_read_float delivers.  Warnings about ignored
   parameters are not modelled. *)
Definition processMPXInput {D : Type} (fuel : nat) (env : Env) (se : SndEnv) (lq : Liquid D) (o : Options)
    (clock : nat -> Z) (now_flush : Z) (samples : list spec_float) : res (option (exit_code * list output_item)) :=
  match mpx_init se o with
  | Refused true => Ok (Some (EXIT_FAILURE, [Usage]))
  | Refused false => Ok (Some (EXIT_FAILURE, [Message]))
  | Opened n rate =>
      let o := with_audio o n (f32_of_Z rate) in
      let streams := if o_streams o then [0; 1; 2; 3] else [0] in
      css <- make_receivers lq o (N.to_nat n) 0 ;;
      done <- mpx_loop fuel env lq o clock streams (MPXReader_init n samples) css ;;
      match done with
      | None => Ok None
      | Some (css, out) =>
          out' <- flush_channels env o now_flush 0 css ;;
          Ok (Some (EXIT_SUCCESS, out ++ out'))
      end
  end.

(* Each element together with its clock reading *)
Fixpoint timed {A : Type} (clock : nat -> Z) (l : list A) : list (Z * A) :=
  match l with
  | [] => []
  | x :: r => (clock O, x) :: timed (fun n => clock (S n)) r
  end.

(* src/redsea.cc:168-179 *)
Definition processASCIIBitsInput (env : Env) (o : Options) (clock : nat -> Z) (now_flush : Z) (input : bytes)
    : res (exit_code * list output_item) :=
  '(c, out) <- run_bits env o (Channel_new o 0) 0 (timed clock (ascii_bits input)) ;;
  '(_, out') <- flush env o now_flush c ;;
  Ok (EXIT_SUCCESS, lines_of 0 (out ++ out')).

(* src/redsea.cc:181-190 *)
Definition processHexInput (env : Env) (o : Options) (clock : nat -> Z) (input : bytes)
    : res (exit_code * list output_item) :=
  let groups := timed clock (read_hex_input o clock input) in
  '(_, out) <- run_groups env o (Channel_new o 0) (map (fun x => (x, g_data_stream (snd x))) groups) ;;
  Ok (EXIT_SUCCESS, lines_of 0 out).

(* src/redsea.cc:193-201 *)
Definition processTEFInput (env : Env) (o : Options) (clock : nat -> Z) (input : bytes)
    : res (exit_code * list output_item) :=
  '(_, out) <- run_groups env o (Channel_new o 0) (map (fun x => (x, 0)) (timed clock (read_tef_input input))) ;;
  Ok (EXIT_SUCCESS, lines_of 0 out).

(* Everything outside the program *)
Record World (D : Type) := mkWorld {
  w_env : Env;
  w_numbers : NumEnv;
  w_snd : SndEnv;
  w_liquid : Liquid D;
  w_clock : nat -> Z;              (* successive readings of the system clock *)
  w_clock_at_end : Z;
  w_stdin : bytes;                 (* standard input read as text *)
  w_audio : list spec_float        (* the samples libsndfile delivers *)
}.
Arguments mkWorld {D}.
Arguments w_env {D}.
Arguments w_numbers {D}.
Arguments w_snd {D}.
Arguments w_liquid {D}.
Arguments w_clock {D}.
Arguments w_clock_at_end {D}.
Arguments w_stdin {D}.
Arguments w_audio {D}.

(* src/redsea.cc:205-238.  [ops] are the results of getopt_long, [extra] whether an argument is left
   over.  The input echoed with --feed-through is in Streams.v. *)
Definition main {D : Type} (fuel : nat) (w : World D) (ops : list Opt) (extra : bool)
    : res (option (exit_code * list output_item)) :=
  match getOptions (w_numbers w) ops extra with
  | Throw _ => Ok (Some (EXIT_FAILURE, [Message]))
  | UB m => UB m
  | Ok o =>
      let first := (if o_print_usage o then [Usage] else []) ++ (if o_print_version o then [Version] else []) in
      if o_early_exit o then Ok (Some (if o_init_error o then EXIT_FAILURE else EXIT_SUCCESS, first))
      else
        done <-
          (match o_input_type o with
           | MPX_stdin | MPX_sndfile =>
               processMPXInput fuel (w_env w) (w_snd w) (w_liquid w) o (w_clock w) (w_clock_at_end w) (w_audio w)
           | ASCIIbits =>
               r <- processASCIIBitsInput (w_env w) o (w_clock w) (w_clock_at_end w) (w_stdin w) ;; Ok (Some r)
           | HexInput => r <- processHexInput (w_env w) o (w_clock w) (w_stdin w) ;; Ok (Some r)
           | TEF6686 => r <- processTEFInput (w_env w) o (w_clock w) (w_stdin w) ;; Ok (Some r)
           end) ;;
        Ok (match done with Some (code, out) => Some (code, first ++ out) | None => None end)
  end.
