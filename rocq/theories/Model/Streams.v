(* What the program writes to standard output and to standard error with text inputs. *)
From Verif.Model Require Import Base Util Float Group Options Json Tmc Station Input Channel Dsp Main.

(* src/io/input.cc:165-173 in the loop src/redsea.cc:172-174: what AsciiBitReader::readBit writes *)
Fixpoint echo_bits (fuel : nat) (s : bytes) : bytes :=
  match fuel with
  | O => []
  | S f => let '(_, r, e, echo) := readBit s in
           echo ++ (if e : bool then [] else echo_bits f r)
  end.

(* src/io/input.cc:196-197, 260-261: a line that was read *)
Definition echo_line (line : bytes) : bytes := line ++ [10].

(* What one call of readHexGroup or readTEFGroup writes: each line is written as it is read, so it is
   the lines that are no longer in the remaining input *)
Definition echo_call (lines rest : list bytes) : bytes :=
  flat_map echo_line (firstn (length lines - length rest) lines).

(* src/redsea.cc:184-187 *)
Fixpoint echo_hex (fuel : nat) (o : Options) (lines : list bytes) : bytes :=
  match fuel, lines with
  | S f, _ :: _ =>
      let '(_, rest) := readHexGroup o 0 lines in echo_call lines rest ++ echo_hex f o rest
  | _, _ => []
  end.

(* src/redsea.cc:196-198 *)
Fixpoint echo_tef (fuel : nat) (lines : list bytes) : bytes :=
  match fuel, lines with
  | S f, _ :: _ => let '(_, rest) := readTEFGroup lines in echo_call lines rest ++ echo_tef f rest
  | _, _ => []
  end.

(* src/groups.cc:371-382, src/io/output.hh:21: a line for a group *)
Definition lines_text (items : list output_item) : bytes :=
  flat_map (fun s => match s with Line _ t => t ++ [10] | _ => [] end) items.

(* src/redsea.cc:169, 182, 194 (which stream the lines go to).  Result: standard output, standard error. *)
Definition written (o : Options) (echo : bytes) (items : list output_item) : bytes * bytes :=
  if o_feed_thru o then (echo, lines_text items) else (lines_text items, []).

(* src/redsea.cc:168-201 *)
Definition ascii_written (env : Env) (o : Options) (clock : nat -> Z) (now_flush : Z) (input : bytes) : res (bytes * bytes) :=
  '(_, items) <- processASCIIBitsInput env o clock now_flush input ;;
  Ok (written o (echo_bits (S (length input)) input) items).
Definition hex_written (env : Env) (o : Options) (clock : nat -> Z) (input : bytes) : res (bytes * bytes) :=
  '(_, items) <- processHexInput env o clock input ;;
  Ok (written o (echo_hex (length (split_lines input)) o (split_lines input)) items).
Definition tef_written (env : Env) (o : Options) (clock : nat -> Z) (input : bytes) : res (bytes * bytes) :=
  '(_, items) <- processTEFInput env o clock input ;;
  Ok (written o (echo_tef (length (split_lines input)) (split_lines input)) items).

(* src/io/input.cc:126-127 in the loop src/redsea.cc:147-148: the samples handed to sf_write_float,
   which writes the whole buffer as it was read (all channels together) *)
Fixpoint echo_audio {A : Type} (fuel : nat) (r : MPXReader A) : list A :=
  if mr_is_eof r then []
  else match fuel with
  | O => []
  | S f => let r := fillBuffer 0 r in mr_buffer r ++ echo_audio f r
  end.

(* src/redsea.cc:119-165, src/io/input.cc:48-58, 126-127, for raw audio from standard input.  Result:
   the samples given to libsndfile to be written to standard output as 16-bit numbers (the conversion
   is not modelled), the text on standard output, the lines on standard error.  For an audio file
   there is no output to write to; options.cc:176-178 refuses feed-through then. *)
Definition mpx_written {D : Type} (fuel : nat) (env : Env) (se : SndEnv) (lq : Liquid D) (o : Options)
    (clock : nat -> Z) (now_flush : Z) (samples : list spec_float)
    : res (option (list spec_float * bytes * bytes)) :=
  done <- processMPXInput fuel env se lq o clock now_flush samples ;;
  Ok (match done with
      | None => None
      | Some (_, items) =>
          let echo := match mpx_init se o with
                      | Opened n _ => echo_audio fuel (MPXReader_init n samples)
                      | Refused _ => []
                      end in
          Some (if o_feed_thru o then (echo, [], lines_text items) else ([], lines_text items, []))
      end).
