(* The symbols a demodulator finds, and the bits of a sequence of symbols. *)
From Verif.Model Require Import Base Float Group Options Json Tmc Station Channel Input Dsp Main.

Definition symbol : Type := (spec_float * spec_float)%type.

(* The bits of a sequence of symbols, for one decoder *)
Fixpoint decode_symbols (dec : BiphaseDecoder * N) (syms : list symbol) : res ((BiphaseDecoder * N) * list bool) :=
  match syms with
  | [] => Ok (dec, [])
  | s :: r =>
      '(dec, b) <- decode_symbol dec s ;;
      '(dec, bs) <- decode_symbols dec r ;;
      Ok (dec, b ++ bs)
  end.

(* The symbols the demodulator finds at one sample: one list, of at most one symbol, for each data stream.  A symbol can
   only be found at every 24th sample. *)
Fixpoint found_at {D : Type} (lq : Liquid D) (n : N) (x : spec_float) (streams : list N) (d : D) : D * list (list symbol) :=
  match streams with
  | [] => (d, [])
  | st :: r =>
      let turn := n mod 24 =? 0 in
      let '(d, y) := lq_sample lq d st x turn in
      let '(d, l) := found_at lq n x r d in
      (d, (match y with Some y => if turn then [y] else [] | None => [] end) :: l)
  end.
(* ... and in a sequence of samples, numbered from n (modulo 2^32) *)
Fixpoint found_in {D : Type} (lq : Liquid D) (n : N) (samples : list spec_float) (streams : list N) (d : D) : D * list (list symbol) :=
  match samples with
  | [] => (d, map (fun _ => []) streams)
  | x :: r =>
      let '(d, now) := found_at lq n x streams d in
      let '(d, later) := found_in lq ((n + 1) mod 2 ^ 32) r streams d in
      (d, map (fun p => fst p ++ snd p) (combine now later))
  end.
