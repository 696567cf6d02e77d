(* The demodulator seen from outside: chunks of audio go in, bits of each data stream come out; now and then it is
   reset. *)
From Verif.Model Require Import Base Util Float Dsp Input Main Subcarrier.

Inductive event := Chunk (samples : list spec_float) | Anew.   (* Anew: SubcarrierSet::reset *)

(* Data streams 0 to k-1 *)
Definition streams_to (k : nat) : list N := map N.of_nat (seq 0 k).

(* The bits of each of k data streams, in one list for each, and the demodulator afterwards *)
Fixpoint receive {D : Type} (lq : Liquid D) (k : nat) (s : SubcarrierSet D) (events : list event) : res (SubcarrierSet D * list (list bool)) :=
  match events with
  | [] => Ok (s, repeat [] k)
  | Anew :: r => receive lq k (ss_reset lq s) r
  | Chunk samples :: r =>
      '(s, bits) <- processChunk lq s samples (streams_to k) ;;
      '(s, later) <- receive lq k s r ;;
      Ok (s, map (fun p => fst p ++ snd p) (combine bits later))
  end.

(* A new demodulator for a sample rate *)
Definition demodulate (P : Parts) (k : nat) (rate : spec_float) (events : list event) : res (SubcarrierSet (Objects P) * list (list bool)) :=
  s <- SubcarrierSet_new (liquid_of P) rate ;; receive (liquid_of P) k s events.
(* The bits alone *)
Definition bits_received (P : Parts) (k : nat) (rate : spec_float) (events : list event) : res (list (list bool)) :=
  '(_, bits) <- demodulate P k rate events ;; Ok bits.

(* The resampler, used on one chunk after the other with the arrays of the program *)
Fixpoint resample_chunks {P : Parts} (r : Resampler P) (chunks : list (list spec_float)) : res (Resampler P * list (list spec_float)) :=
  match chunks with
  | [] => Ok (r, [])
  | c :: rest =>
      '(r, out) <- resample_into r 0 c ;;
      '(r, outs) <- resample_chunks r rest ;;
      Ok (r, out :: outs)
  end.

(* The number a float stands for, times 2^200 (so that it is whole) *)
Definition scaled (f : spec_float) : option Z :=
  match f with
  | S754_zero _ => Some 0
  | S754_finite s m e => Some (if s then - (Z.pos m * 2 ^ (e + 200)) else Z.pos m * 2 ^ (e + 200))
  | _ => None
  end%Z.
(* It is a number, at least a and at most b *)
Definition lies_between (a f b : spec_float) : Prop :=
  exists x y z, scaled a = Some x /\ scaled f = Some y /\ scaled b = Some z /\ (x <= y <= z)%Z.

(* An oscillator as it should be: its phase is between 0 and 2 pi *)
Definition turning (P : Parts) : Prop := forall o, valid_binary 24 128 (nco_phase P o) = true /\ lies_between (S754_zero false) (nco_phase P o) f32_2pi.

(* A demodulator that also writes down, for every sample of data stream 0, whether the symbol
   synchroniser took a value at it *)
Definition recording {D : Type} (lq : Liquid D) : Liquid (D * list bool) :=
  mkLiquid (fun rate => (lq_init lq rate, []))
    (fun d x => let '(d', l) := lq_resample lq (fst d) x in ((d', snd d), l))
    (fun d n x turn => let '(d', y) := lq_sample lq (fst d) n x turn in ((d', if n =? 0 then snd d ++ [turn] else snd d), y))
    (fun d => (lq_reset lq (fst d), snd d)).
(* What it wrote down *)
Definition taken {D : Type} (s : SubcarrierSet (D * list bool)) : list bool := snd (ss_liquid s).
(* Every 24th of n samples, beginning with the first *)
Definition every_24th (n : nat) : list bool := map (fun i => N.of_nat i mod 24 =? 0) (seq 0 n).
