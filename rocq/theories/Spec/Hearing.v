(* What the demodulator finds in an audio input with one channel, and reception without long gaps. *)
From Verif.Model Require Import Base Float Group BlockSync Options Json Tmc Station Channel Input Dsp Main.
From Verif.Spec Require Import Demod Reception.

(* The symbols found for data stream 0 in successive buffers of samples; resampled first if need be.  The samples are
   numbered from n. *)
Fixpoint symbols_of {D : Type} (lq : Liquid D) (resampled : bool) (n : N) (d : D) (buffers : list (list spec_float)) : list symbol :=
  match buffers with
  | [] => []
  | b :: r =>
      let '(d, samples) := if resampled then resample_loop lq d b else (d, b) in
      let '(d, found) := found_in lq n samples [0] d in
      concat found ++ symbols_of lq resampled ((n + N.of_nat (length samples)) mod 2 ^ 32) d r
  end.

(* The receiver is never out of sync for 11876 bits (10 seconds) on end *)
Definition no_long_gap (fec : bool) (bits : list bool) : Prop :=
  forall pre gap post, bits = pre ++ gap ++ post -> length gap = N.to_nat 11876 ->
  exists a b, gap = a ++ b /\ a <> [] /\ in_sync_after fec (pre ++ a) = true.

(* A group with its time of reception, on data stream 0 *)
Definition stamped_as (g : Group) (x : Z * Group * N) : Prop := snd x = 0 /\ exists t, snd (fst x) = g_setTime g t.
