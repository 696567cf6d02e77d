(* Loss of the carrier: what comes to a channel from audio with one channel. *)
From Verif.Model Require Import Base Float Group BlockSync Options Json Tmc Station Channel Input Dsp Main.
From Verif.Spec Require Import Session Demod Reception Hearing.

(* For how many bits the receiver has been out of sync, not counting the bit with which sync was lost (modulo 2^32) *)
Fixpoint lost_for_rev (fec : bool) (reversed : list bool) : N :=
  match reversed with
  | [] => 0
  | _ :: r => if in_sync_after fec (rev reversed) || in_sync_after fec (rev r) then 0 else (lost_for_rev fec r + 1) mod 2 ^ 32
  end.
Definition lost_for (fec : bool) (bits : list bool) : N := lost_for_rev fec (rev bits).

(* What happens in successive buffers of samples: the groups in them (Some), and the loss of the carrier (None).  It is
   noticed at the end of a buffer: out of sync for more than 10 seconds (at 1187.5 bits per second), and more than 5
   seconds (at 171000 samples per second) since the demodulator was last reset; it is reset then.
   n samples since the last reset, demodulator d, decoder dec and all the bits so far. *)
Fixpoint heard_in {D : Type} (lq : Liquid D) (resampled fec : bool) (n : N) (d : D) (dec : BiphaseDecoder * N) (sofar : list bool)
    (buffers : list (list spec_float)) : list (option Group) :=
  match buffers with
  | [] => []
  | b :: r =>
      let '(d, samples) := if resampled then resample_loop lq d b else (d, b) in
      let '(d, found) := found_in lq n samples [0] d in
      match decode_symbols dec (concat found) with
      | Ok (dec, bits) =>
          let n := (n + N.of_nat (length samples)) mod 2 ^ 32 in
          map Some (groups_after fec sofar bits) ++
          if (11875 <? lost_for fec (sofar ++ bits)) && (855000 <? n)
          then None :: heard_in lq resampled fec 0 (lq_reset lq d) dec (sofar ++ bits) r
          else heard_in lq resampled fec n d dec (sofar ++ bits) r
      | _ => []
      end
  end.

(* The calls made for it *)
Inductive called_as : option Group -> call -> Prop :=
| called_group : forall g now t, called_as (Some g) (Group_in now (g_setTime g t) 0)
| called_loss : called_as None Reset_pi.
