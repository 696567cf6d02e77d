(* When a group was received. *)
From Verif.Model Require Import Base Float Group BlockSync Options Json Tmc Station Channel Input Dsp Main.
From Verif.Spec Require Import JsonText Session Quality Demod Reception Hearing.

(* Bits arrive in buffers, each with the time at which its last bit was received.  For every group that is
   completed within the buffer: that time, and how many bits of the buffer follow the group. *)
Fixpoint ends_in (fec : bool) (before : list bool) (t : Z) (bits : list bool) : list (Z * N) :=
  match bits with
  | [] => []
  | b :: r => map (fun _ => (t, N.of_nat (length r))) (groups_after fec before [b]) ++ ends_in fec (before ++ [b]) t r
  end.
Fixpoint ends (fec : bool) (before : list bool) (buffers : list (Z * list bool)) : list (Z * N) :=
  match buffers with
  | [] => []
  | (t, bits) :: r => ends_in fec before t bits ++ ends fec (before ++ bits) r
  end.

(* There are 1187.5 bits in a second, so n bits before time t is t - n * 16000000 / 19 nanoseconds; x is
   this time or up to a millisecond later *)
Definition near (e : Z * N) (x : Z) : Prop :=
  (19 * (fst e - x) <= 16000000 * Z.of_N (snd e) <= 19 * (fst e - x) + 19 * 1000000)%Z.

(* Of several times, the latest so far *)
Fixpoint latest (t : Z) (xs : list Z) : list Z :=
  match xs with [] => [] | x :: r => Z.max t x :: latest (Z.max t x) r end.

(* A line, if there is one for this group, shows this time (or reports only an error) *)
Definition shows_time (env : Env) (o : Options) (t : Z) (line : option bytes) : Prop :=
  match line with Some l => only_error l \/ says_time env o l t | None => True end.

(* The bits found in successive buffers of samples: as Hearing.symbols_of, buffer by buffer *)
Fixpoint bits_by_buffer {D : Type} (lq : Liquid D) (resampled : bool) (n : N) (d : D) (dec : BiphaseDecoder * N) (buffers : list (list spec_float)) : res (list (list bool)) :=
  match buffers with
  | [] => Ok []
  | b :: r =>
      let '(d, samples) := if resampled then resample_loop lq d b else (d, b) in
      let '(d, found) := found_in lq n samples [0] d in
      '(dec, bits) <- decode_symbols dec (concat found) ;;
      rest <- bits_by_buffer lq resampled ((n + N.of_nat (length samples)) mod 2 ^ 32) d dec r ;;
      Ok (bits :: rest)
  end.
(* Buffer number k was filled at the clock's k-th reading *)
Definition clocked {A : Type} (clock : nat -> Z) (bs : list A) : list (Z * A) := combine (map clock (seq 0 (length bs))) bs.
