(* Reception quality and reception times shown in lines. *)
From Verif.Model Require Import Base Group Options Station.
From Verif.Spec Require Import Numerals JsonText Session.

(* Blocks of a group that were missing or had errors *)
Definition bad_blocks (g : Group) : N :=
  N.of_nat (length (filter (fun b => blk_had_errors b || negb (blk_is_received b))
                           [g_b1 g; g_b2 g; g_b3 g; g_b4 g])).

Definition total (l : list N) : N := fold_right N.add 0 l.

(* Blocks missing or bad among the last 12 groups *)
Definition recently_bad (gs : list (Z * Group * N)) : N :=
  total (firstn 12 (rev (map (fun x => bad_blocks (snd (fst x))) gs))).

(* n is 100 errors / 48, rounded to the nearest whole number, halves up *)
Definition percentage (errors n : N) : Prop := 2 * 48 * n <= 2 * 100 * errors + 48 < 2 * 48 * (n + 1).

(* The line could not be produced and reports only that *)
Definition only_error (line : bytes) : Prop := exists msg, read_json line = Some (VObj [(bs "debug", VStr msg)]).

(* Member [key] of the line is the number n, or a 4-digit hexadecimal number with prefix 0x *)
Definition says_number (line : bytes) (key : string) (n : N) : Prop :=
  exists text, says line [key] (VNum text) /\ numeral 10 text = Some n.
Definition says_hex4 (line : bytes) (key : string) (n : N) : Prop :=
  exists h, says line [key] (VStr (bs "0x" ++ h)) /\ length h = 4%nat /\ numeral 16 h = Some n.

(* The reception time shown by the line is t, in the format asked for *)
Definition says_time (env : Env) (o : Options) (line : bytes) (t : Z) : Prop :=
  says line ["rx_time"%string] (VStr (getTimePointString env t (o_time_format o))).
