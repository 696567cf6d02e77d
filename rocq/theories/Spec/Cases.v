(* Groups used in examples. *)
From Verif.Model Require Import Base Group Options.

Definition rx (o : Offset) (d : N) : Block := mkBlock (N.shiftl d 10) d true false o.
(* A group received without errors *)
Definition group4 (b1 b2 b3 b4 : N) : Group :=
  let c := if N.testbit b2 11 then OffCprime else OffC in
  g_setBlock (g_setBlock (g_setBlock (g_setBlock Group_default BLOCK1 (rx OffA b1)) BLOCK2 (rx OffB b2))
    BLOCK3 (rx c b3)) BLOCK4 (rx OffD b4).
(* Only blocks 2 and 4 received *)
Definition group24 (b2 b4 : N) : Group :=
  g_setBlock (g_setBlock Group_default BLOCK2 (rx OffB b2)) BLOCK4 (rx OffD b4).

(* Options: times shown as seconds, error rate shown *)
Definition options_with (timestamp bler : bool) : Options :=
  mkOptions false false false false false false false timestamp bler false false false true false
    (SpecFloat.S754_zero false) 1 MPX_stdin OutJSON [] [] (bs "%s").
