(* Names and texts sent over the air. *)
From Verif.Model Require Import Base Group.
From Verif.Spec Require Import RdsStream Texts.

(* The part of the station's name in a transmitted group of type 0A or 0B: its number and two characters *)
Definition name_part (t : TxGroup) : list (N * N * N) :=
  if tx2 t / 4096 =? 0 then [(tx2 t mod 4, tx4 t / 256, tx4 t mod 256)] else [].

(* The part of a RadioText message in a transmitted group of type 2A or 2B *)
Definition text_part (t : TxGroup) : list rt_part :=
  if tx2 t / 4096 =? 2 then
    let flag := N.testbit (tx2 t) 4 in
    if N.testbit (tx2 t) 11
    then [mkPart flag VB (2 * (tx2 t mod 16)) [hi (tx4 t); lo (tx4 t)]]
    else [mkPart flag VA (4 * (tx2 t mod 16)) [hi (tx3 t); lo (tx3 t); hi (tx4 t); lo (tx4 t)]]
  else [].
