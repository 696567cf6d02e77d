(* Bits on the subcarrier: differential coding, then two half-symbols for each coded bit.
   Independent of the model. *)
From Verif.Model Require Import Base.
From Coq Require Import SpecFloat.
From Verif.Spec Require Import Inputs.

(* The binary32 number z * 2^unit *)
Definition fixed (unit z : Z) : spec_float := binary_normalize 24 128 z unit false.

(* The coded bit is 1 if the signal rises between the two half-symbols, 0 if it falls *)
Definition rises (c : bool) (xy : Z * Z) : Prop :=
  if c then (fst xy <= snd xy)%Z else (snd xy < fst xy)%Z.
Definition half_symbols (pairs : list (Z * Z)) : list Z := flat_map (fun xy => [fst xy; snd xy]) pairs.

(* The steps between successive half-symbols *)
Fixpoint steps (previous : Z) (zs : list Z) : list Z :=
  match zs with
  | [] => []
  | z :: r => Z.abs (z - previous) :: steps z r
  end.
(* The sums over every second of them, from the first and from the second on *)
Fixpoint alternate (l : list Z) : Z * Z :=
  match l with
  | [] => (0, 0)%Z
  | x :: r => let '(a, b) := alternate r in (x + b, a)%Z
  end.
(* Of every 128 half-symbols, the steps at places 1, 3, 5, ... (odd) or 0, 2, 4, ... are the larger, taken
   together *)
Definition phase_is (odd : bool) (zs : list Z) : Prop :=
  forall k, (128 * (k + 1) <= length zs)%nat ->
    let '(even_sum, odd_sum) := alternate (firstn 128 (skipn (128 * k) (steps 0 zs))) in
    if odd then (even_sum < odd_sum)%Z else (odd_sum < even_sum)%Z.
(* Values of 17 bits, and units that are neither tiny nor huge *)
Definition moderate (zs : list Z) : Prop := Forall (fun z => -32768 <= z <= 32768)%Z zs.
Definition usual_unit (unit : Z) : Prop := (-100 <= unit <= 100)%Z.
(* Symbols with these real parts; the imaginary parts do not matter *)
Definition received_as (unit : Z) (zs : list Z) (symbols : list (spec_float * spec_float)) : Prop :=
  map fst symbols = map (fixed unit) zs.
