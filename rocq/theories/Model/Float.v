(* IEEE-754 arithmetic used by the C++ code, through the standard library's executable
   specification SpecFloat (round to nearest even; no primitive floats, no axioms).
   C++ float is binary32 (precision 24, emax 128), double is binary64 (53, 1024). *)
From Verif.Model Require Import Base Util.
From Coq Require Export SpecFloat.

Definition f32_add := SFadd 24 128.
Definition f32_sub := SFsub 24 128.
Definition f32_mul := SFmul 24 128.
Definition f32_div := SFdiv 24 128.
Definition f64_add := SFadd 53 1024.
Definition f64_sub := SFsub 53 1024.
Definition f64_mul := SFmul 53 1024.
Definition f64_div := SFdiv 53 1024.

(* static_cast<float>(int), static_cast<double>(int) *)
Definition f32_of_Z (z : Z) : spec_float := binary_normalize 24 128 z 0 false.
Definition f64_of_Z (z : Z) : spec_float := binary_normalize 53 1024 z 0 false.

(* Conversion of a floating value to an integer: truncation towards zero.  Infinities and NaN
   (undefined behaviour in C++) are UB. *)
Definition sf_trunc (f : spec_float) : res Z :=
  match f with
  | S754_zero _ => Ok 0%Z
  | S754_finite s m e =>
      let a := if (0 <=? e)%Z then (Z.pos m * 2 ^ e)%Z else (Z.pos m / 2 ^ (- e))%Z in
      Ok (if s then (- a)%Z else a)
  | _ => UB "conversion of a non-finite value to an integer"
  end.

(* std::lround / round half away from zero, for finite values *)
Definition sf_lround (f : spec_float) : res Z :=
  match f with
  | S754_zero _ => Ok 0%Z
  | S754_finite s m e =>
      let a := if (0 <=? e)%Z then (Z.pos m * 2 ^ e)%Z
               else ((2 * Z.pos m + 2 ^ (- e)) / (2 * 2 ^ (- e)))%Z in
      Ok (if s then (- a)%Z else a)
  | _ => UB "lround of a non-finite value"
  end.

(* std::floor as an integer, for finite values *)
Definition sf_floor (f : spec_float) : res Z :=
  match f with
  | S754_zero _ => Ok 0%Z
  | S754_finite s m e =>
      let v := if s then Z.neg m else Z.pos m in
      Ok (if (0 <=? e)%Z then (v * 2 ^ e)%Z else (v / 2 ^ (- e))%Z)
  | _ => UB "floor of a non-finite value"
  end.

(* Nearest integer to num/den (den > 0), ties to even: how printf and std::ostream round the exact
   binary value to the requested number of decimals. *)
Definition round_half_even (num den : Z) : Z :=
  let q := (num / den)%Z in
  let r := (2 * (num mod den))%Z in
  if (r <? den)%Z then q else if (den <? r)%Z then (q + 1)%Z
  else if Z.even q then q else (q + 1)%Z.

(* ostream << std::fixed with precision 1, for a finite non-negative value *)
Definition fixed1 (f : spec_float) : bytes :=
  let v := match f with
           | S754_finite _ m e =>
               if (0 <=? e)%Z then (10 * Z.pos m * 2 ^ e)%Z
               else round_half_even (10 * Z.pos m) (2 ^ (- e))
           | _ => 0%Z
           end in
  dec_string (Z.to_N (v / 10)) ++ [46] ++ dec_string (Z.to_N (v mod 10)).
