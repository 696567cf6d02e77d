(* Reading numerals: an independent account of what decimal and hexadecimal text means. *)
From Verif.Model Require Import Base.

(* The value of one digit character (0-9, A-F). *)
Definition digit_of (c : N) : option N :=
  if (48 <=? c) && (c <=? 57) then Some (c - 48)
  else if (65 <=? c) && (c <=? 70) then Some (c - 55)
  else None.

Fixpoint numeral_from (base : N) (s : bytes) (acc : N) : option N :=
  match s with
  | [] => Some acc
  | c :: r =>
      match digit_of c with
      | Some d => if d <? base then numeral_from base r (acc * base + d) else None
      | None => None
      end
  end.

(* The number a non-empty string of digits stands for. *)
Definition numeral (base : N) (s : bytes) : option N :=
  match s with [] => None | _ => numeral_from base s 0 end.

(* No superfluous zero in front. *)
Definition no_leading_zero (s : bytes) : Prop := s = [48] \/ (forall r, s <> 48 :: r).
