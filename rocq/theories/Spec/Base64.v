(* Base64 (RFC 4648, section 4), the reading direction. *)
From Verif.Model Require Import Base.

Definition sextet (c : N) : option N :=
  if (65 <=? c) && (c <=? 90) then Some (c - 65)
  else if (97 <=? c) && (c <=? 122) then Some (c - 71)
  else if (48 <=? c) && (c <=? 57) then Some (c + 4)
  else if c =? 43 then Some 62
  else if c =? 47 then Some 63
  else None.

Definition pad : N := 61.

Fixpoint decode64 (s : bytes) : option bytes :=
  match s with
  | [] => Some []
  | a :: b :: c :: d :: r =>
      match sextet a, sextet b, sextet c, sextet d with
      | Some a, Some b, Some c, Some d =>
          match decode64 r with
          | Some l => Some (a * 4 + b / 16 :: b mod 16 * 16 + c / 4 :: c mod 4 * 64 + d :: l)
          | None => None
          end
      | Some a, Some b, Some c, None =>
          match r with
          | [] => if d =? pad then Some [a * 4 + b / 16; b mod 16 * 16 + c / 4] else None
          | _ => None
          end
      | Some a, Some b, None, None =>
          match r with
          | [] => if (c =? pad) && (d =? pad) then Some [a * 4 + b / 16] else None
          | _ => None
          end
      | _, _, _, _ => None
      end
  | _ => None
  end.
