(* JSON texts (RFC 8259): a reader written from the grammar, independent of the serialiser. *)
From Verif.Model Require Import Base.
From Verif.Spec Require Import Unicode.

(* A JSON value; a number is kept as its text. *)
Inductive jval : Type :=
| VNull
| VBool (b : bool)
| VNum (text : bytes)
| VStr (s : bytes)
| VArr (l : list jval)
| VObj (m : list (bytes * jval)).

Definition is_ws (c : N) : bool := (c =? 32) || (c =? 9) || (c =? 10) || (c =? 13).
Fixpoint skip_ws (s : bytes) : bytes :=
  match s with
  | c :: r => if is_ws c then skip_ws r else s
  | [] => []
  end.

Definition is_digit (c : N) : bool := (48 <=? c) && (c <=? 57).

(* Characters that occur in numbers *)
Definition num_char (c : N) : bool :=
  is_digit c || (c =? 43) || (c =? 45) || (c =? 46) || (c =? 69) || (c =? 101).
Fixpoint span_num (s : bytes) : bytes * bytes :=
  match s with
  | c :: r => if num_char c then let '(a, b) := span_num r in (c :: a, b) else ([], s)
  | [] => ([], [])
  end.

Fixpoint drop_digits (s : bytes) : bytes :=
  match s with
  | c :: r => if is_digit c then drop_digits r else s
  | [] => []
  end.

(* number = [ "-" ] int [ frac ] [ exp ] *)
Definition number_exp (s : bytes) : bool :=
  match s with
  | [] => true
  | e :: r =>
      if (e =? 69) || (e =? 101) then
        let r := match r with c :: r' => if (c =? 43) || (c =? 45) then r' else r | [] => r end in
        match r with
        | d :: _ => is_digit d && (match drop_digits r with [] => true | _ => false end)
        | [] => false
        end
      else false
  end.
Definition number_frac (s : bytes) : bool :=
  match s with
  | 46 :: r =>
      match r with
      | d :: _ => is_digit d && number_exp (drop_digits r)
      | [] => false
      end
  | _ => number_exp s
  end.
Definition number_int (s : bytes) : bool :=
  match s with
  | 48 :: r => number_frac r
  | d :: _ => is_digit d && number_frac (drop_digits s)
  | [] => false
  end.
Definition json_number (s : bytes) : bool :=
  match s with
  | 45 :: r => number_int r
  | _ => number_int s
  end.

Definition hex4 (c : N) : option N :=
  if (48 <=? c) && (c <=? 57) then Some (c - 48)
  else if (65 <=? c) && (c <=? 70) then Some (c - 55)
  else if (97 <=? c) && (c <=? 102) then Some (c - 87)
  else None.

(* The characters of a string up to its closing quote.  (Escapes of surrogates are not accepted.) *)
Fixpoint read_chars (s : bytes) : option (bytes * bytes) :=
  match s with
  | [] => None
  | c :: r =>
      if c =? 34 then Some ([], r)
      else if c =? 92 then
        match r with
        | 117 :: a :: b :: d :: e :: r' =>
            match hex4 a, hex4 b, hex4 d, hex4 e with
            | Some a, Some b, Some d, Some e =>
                let u := ((a * 16 + b) * 16 + d) * 16 + e in
                if (0xD800 <=? u) && (u <=? 0xDFFF) then None
                else match read_chars r' with
                     | Some (t, rest) => Some (utf8_encode u ++ t, rest)
                     | None => None
                     end
            | _, _, _, _ => None
            end
        | x :: r' =>
            match (if x =? 34 then Some 34 else if x =? 92 then Some 92 else if x =? 47 then Some 47
                   else if x =? 98 then Some 8 else if x =? 102 then Some 12 else if x =? 110 then Some 10
                   else if x =? 114 then Some 13 else if x =? 116 then Some 9 else None) with
            | Some y => match read_chars r' with
                        | Some (t, rest) => Some (y :: t, rest)
                        | None => None
                        end
            | None => None
            end
        | [] => None
        end
      else if c <? 32 then None
      else match read_chars r with
           | Some (t, rest) => Some (c :: t, rest)
           | None => None
           end
  end.

Section Compound.
Context (value : bytes -> option (jval * bytes)).

(* elements after "[" or "," *)
Fixpoint read_elements (n : nat) (s : bytes) : option (list jval * bytes) :=
  match n with
  | O => None
  | S k =>
      match value s with
      | Some (v, r) =>
          match skip_ws r with
          | 44 :: r' => match read_elements k r' with
                        | Some (l, rest) => Some (v :: l, rest)
                        | None => None
                        end
          | 93 :: r' => Some ([v], r')
          | _ => None
          end
      | None => None
      end
  end.

(* members after "{" or "," *)
Fixpoint read_members (n : nat) (s : bytes) : option (list (bytes * jval) * bytes) :=
  match n with
  | O => None
  | S k =>
      match skip_ws s with
      | 34 :: r =>
          match read_chars r with
          | Some (key, r1) =>
              match skip_ws r1 with
              | 58 :: r2 =>
                  match value r2 with
                  | Some (v, r3) =>
                      match skip_ws r3 with
                      | 44 :: r' => match read_members k r' with
                                    | Some (l, rest) => Some ((key, v) :: l, rest)
                                    | None => None
                                    end
                      | 125 :: r' => Some ([(key, v)], r')
                      | _ => None
                      end
                  | None => None
                  end
              | _ => None
              end
          | None => None
          end
      | _ => None
      end
  end.
End Compound.

Definition literal (word : bytes) (v : jval) (s : bytes) : option (jval * bytes) :=
  if bytes_eqb (firstn (length word) s) word then Some (v, skipn (length word) s) else None.

(* [n] bounds the nesting depth and the length of each list *)
Fixpoint read_value (n : nat) (s : bytes) : option (jval * bytes) :=
  match n with
  | O => None
  | S k =>
      match skip_ws s with
      | [] => None
      | c :: r =>
          if c =? 123 then
            match skip_ws r with
            | 125 :: r' => Some (VObj [], r')
            | _ => match read_members (read_value k) n r with
                   | Some (m, rest) => Some (VObj m, rest)
                   | None => None
                   end
            end
          else if c =? 91 then
            match skip_ws r with
            | 93 :: r' => Some (VArr [], r')
            | _ => match read_elements (read_value k) n r with
                   | Some (l, rest) => Some (VArr l, rest)
                   | None => None
                   end
            end
          else if c =? 34 then
            match read_chars r with Some (t, rest) => Some (VStr t, rest) | None => None end
          else if c =? 110 then literal (bs "null") VNull (c :: r)
          else if c =? 116 then literal (bs "true") (VBool true) (c :: r)
          else if c =? 102 then literal (bs "false") (VBool false) (c :: r)
          else let '(a, b) := span_num (c :: r) in
               if json_number a then Some (VNum a, b) else None
      end
  end.

(* The value a text stands for, if it is a JSON text. *)
Definition read_json (s : bytes) : option jval :=
  match read_value (S (length s)) s with
  | Some (v, rest) => match skip_ws rest with [] => Some v | _ => None end
  | None => None
  end.

(* The value of a member; of several members with the same name the first. *)
Fixpoint member (k : bytes) (m : list (bytes * jval)) : option jval :=
  match m with
  | [] => None
  | (k', v) :: r => if bytes_eqb k k' then Some v else member k r
  end.

(* What a line of output says at a path of member names. *)
Fixpoint at_path (path : list string) (v : jval) : option jval :=
  match path with
  | [] => Some v
  | k :: p => match v with
              | VObj m => match member (bs k) m with Some x => at_path p x | None => None end
              | _ => None
              end
  end.
Definition line_at (path : list string) (line : bytes) : option jval :=
  match read_json line with Some v => at_path path v | None => None end.
