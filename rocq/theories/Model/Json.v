(* The part of nlohmann::ordered_json the program uses (an external library: its documented
   behaviour is modelled, not its source). *)
From Coq Require Import SpecFloat.
From Verif.Model Require Import Base Util.

(* nlohmann::ordered_json values.  Objects keep insertion order.  Integers of all C++ types are Z. *)
Inductive json : Type :=
| JNull
| JBool (b : bool)
| JInt (z : Z)
| JFloat (f : spec_float)
| JStr (s : bytes)
| JArr (l : list json)
| JObj (m : list (string * json)).

Definition JN (n : N) : json := JInt (Z.of_N n).
Definition JS (s : string) : json := JStr (bs s).

(* Find a key of an object. *)
Fixpoint obj_find (k : string) (m : list (string * json)) : option json :=
  match m with
  | [] => None
  | (k', v) :: r => if String.eqb k k' then Some v else obj_find k r
  end.

(* Replace the value of an existing key, or append the key. *)
Fixpoint obj_put (k : string) (v : json) (m : list (string * json)) : list (string * json) :=
  match m with
  | [] => [(k, v)]
  | (k', v') :: r => if String.eqb k k' then (k', v) :: r else (k', v') :: obj_put k v r
  end.

(* json::operator[](key) as an lvalue: null becomes an object, a missing key is inserted with value
   null, anything that is neither null nor an object throws type_error 305.
   [jupd path f j] applies [f] to the element designated by j[path0][path1]... *)
Fixpoint jupd (path : list string) (f : json -> res json) (j : json) : res json :=
  match path with
  | [] => f j
  | k :: p =>
      match j with
      | JNull => v <- jupd p f JNull ;; Ok (JObj [(k, v)])
      | JObj m =>
          let old := match obj_find k m with Some v => v | None => JNull end in
          v <- jupd p f old ;; Ok (JObj (obj_put k v m))
      | _ => Throw "type_error.305"
      end
  end.

(* j[path] = v *)
Definition jset (path : list string) (v : json) (j : json) : res json :=
  jupd path (fun _ => Ok v) j.

(* j[path].push_back(v): null becomes an array; other non-arrays throw type_error 308 *)
Definition jpush (path : list string) (v : json) (j : json) : res json :=
  jupd path (fun x => match x with
                      | JNull => Ok (JArr [v])
                      | JArr l => Ok (JArr (l ++ [v]))
                      | _ => Throw "type_error.308"
                      end) j.

(* The value at a path, if there is one (used by theorems, and for reading j[path] where the
   element is known to exist). *)
Fixpoint jget (path : list string) (j : json) : option json :=
  match path with
  | [] => Some j
  | k :: p => match j with
              | JObj m => match obj_find k m with Some v => jget p v | None => None end
              | _ => None
              end
  end.

Definition jempty (j : json) : bool :=
  match j with
  | JNull => true
  | JArr [] => true
  | JObj [] => true
  | _ => false
  end.

(* UTF-8 acceptance as in nlohmann's serializer (RFC 3629: no overlong forms, no surrogates,
   nothing above U+10FFFF). *)
Definition cont (b : N) : bool := (128 <=? b) && (b <=? 191).
Definition inr (lo hi b : N) : bool := (lo <=? b) && (b <=? hi).

Fixpoint utf8_valid (s : bytes) : bool :=
  match s with
  | [] => true
  | a :: r =>
      if a <? 128 then utf8_valid r
      else if inr 194 223 a then
        match r with b :: r' => cont b && utf8_valid r' | _ => false end
      else if a =? 224 then
        match r with b :: c :: r' => inr 160 191 b && cont c && utf8_valid r' | _ => false end
      else if inr 225 236 a || inr 238 239 a then
        match r with b :: c :: r' => cont b && cont c && utf8_valid r' | _ => false end
      else if a =? 237 then
        match r with b :: c :: r' => inr 128 159 b && cont c && utf8_valid r' | _ => false end
      else if a =? 240 then
        match r with b :: c :: d :: r' => inr 144 191 b && cont c && cont d && utf8_valid r' | _ => false end
      else if inr 241 243 a then
        match r with b :: c :: d :: r' => cont b && cont c && cont d && utf8_valid r' | _ => false end
      else if a =? 244 then
        match r with b :: c :: d :: r' => inr 128 143 b && cont c && cont d && utf8_valid r' | _ => false end
      else false
  end.

(* Can the value be serialised, i.e. is every string in it (keys included) valid UTF-8? *)
Fixpoint json_utf8 (j : json) : bool :=
  match j with
  | JStr s => utf8_valid s
  | JArr l => forallb json_utf8 l
  | JObj m => forallb (fun kv => utf8_valid (bs (fst kv)) && json_utf8 (snd kv)) m
  | _ => true
  end.

(* Serialisation of a string: escapes as in nlohmann's dump_escaped with ensure_ascii = false. *)
Definition escape_byte (b : N) : bytes :=
  if b =? 8 then bs "\b"
  else if b =? 9 then bs "\t"
  else if b =? 10 then bs "\n"
  else if b =? 12 then bs "\f"
  else if b =? 13 then bs "\r"
  else if b =? 34 then 92 :: [34]
  else if b =? 92 then 92 :: [92]
  else if b <? 32 then
    let lo d := if d <? 10 then 48 + d else 87 + d in   (* "%04x": lower case *)
    bs "\u00" ++ [lo (b / 16); lo (b mod 16)]
  else [b].

Definition dump_string (s : bytes) : bytes := [34] ++ flat_map escape_byte s ++ [34].

(* Compact serialisation (operator<< with width 0).  The text of a floating-point number is an
   oracle [fl] (shortest round-trip formatting is not modelled). *)
Section Dump.
Context (fl : spec_float -> bytes).
Fixpoint dump (j : json) : bytes :=
  match j with
  | JNull => bs "null"
  | JBool true => bs "true"
  | JBool false => bs "false"
  | JInt z => dec_string_Z z
  | JFloat f => fl f
  | JStr s => dump_string s
  | JArr l => [91] ++ join (map dump l) [44] ++ [93]
  | JObj m =>
      [123] ++ join (map (fun kv => dump_string (bs (fst kv)) ++ [58] ++ dump (snd kv)) m) [44]
      ++ [125]
  end.
End Dump.

(* operator<<: throws (type_error 316) if some string is not valid UTF-8. *)
Definition json_print (fl : spec_float -> bytes) (j : json) : res bytes :=
  if json_utf8 j then Ok (dump fl j) else Throw "type_error.316".
