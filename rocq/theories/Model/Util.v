(* src/util.hh, src/util.cc: bit fields and number formatting. *)
From Verif.Model Require Import Base.

(* src/util.hh:35-41  getBits<N>(word, starting_at); word is a uint16_t value *)
Definition getBits (n : N) (word : N) (starting_at : N) : N :=
  N.land (N.shiftr word starting_at) (N.ones n).

(* src/util.hh:45-53  getBits<N>(word1, word2, starting_at) *)
Definition getBits2 (n : N) (word1 word2 : N) (starting_at : N) : N :=
  N.land (N.shiftr (u32 (word2 + u32 (N.shiftl word1 16))) starting_at) (N.ones n).

(* src/util.hh:56-59 *)
Definition getBool (word : N) (bit_pos : N) : bool := negb (getBits 1 word bit_pos =? 0).

(* src/util.hh:60-63 *)
Definition getUint8 (word : N) (bit_pos : N) : N := getBits 8 word bit_pos.

(* src/util.hh:65-69 *)
Definition divideRoundingUp (dividend divisor : N) : N := (dividend + divisor - 1) / divisor.

(* One upper-case hexadecimal digit (std::ios_base::uppercase). *)
Definition hexdigit (d : N) : N := if d <? 10 then 48 + d else 55 + d.

(* Digits of [v] in base [b], most significant first; [fuel] bounds the number of digits.
   Stands for the number formatting of std::ostream and std::to_string. *)
Fixpoint digits_rev (fuel : nat) (b v : N) : list N :=
  match fuel with
  | O => []
  | S f => if v <? b then [v] else (v mod b) :: digits_rev f b (v / b)
  end.
Definition digits (b v : N) : list N := rev (digits_rev (S (N.to_nat (N.log2 v))) b v).

Definition pad_left (c : N) (w : nat) (s : bytes) : bytes := repeat c (w - length s) ++ s.

(* src/util.hh:77-88  getHexString<N>(value) *)
Definition getHexString (w : nat) (value : N) : bytes :=
  pad_left 48 w (map hexdigit (digits 16 value)).

(* src/util.hh:90-93 *)
Definition getPrefixedHexString (w : nat) (value : N) : bytes := bs "0x" ++ getHexString w value.

(* std::to_string for unsigned and int *)
Definition dec_string (v : N) : bytes := map (fun d => 48 + d) (digits 10 v).
Definition dec_string_Z (v : Z) : bytes :=
  if (v <? 0)%Z then 45 :: dec_string (Z.to_N (- v)) else dec_string (Z.to_N v).

(* src/util.cc:33-38  getHoursMinutesString: "%02d:%02d" through a stringstream with fill '0' and setw(2) *)
Definition getHoursMinutesString (hour minute : Z) : bytes :=
  pad_left 48 2 (dec_string_Z hour) ++ [58] ++ pad_left 48 2 (dec_string_Z minute).

(* src/util.cc:70-81  join *)
Fixpoint join (strings : list bytes) (d : bytes) : bytes :=
  match strings with
  | [] => []
  | [s] => s
  | s :: r => s ++ d ++ join r d
  end.

(* src/util.cc:203-205  rtrim: erase from find_last_not_of(' ') + 1; all-space and empty strings
   become empty *)
Definition rtrim (s : bytes) : bytes :=
  rev ((fix drop (l : bytes) : bytes :=
          match l with
          | [] => []
          | c :: r => if c =? 32 then drop r else l
          end) (rev s)).
