(* The Gregorian calendar, by counting days.  Independent of the model. *)
From Coq Require Import ZArith List.
From Verif.Model Require Import Base.
Import ListNotations.
Local Open Scope Z_scope.

Definition leap_year (y : Z) : bool :=
  (y mod 4 =? 0) && (negb (y mod 100 =? 0) || (y mod 400 =? 0)).

Definition month_days (y m : Z) : Z :=
  if m =? 2 then if leap_year y then 29 else 28
  else if (m =? 4) || (m =? 6) || (m =? 9) || (m =? 11) then 30 else 31.

(* (year, month, day of month) *)
Definition date := (Z * Z * Z)%type.

Definition next_day (x : date) : date :=
  let '(y, m, d) := x in
  if d <? month_days y m then (y, m, d + 1)
  else if m <? 12 then (y, m + 1, 1) else (y + 1, 1, 1).

(* The modified Julian date counts days: day 0 is 17 November 1858 *)
Definition date_of_mjd (n : N) : date := N.iter n next_day (1858, 11, 17).

(* Decimal digits of a small number *)
Definition digit (z : Z) : N := (48 + Z.to_N (z mod 10))%N.
Definition two_digits (z : Z) : bytes := [digit (z / 10); digit z].
Definition four_digits (z : Z) : bytes := [digit (z / 1000); digit (z / 100); digit (z / 10); digit z].

(* ISO 8601 text of the local time [minutes] minutes after midnight UTC of modified Julian date 0,
   in a zone [half] half hours ahead of UTC; [minutes] is the local reading. *)
Definition iso_local (minutes half : Z) : bytes :=
  let '(y, m, d) := date_of_mjd (Z.to_N (minutes / 1440)) in
  four_digits y ++ bs "-" ++ two_digits m ++ bs "-" ++ two_digits d ++ bs "T" ++
  two_digits (minutes mod 1440 / 60) ++ bs ":" ++ two_digits (minutes mod 60) ++ bs ":00" ++
  (if half =? 0 then bs "Z"
   else (if 0 <? half then bs "+" else bs "-") ++ two_digits (Z.abs half / 2) ++ bs ":" ++
        two_digits (Z.abs half mod 2 * 30)).
