(* A concrete host, to show that the assumptions about hosts can be met. *)
From Verif.Model Require Import Base Util Float Json Tmc Station.
From Verif.Spec Require Import Calendar Session.

(* Day number of a date of the Gregorian calendar *)
Definition mjd_of_date (x : date) : Z :=
  let '(y, m, d) := x in
  let a := (if m <=? 2 then y - 1 else y)%Z in
  (365 * a + a / 4 - a / 100 + a / 400 + (153 * ((m + 9) mod 12) + 2) / 5 + d - 678882)%Z.

Definition utc_normalise (t : Tm) : Tm :=
  tm_of (mjd_of_date (tm_year t + 1900, tm_mon t + 1, tm_mday t) * 86400 +
         tm_hour t * 3600 + tm_min t * 60 + tm_sec t)%Z.

Definition no_tmc : TmcData :=
  mkTmcData (fun _ => None) (fun _ => None) (fun _ => LocationDatabase_default) (fun _ => None).

(* UTC, no TMC tables, numbers and errors without detail; times are shown as seconds *)
Definition plain_host : Env :=
  mkEnv (fun _ => None) (bs "iconv error") (fun _ => bs "[json.exception.type_error.316]")
        (fun _ t => Some (dec_string_Z t)) utc_normalise (fun _ => bs "0.0") no_tmc.
