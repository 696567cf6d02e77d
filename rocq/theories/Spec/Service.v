(* What the lines of a traffic message service show of the service and of other networks. *)
From Verif.Model Require Import Base.
From Verif.Spec Require Import JsonText Session Labels Texts.

Local Open Scope string_scope.
Local Open Scope N_scope.
Local Open Scope list_scope.

(* An administration group (x = 0): the service, the key and the location table now in use *)
Definition administration_shown (line : bytes) (y z : N) : Prop :=
  says_n line ["tmc"; "system_info"; "service_id"] ((y / 32) mod 64) /\
  says_n line ["tmc"; "system_info"; "encryption_id"] (y mod 32) /\
  says_n line ["tmc"; "system_info"; "location_table"] (z / 1024).

(* A group of tuning information (16 <= x): x = 22 names a network and up to two of its frequencies,
   x = 24 one or two networks with the same service, x = 25 another service, in which tables, and its scope.
   Of the frequencies in a group 22 the second is shown if the first is a length code (225 to 249); nothing
   else is. *)
Definition one_network (y z : N) : bool := (y =? 0) || (z =? 0) || (y =? z).
Definition network_shown (line : bytes) (x y z : N) : Prop :=
  let other k := ["tmc"; "other_network"; k] in
  if_x ((x =? 22) || (x =? 25) || ((x =? 24) && one_network y z)) 4 line (other "pi") (if x =? 24 then y else z) /\
  (if (x =? 24) && negb (one_network y z)
   then exists t u, says line (other "pi_codes") (VArr [VStr t; VStr u]) /\ hex_number 4 t y /\ hex_number 4 u z
   else line_at (other "pi_codes") line = None) /\
  if_n (x =? 25) line (other "service_id") (y mod 64) /\
  if_n (x =? 25) line (other "location_table") (y / 1024) /\
  if_value ((x =? 25) && negb ((y / 64) mod 16 =? 0)) line (other "scope") (VArr (scope_names (y / 64))) /\
  (if (x =? 22) && ((225 <=? hi y) && (hi y <=? 249) && ((1 <=? lo y) && (lo y <=? 204)))
   then says_list line (other "frequencies_khz") [87500 + 100 * lo y]
   else line_at (other "frequencies_khz") line = None).
