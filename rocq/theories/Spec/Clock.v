(* Clock time and date in groups of type 4A (IEC 62106, 6.1.5.6). *)
From Verif.Model Require Import Base Group Station.
From Verif.Spec Require Import Session.

(* The blocks of the group carry modified Julian day [day], [hour]:[minute] UTC and a local offset
   of [units] half hours, negative if [west]. *)
Definition carries_clock (g : Group) (day hour minute : N) (west : bool) (units : N) : Prop :=
  day < 2 ^ 17 /\ hour < 2 ^ 5 /\ minute < 2 ^ 6 /\ units < 2 ^ 5 /\
  blk_is_received (g_b2 g) = true /\ blk_is_received (g_b3 g) = true /\ blk_is_received (g_b4 g) = true /\
  blk_data (g_b2 g) < 2 ^ 16 /\ (blk_data (g_b2 g)) mod 4 = day / 2 ^ 15 /\
  blk_data (g_b3 g) = (day mod 2 ^ 15) * 2 + hour / 16 /\
  blk_data (g_b4 g) = (hour mod 16) * 4096 + minute * 64 + (if west then 32 else 0) + units.

Definition half_hours (west : bool) (units : N) : Z := (if west then - Z.of_N units else Z.of_N units)%Z.
