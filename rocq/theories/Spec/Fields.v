(* Small fields of groups as transmitted. *)
From Verif.Model Require Import Base Group.
From Verif.Spec Require Import Numerals Calendar.

(* The PI code of a North American call sign (NRSC-4-B, D.7): K or W and three letters, numbered
   from A = 0; a PI code with zero nybbles is replaced by one starting with A. *)
Definition without_zero_nybbles (pi : N) : N :=
  if pi mod 0x1000 =? 0 then 0xAFA0 + pi / 0x1000                        (* P000 -> AFAP *)
  else if pi mod 0x100 =? 0 then 0xAF00 + pi / 0x100                     (* PQ00 -> AFPQ *)
  else if (pi / 0x100) mod 16 =? 0 then 0xA000 + pi / 0x1000 * 0x100 + pi mod 0x100   (* P0RS -> APRS *)
  else pi.
Definition callsign_pi (w : bool) (a b c : N) : N :=
  without_zero_nybbles ((if w then 21672 else 4096) + (a * 676 + b * 26 + c)).
Definition callsign_text (w : bool) (a b c : N) : bytes :=
  [if w then 87 else 75; 65 + a; 65 + b; 65 + c].

(* A programme item number: day of the month, hour and minute *)
Definition pin_of (day hour minute : N) : N := day * 2048 + hour * 64 + minute.
Definition time_of_day (hour minute : N) : bytes :=
  two_digits (Z.of_N hour) ++ [58] ++ two_digits (Z.of_N minute).

(* Programme types: RDS (IEC 62106) and RBDS (NRSC-4); two RBDS codes are unassigned *)
Definition programme_types : list string :=
  ["No PTY"; "News"; "Current affairs"; "Information"; "Sport"; "Education"; "Drama"; "Culture";
   "Science"; "Varied"; "Pop music"; "Rock music"; "Easy listening"; "Light classical";
   "Serious classical"; "Other music"; "Weather"; "Finance"; "Children's programmes";
   "Social affairs"; "Religion"; "Phone-in"; "Travel"; "Leisure"; "Jazz music"; "Country music";
   "National music"; "Oldies music"; "Folk music"; "Documentary"; "Alarm test"; "Alarm"]%string.
Definition programme_types_rbds : list string :=
  ["No PTY"; "News"; "Information"; "Sports"; "Talk"; "Rock"; "Classic rock"; "Adult hits";
   "Soft rock"; "Top 40"; "Country"; "Oldies"; "Soft"; "Nostalgia"; "Jazz"; "Classical";
   "Rhythm and blues"; "Soft rhythm and blues"; "Language"; "Religious music"; "Religious talk";
   "Personality"; "Public"; "College"; "Spanish talk"; "Spanish music"; "Hip hop"; ""; "";
   "Weather"; "Emergency test"; "Emergency"]%string.
Definition programme_type (rbds : bool) (code : N) : bytes :=
  bs (nth (N.to_nat code) (if rbds then programme_types_rbds else programme_types) EmptyString).

(* A block as it appears in a raw group: four hexadecimal digits, or dashes if it was missing *)
Definition raw_block (b : Block) (text : bytes) : Prop :=
  if blk_is_received b then length text = 4%nat /\ numeral 16 text = Some (blk_data b)
  else text = bs "----".
Definition raw_text (g : Group) (text : bytes) : Prop :=
  exists t1 t2 t3 t4, raw_block (g_b1 g) t1 /\ raw_block (g_b2 g) t2 /\ raw_block (g_b3 g) t3 /\
    raw_block (g_b4 g) t4 /\ text = t1 ++ [32] ++ t2 ++ [32] ++ t3 ++ [32] ++ t4.
