(* Open data applications. *)
From Verif.Model Require Import Base Group.
From Verif.Spec Require Import Numerals JsonText.

(* The group types in which applications can be sent; of these, those with a meaning of their own when
   no application is assigned to them *)
Definition for_applications : list GroupType :=
  [mkGroupType 3 VB; mkGroupType 4 VB; mkGroupType 5 VA; mkGroupType 5 VB; mkGroupType 6 VA; mkGroupType 6 VB; mkGroupType 7 VA;
   mkGroupType 7 VB; mkGroupType 8 VA; mkGroupType 8 VB; mkGroupType 9 VA; mkGroupType 9 VB; mkGroupType 10 VB; mkGroupType 11 VA;
   mkGroupType 11 VB; mkGroupType 12 VA; mkGroupType 12 VB; mkGroupType 13 VA; mkGroupType 13 VB; mkGroupType 15 VA].
Definition own_meaning : list GroupType :=
  [mkGroupType 5 VA; mkGroupType 5 VB; mkGroupType 6 VA; mkGroupType 6 VB; mkGroupType 7 VA; mkGroupType 8 VA; mkGroupType 9 VA; mkGroupType 15 VA].

(* a is the application assigned last to groups of type t *)
Definition assigned_last (t : GroupType) (l : list (GroupType * N)) (a : N) : Prop :=
  exists l1 l2, l = l1 ++ (t, a) :: l2 /\ forall b, ~ In (t, b) l2.

(* The members of a line that are there whatever the group type is *)
Definition common_members : list string :=
  ["rx_time"; "bler"; "channel"; "raw_data"; "pi"; "callsign"; "callsign_uncertain"; "group"; "stream"; "tp"; "prog_type"]%string.

(* The applications that are decoded, and the member that shows what they sent *)
Definition applications : list (N * string) :=
  [(0x0093, "dab"); (0x4BD7, "radiotext_plus"); (0x4BD8, "ert_plus"); (0x6552, "enhanced_radiotext"); (0xCD46, "tmc"); (0xCD47, "tmc")]%string.
Definition decoded_app (a : N) : Prop := exists k, In (a, k) applications.

(* Text t is the number a in four hexadecimal digits *)
Definition hex4 (t : bytes) (a : N) : Prop := length t = 4%nat /\ numeral 16 t = Some a.

(* The channels of digital radio and their centre frequencies in kHz.  In band III the channels 5 to 12 are 7 MHz apart
   on a raster of 16 kHz and have four blocks of 1712 kHz each, channel 13 has six; in the L band there are 23 blocks. *)
Definition blocks (name : string) (first : N) (letters : list string) : list (N * string) :=
  map (fun x => (first + 1712 * N.of_nat (fst x), String.append name (snd x))) (combine (seq 0 (length letters)) letters).
Definition dab_plan : list (N * string) :=
  flat_map (fun x => blocks (snd x) (16 * ((174928 + 7000 * N.of_nat (fst x) + 15) / 16)) ["A"; "B"; "C"; "D"]%string)
    (combine (seq 0 8) ["5"; "6"; "7"; "8"; "9"; "10"; "11"; "12"]%string) ++
  blocks "13" 230784 ["A"; "B"; "C"]%string ++ blocks "13" 235776 ["D"; "E"; "F"]%string ++
  blocks "L" 1452960 ["A"; "B"; "C"; "D"; "E"; "F"; "G"; "H"; "I"; "J"; "K"; "L"; "M"; "N"; "O"; "P"; "Q"; "R"; "S"; "T"; "U"; "V"; "W"]%string.
