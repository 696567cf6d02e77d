(* Groups of a station received from bits on the air. *)
From Verif.Model Require Import Base Group Input.
From Verif.Spec Require Import RdsCode RdsStream Reception Inputs JsonText Session Quality Fields Labels Texts Recovery Frequencies Apps Traffic Enhanced.

(* The characters 0 and 1 of the input are, one after the other: bits with which the receiver gets into sync (pre and b),
   any words of 26 bits up to the end of a group, the groups of station p, with errors the receiver tolerates, and less than
   a block more.  At least three groups of the station come before ts. *)
Definition on_air (fec : bool) (input : bytes) (p : N) (ts : list TxGroup) : Prop :=
  exists pre b ws0 tes0 tes rest, map fst tes = ts /\
    bit_characters input = pre ++ [b] ++ flat_map block_bits ws0 ++ flat_map rx_bits (tes0 ++ tes) ++ rest /\ (length rest < 25)%nat /\
    acquires fec pre b /\ Forall (fun w => w < 2 ^ 26) ws0 /\ Forall (rx_ok fec) (tes0 ++ tes) /\
    Reception.kept [false] (err_flags (following (recognise (window (pre ++ [b])))) (ws0 ++ all_words (tes0 ++ tes))) /\
    expect_after (following (recognise (window (pre ++ [b])))) ws0 = OffA /\
    Forall (fun x => tx1 (fst x) = p) (tes0 ++ tes) /\ (3 <= length tes0)%nat.
(* The characters 0 and 1 of the input are: any bits; 14 groups without errors that meet the conditions of C105; at least
   three groups of station p; its groups ts; and any bits. *)
Definition after_disturbance (input : bytes) (p : N) (ts : list TxGroup) : Prop :=
  exists bits0 ts0 ts1 rest, let bits := bits0 ++ flat_map tx_bits ts0 in
    bit_characters input = bits ++ flat_map tx_bits (ts1 ++ ts) ++ rest /\
    length ts0 = 14%nat /\ Forall tx_ok ts0 /\ Forall tx_ok (ts1 ++ ts) /\
    (length (chance_blocks bits (length bits0)) <= 7)%nat /\ ~ chance_rhythm bits (length bits0) /\
    Forall (fun x => tx1 x = p) (ts1 ++ ts) /\ (3 <= length ts1)%nat.
Definition heard (fec : bool) (input : bytes) (p : N) (ts : list TxGroup) : Prop := on_air fec input p ts \/ after_disturbance input p ts.

(* What transmitted groups say: the clock time (4A), parts of the programme type name (10A) and of the long name (15A),
   and two frequency codes (0A) *)
Definition tx_type (t : TxGroup) (n : N) (b : bool) : bool := (tx2 t / 4096 =? n) && Bool.eqb (N.testbit (tx2 t) 11) b.
Definition clock_sent (t : TxGroup) (day hour minute : N) (west : bool) (units : N) : Prop :=
  tx_type t 4 false = true /\ tx2 t mod 4 = day / 2 ^ 15 /\ tx3 t = (day mod 2 ^ 15) * 2 + hour / 16 /\
  tx4 t = (hour mod 16) * 4096 + minute * 64 + (if west then 32 else 0) + units.
Definition type_name_part (t : TxGroup) : list rt_part :=
  if tx_type t 10 false then [mkPart (N.testbit (tx2 t) 4) VA (4 * (tx2 t mod 2)) [hi (tx3 t); lo (tx3 t); hi (tx4 t); lo (tx4 t)]] else [].
Definition long_name_part (t : TxGroup) : writes :=
  let n := 4 * (tx2 t mod 8) in
  if tx_type t 15 false then [(n, hi (tx3 t)); (n + 1, lo (tx3 t)); (n + 2, hi (tx4 t)); (n + 3, lo (tx4 t))] else [].
Definition freq_codes (t : TxGroup) : list af_event :=
  if tx_type t 0 false then [AfCodes (tx3 t / 256) (tx3 t mod 256)] else [].

(* What a transmitted group says to applications: an announcement (3A), or data of one of their group types *)
Definition tx_items (t : TxGroup) : list app_item :=
  let ty := mkGroupType (tx2 t / 4096) (if N.testbit (tx2 t) 11 then VB else VA) in
  (if tx_type t 3 false then [Announced (announced_in (tx2 t)) (tx4 t) (tx3 t)] else []) ++
  (if existsb (GroupType_eqb ty) for_applications then [AppData ty (tx2 t) (tx3 t) (tx4 t)] else []).
(* The groups found in the input by the receiver *)
Definition found_in (fec : bool) (input : bytes) : list (Group * N) := map (fun g => (g, 0)) (groups_after fec [] (ascii_bits input)).

(* The type of a transmitted group; what it assigns to applications; the bits of RadioText Plus that tell one item from the
   next; and the bytes of Enhanced RadioText in a group of type ty *)
Definition tx_group_type (t : TxGroup) : GroupType := mkGroupType (tx2 t / 4096) (if N.testbit (tx2 t) 11 then VB else VA).
Definition tx_assigns (t : TxGroup) : list (GroupType * N) := if tx_type t 3 false then [(announced_in (tx2 t), tx4 t)] else [].
Definition tx_item_bits (t : TxGroup) : bool * bool := (N.testbit (tx2 t) 4, N.testbit (tx2 t) 3).
Definition ert_part (ty : GroupType) (t : TxGroup) : writes :=
  let n := 4 * (tx2 t mod 32) in
  if GroupType_eqb (tx_group_type t) ty then [(n, hi (tx3 t)); (n + 1, lo (tx3 t)); (n + 2, hi (tx4 t)); (n + 3, lo (tx4 t))] else [].

(* The bytes of the transparent data channel in a group 5A *)
Definition data_part (t : TxGroup) : writes :=
  if tx_type t 5 false then place (4 * (tx2 t mod 32)) [hi (tx3 t); lo (tx3 t); hi (tx4 t); lo (tx4 t)] else [].

(* What every line says of its group: the PI code of the station, the group type, TP and the programme type.  Only a line for
   a group that applications may use can be an error message instead, if its text is not UTF-8. *)
Definition group_numbers : list string := ["0"; "1"; "2"; "3"; "4"; "5"; "6"; "7"; "8"; "9"; "10"; "11"; "12"; "13"; "14"; "15"]%string.
Definition tells_header (rbds : bool) (p : N) (t : TxGroup) (line : bytes) : Prop :=
  says_hex4 line "pi" p /\ says line ["group"%string] (VStr (bs (nth (N.to_nat (tx2 t / 4096)) group_numbers EmptyString) ++ bs (if N.testbit (tx2 t) 11 then "B" else "A"))) /\
  says line ["tp"%string] (VBool (N.testbit (tx2 t) 10)) /\ says line ["prog_type"%string] (VStr (programme_type rbds ((tx2 t / 2 ^ 5) mod 2 ^ 5))).
Definition tells (rbds : bool) (p : N) (t : TxGroup) (line : bytes) : Prop :=
  tells_header rbds p t line \/ (In (tx_group_type t) for_applications /\ only_error line).

(* A line of hex output: the four blocks of the group *)
Definition hex_line (t : TxGroup) (line : bytes) : Prop :=
  exists a b c d, hex_digits 4 a (tx1 t) /\ hex_digits 4 b (tx2 t) /\ hex_digits 4 c (tx3 t) /\ hex_digits 4 d (tx4 t) /\
    line = a ++ [32] ++ b ++ [32] ++ c ++ [32] ++ d.
