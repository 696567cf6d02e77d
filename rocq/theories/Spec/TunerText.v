(* Groups of a station as lines from a TEF6686 tuner. *)
From Verif.Model Require Import Base Group Options Input Channel Main.
From Verif.Spec Require Import RdsStream Inputs Recording HexText.

(* A line of some other kind, such as a report of the signal strength: it does not start with P or R *)
Definition other_line (line : bytes) : Prop := hd 0 line <> 80 /\ hd 0 line <> 82 /\ ~ In 10 line.

(* The lines for group t: P and the PI code as four hexadecimal digits, then R, the other three blocks and 00 for
   "no errors", each followed by anything (after the PI code: by anything but another digit); lines of other kinds before them. *)
Definition tuner_lines (t : TxGroup) (lines : list bytes) : Prop :=
  exists more1 d1 d2 d3 d4 r1 more2 c1 c2 c3 c4 c5 c6 c7 c8 c9 c10 c11 c12 r2,
    lines = more1 ++ [80 :: d1 :: d2 :: d3 :: d4 :: r1] ++ more2 ++ [82 :: c1 :: c2 :: c3 :: c4 :: c5 :: c6 :: c7 :: c8 :: c9 :: c10 :: c11 :: c12 :: 48 :: 48 :: r2] /\
    hex_block d1 d2 d3 d4 = Some (tx1 t) /\ hex_block c1 c2 c3 c4 = Some (tx2 t) /\ hex_block c5 c6 c7 c8 = Some (tx3 t) /\ hex_block c9 c10 c11 c12 = Some (tx4 t) /\
    hex_value (hd 0 r1) = None /\ ~ In 10 r1 /\ ~ In 10 r2 /\ Forall other_line more1 /\ Forall other_line more2.

(* The input is: any text that ends with the end of a line, or none; lines of at least three groups of station p; lines of the
   groups ts of the station; and any text. *)
Definition in_tuner_text (input : bytes) (p : N) (ts : list TxGroup) : Prop :=
  exists before ts0 lines after, input = before ++ text_file (concat lines) ++ after /\ (before = [] \/ exists b, before = b ++ [10]) /\
    Forall2 tuner_lines (ts0 ++ ts) lines /\ Forall (fun t => tx1 t = p) (ts0 ++ ts) /\ (3 <= length ts0)%nat.

(* The groups found in the input *)
Definition tuner_found (input : bytes) : list (Group * N) := map (fun g => (g, 0)) (read_tef_input input).

(* Both kinds of text *)
Inductive text_source := HexText | TunerText.
Definition in_text (s : text_source) : bytes -> N -> list TxGroup -> Prop := match s with HexText => in_hex_text | TunerText => in_tuner_text end.
Definition found_in_text (s : text_source) (o : Options) (clock : nat -> Z) (input : bytes) : list (Group * N) :=
  match s with HexText => hex_found o clock input | TunerText => tuner_found input end.
Definition output_of (s : text_source) := match s with HexText => processHexInput | TunerText => processTEFInput end.
