(* Groups of a station as lines of hexadecimal text. *)
From Verif.Model Require Import Base Group Options Input.
From Verif.Spec Require Import RdsStream Inputs Recording.

(* A line with the four blocks of group t: sixteen hexadecimal digits, upper or lower case, with blanks anywhere between
   them, and anything after them.  It does not start with a stream number. *)
Definition written_as (t : TxGroup) (line : bytes) : Prop :=
  exists c1 c2 c3 c4 c5 c6 c7 c8 c9 c10 c11 c12 c13 c14 c15 c16 r,
    nonblank line = c1 :: c2 :: c3 :: c4 :: c5 :: c6 :: c7 :: c8 :: c9 :: c10 :: c11 :: c12 :: c13 :: c14 :: c15 :: c16 :: r /\
    hex_block c1 c2 c3 c4 = Some (tx1 t) /\ hex_block c5 c6 c7 c8 = Some (tx2 t) /\
    hex_block c9 c10 c11 c12 = Some (tx3 t) /\ hex_block c13 c14 c15 c16 = Some (tx4 t) /\
    hd 0 line <> 35 /\ ~ In 10 line.

(* The input is: any text that ends with the end of a line, or none; lines of at least three groups of station p; lines of the
   groups ts of the station; and any text. *)
Definition in_hex_text (input : bytes) (p : N) (ts : list TxGroup) : Prop :=
  exists before ts0 lines after, input = before ++ text_file lines ++ after /\ (before = [] \/ exists b, before = b ++ [10]) /\
    Forall2 written_as (ts0 ++ ts) lines /\ Forall (fun t => tx1 t = p) (ts0 ++ ts) /\ (3 <= length ts0)%nat.

(* The groups found in the input, with their streams *)
Definition hex_found (o : Options) (clock : nat -> Z) (input : bytes) : list (Group * N) := map (fun g => (g, g_data_stream g)) (read_hex_input o clock input).
