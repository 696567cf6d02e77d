(* Text inputs: what a line or a character stream says.  Independent of the model's readers. *)
From Verif.Model Require Import Base Group.

(* ASCII bits: the characters 0 and 1 *)
Definition bit_characters (s : bytes) : list bool :=
  map (N.eqb 49) (filter (fun c => (c =? 48) || (c =? 49)) s).

(* Hexadecimal digits, upper or lower case *)
Definition hex_value (c : N) : option N :=
  if (48 <=? c) && (c <=? 57) then Some (c - 48)
  else if (65 <=? c) && (c <=? 70) then Some (c - 65 + 10)
  else if (97 <=? c) && (c <=? 102) then Some (c - 97 + 10)
  else None.

(* Four characters that are hexadecimal digits are a block *)
Definition hex_block (a b c d : N) : option N :=
  match hex_value a, hex_value b, hex_value c, hex_value d with
  | Some a, Some b, Some c, Some d => Some (a * 4096 + b * 256 + c * 16 + d)
  | _, _, _, _ => None
  end.

Definition nonblank (s : bytes) : bytes := filter (fun c => negb (c =? 32)) s.

(* The block as the group has it: its contents if received *)
Definition received (g : Group) (n : blockNumber) : option N :=
  if blk_is_received (g_block g n) then Some (blk_data (g_block g n)) else None.

(* An optional data stream number at the start of a line: "#S1 ", "#S2 ", "#S3 " *)
Definition marked (strm : N) (text : bytes) : bytes :=
  if strm =? 0 then text else [35; 83; 48 + strm; 32] ++ text.

(* Fields separated by a delimiter *)
Fixpoint separated (d : N) (fields : list bytes) : bytes :=
  match fields with
  | [] => []
  | [f] => f
  | f :: r => f ++ d :: separated d r
  end.

(* Differential coding at the transmitter: each bit sent is the sum of the data bit and the bit sent
   before it *)
Fixpoint differential (previous : bool) (data : list bool) : list bool :=
  match data with
  | [] => []
  | d :: r => let sent := xorb previous d in sent :: differential sent r
  end.

(* The samples of one channel: every n-th, starting with number k *)
Fixpoint every {A : Type} (n k : nat) (l : list A) : list A :=
  match l with
  | [] => []
  | x :: r => match k with
              | O => x :: every n (n - 1) r
              | S j => every n j r
              end
  end.
