(* src/text/rdsstring.hh, src/text/rdsstring.cc and src/text/radiotext.hh. *)
From Verif.Model Require Import Base Util Tables.

(* src/text/rdsstring.hh:48-49 *)
Inductive Encoding := EncBasic | EncUCS2 | EncUTF8.
Inductive Direction := LTR | RTL.

(* src/text/rdsstring.hh:46-78.  last_complete_data_ is written but never read by the program and
   is left out. *)
Record RDSString := mkRDSString {
  s_encoding : Encoding;
  s_direction : Direction;
  s_data : bytes;
  s_prev_pos : N;
  s_sequential_length : N;
  s_last_complete_string : bytes
}.

(* src/text/rdsstring.cc:75 *)
Definition RDSString_new (len : N) : RDSString :=
  mkRDSString EncBasic LTR (repeat 0 (N.to_nat len)) 0 0 [].

Definition kStringTerminator : N := 0x0D.
Definition kBlankSpace : N := 0x20.

(* src/text/rdsstring.cc:106-108 *)
Definition s_getReceivedLength (s : RDSString) : N := s_sequential_length s.

(* std::find_if over data_: position of the first terminator, or the size *)
Fixpoint find_terminator (d : bytes) : N :=
  match d with
  | [] => 0
  | b :: r => if b =? kStringTerminator then 0 else 1 + find_terminator r
  end.

(* src/text/rdsstring.cc:111-119 *)
Definition s_getExpectedLength (s : RDSString) : N :=
  N.min (find_terminator (s_data s) + 1) (N.of_nat (length (s_data s))).

(* src/text/rdsstring.cc:121-124 *)
Definition s_hasPreviouslyReceivedTerminators (s : RDSString) : bool :=
  existsb (N.eqb kStringTerminator) (s_data s).

(* src/text/rdsstring.cc:126-128  vector::resize(n, ' ') *)
Definition s_resize (s : RDSString) (n : N) : RDSString :=
  mkRDSString (s_encoding s) (s_direction s)
    (firstn (N.to_nat n) (s_data s) ++ repeat kBlankSpace (N.to_nat n - length (s_data s)))
    (s_prev_pos s) (s_sequential_length s) (s_last_complete_string s).

(* src/text/rdsstring.cc:130-136 *)
Definition s_setEncoding (s : RDSString) (e : Encoding) : RDSString :=
  mkRDSString e (s_direction s) (s_data s) (s_prev_pos s) (s_sequential_length s)
    (s_last_complete_string s).
Definition s_setDirection (s : RDSString) (d : Direction) : RDSString :=
  mkRDSString (s_encoding s) d (s_data s) (s_prev_pos s) (s_sequential_length s)
    (s_last_complete_string s).

(* src/text/rdsstring.cc:202-204 *)
Definition s_isComplete (s : RDSString) : bool :=
  s_getExpectedLength s <=? s_getReceivedLength s.

(* src/text/rdsstring.cc:158-168: the bytes up to the expected length, blanks for positions that
   were not received in sequence, for terminators and for zero bytes *)
Fixpoint getData_loop (d : bytes) (i seq : N) (len : nat) : bytes :=
  match len, d with
  | S n, b :: r =>
      (if (i <? seq) && negb (b =? kStringTerminator) && negb (b =? 0) then b else kBlankSpace)
      :: getData_loop r (i + 1) seq n
  | _, _ => []
  end.
Definition s_getData (s : RDSString) : bytes :=
  getData_loop (s_data s) 0 (s_sequential_length s) (N.to_nat (s_getExpectedLength s)).

(* src/text/rdsstring.cc:139-156.  [ucs2] stands for iconv from UCS-2 to UTF-8 (src:62-68); None
   is a conversion error, which iconvpp reports by throwing. *)
Definition s_str (ucs2 : bytes -> option bytes) (s : RDSString) : option bytes :=
  match s_encoding s with
  | EncBasic => Some (flat_map getRDSCharString (s_getData s))
  | EncUCS2 => ucs2 (s_getData s)
  | EncUTF8 => Some (s_getData s)
  end.

(* src/text/rdsstring.cc:206-210 *)
Definition s_clear (s : RDSString) : RDSString :=
  mkRDSString (s_encoding s) (s_direction s) (s_data s) (s_prev_pos s) 0 [].

(* src/text/rdsstring.cc:77-98 *)
Definition s_set (ucs2 : bytes -> option bytes) (s : RDSString) (pos byte : N) : RDSString :=
  if N.of_nat (length (s_data s)) <=? pos then s
  else
    let data := list_set (s_data s) (N.to_nat pos) byte in
    let seq :=
      if (pos =? 0) || ((pos =? s_prev_pos s + 1) && (s_sequential_length s =? pos))
      then pos + 1 else s_sequential_length s in
    let s1 := mkRDSString (s_encoding s) (s_direction s) data (s_prev_pos s) seq
                (s_last_complete_string s) in
    if s_isComplete s1 then
      match s_str ucs2 s1 with
      | None => s_clear s1
      | Some text => mkRDSString (s_encoding s) (s_direction s) data pos seq text
      end
    else mkRDSString (s_encoding s) (s_direction s) data pos seq (s_last_complete_string s).

(* src/text/rdsstring.cc:100-103 *)
Definition s_set2 (ucs2 : bytes -> option bytes) (s : RDSString) (pos byte1 byte2 : N) : RDSString :=
  s_set ucs2 (s_set ucs2 s pos byte1) (pos + 1) byte2.

(* src/text/rdsstring.hh:29-43  charlen(str, byte_start): [t] is the rest of the string from
   byte_start.  (One more than the number of continuation bytes at the start; 0 at the end.) *)
Fixpoint charlen (t : bytes) : N :=
  match t with
  | [] => 0
  | b :: r =>
      if N.land b 0xC0 =? 0x80
      then (let n := charlen r in if n =? 0 then 0 else n + 1)
      else 1
  end.

(* The two loops src/text/rdsstring.cc:178-185 and 188-195: advance n characters; None is the early
   return of "" *)
Fixpoint advance (n : nat) (str : bytes) (pos : N) : option N :=
  match n with
  | O => Some pos
  | S k =>
      let clen := charlen (skipn (N.to_nat pos) str) in
      if clen =? 0 then None else advance k str (pos + clen)
  end.

(* src/text/rdsstring.cc:176-200 *)
Definition s_getLastCompleteSubstring (s : RDSString) (start len : N) : bytes :=
  let str := s_last_complete_string s in
  match advance (N.to_nat start) str 0 with
  | None => []
  | Some byte_start =>
      match advance (N.to_nat len) str byte_start with
      | None => []
      | Some byte_end =>
          if byte_end <? N.of_nat (length str)
          then firstn (N.to_nat (byte_end - byte_start)) (skipn (N.to_nat byte_start) str)
          else []
      end
  end.

(* src/text/radiotext.hh:24-37 *)
Record Plus := mkPlus {
  plus_exists : bool;
  plus_cb : bool;
  plus_scb : N;
  plus_template_num : N;
  plus_toggle : bool;
  plus_item_running : bool
}.
Definition Plus_default : Plus := mkPlus false false 0 0 false false.

(* src/text/radiotext.hh:12-43 *)
Record RadioText := mkRadioText {
  rt_text : RDSString;
  rt_plus : Plus;
  rt_previous_potentially_complete_message : bytes;
  rt_ab : bool          (* an int that only ever holds 0 or 1 *)
}.
Definition RadioText_default : RadioText :=
  mkRadioText (RDSString_new 64) Plus_default [] false.

Definition rt_set_text (r : RadioText) (t : RDSString) : RadioText :=
  mkRadioText t (rt_plus r) (rt_previous_potentially_complete_message r) (rt_ab r).
Definition rt_set_plus (r : RadioText) (p : Plus) : RadioText :=
  mkRadioText (rt_text r) p (rt_previous_potentially_complete_message r) (rt_ab r).
Definition rt_set_previous (r : RadioText) (m : bytes) : RadioText :=
  mkRadioText (rt_text r) (rt_plus r) m (rt_ab r).

(* src/text/radiotext.hh:15-19 *)
Definition rt_isABChanged (r : RadioText) (new_ab : bool) : bool * RadioText :=
  (negb (Bool.eqb (rt_ab r) new_ab),
   mkRadioText (rt_text r) (rt_plus r) (rt_previous_potentially_complete_message r) new_ab).

(* src/text/radiotext.hh:20-22 *)
Definition rt_update (ucs2 : bytes -> option bytes) (r : RadioText) (pos b1 b2 : N) : RadioText :=
  rt_set_text r (s_set2 ucs2 (rt_text r) pos b1 b2).

(* src/text/radiotext.hh:45-53  ProgramServiceName *)
Definition ProgramServiceName_default : RDSString := RDSString_new 8.

(* src/text/radiotext.hh:55-65  LongPS *)
Definition LongPS_default : RDSString := s_setEncoding (RDSString_new 32) EncUTF8.

(* src/text/radiotext.hh:67-83  PTYName *)
Record PTYName := mkPTYName { pn_text : RDSString; pn_ab : bool }.
Definition PTYName_default : PTYName := mkPTYName (RDSString_new 8) false.

(* src/text/radiotext.hh:75-79 *)
Definition pn_update (ucs2 : bytes -> option bytes) (t : RDSString) (pos c1 c2 c3 c4 : N) : RDSString :=
  s_set2 ucs2 (s_set2 ucs2 t pos c1 c2) (pos + 2) c3 c4.
