(* Groups of the additional data streams (RDS2): what their fields mean.  Independent of the model. *)
From Verif.Model Require Import Base Group.
From Verif.Spec Require Import Numerals JsonText Session Identity History Files Labels.

(* The words of a group of an additional data stream, if all of it was received *)
Definition words_c (x : Group * N) : option (N * N * N * N) :=
  let '(g, w) := x in
  if type_c g w && all_received g
  then Some (blk_data (g_b1 g), blk_data (g_b2 g), blk_data (g_b3 g), blk_data (g_b4 g))
  else None.

(* The first word of a group says what it is: the two highest bits and the six bits after them. *)
Inductive purpose : Set :=
| Segment (pipe : N)            (* of a file *)
| Channel_data (channel : N)    (* for the application of the channel *)
| Assignment (channel : N)      (* of an application to a channel *)
| Tunnelled                     (* a group of type A or B *)
| Assignment_other              (* assignments in other forms *)
| Other_purpose.
Definition purpose_of (b1 : N) : purpose :=
  let high := b1 / 256 in
  if high =? 0 then Tunnelled
  else if (32 <=? high) && (high <? 48) then Segment (high - 32)
  else if (64 <=? high) && (high <? 128) then Channel_data (high - 64)
  else if high =? 128 then (if b1 mod 256 <? 64 then Assignment (b1 mod 64) else Assignment_other)
  else Other_purpose.

(* The application assigned to the channel: the history is given newest first *)
Definition assigned_in (x : Group * N) : option (N * N) :=
  match words_c x with
  | Some (b1, b2, _, _) => match purpose_of b1 with Assignment ch => Some (ch, b2) | _ => None end
  | None => None
  end.
Fixpoint last_assigned (ch : N) (h : list (Group * N)) : option N :=
  match h with
  | [] => None
  | x :: r => match assigned_in x with
              | Some (ch', app) => if ch' =? ch then Some app else last_assigned ch r
              | None => last_assigned ch r
              end
  end.

(* The line has hexadecimal digits, or a list of numbers, at the path if b, and otherwise nothing *)
Definition if_digits (b : bool) (digits : nat) (line : bytes) (path : list string) (n : N) : Prop :=
  if b then exists t, says line path (VStr t) /\ hex_digits digits t n else line_at path line = None.
Definition if_list (b : bool) (line : bytes) (path : list string) (l : list N) : Prop :=
  if b then says_list line path l else line_at path line = None.

Definition bytes_of (l : list N) : list N := flat_map (fun x => [x / 256; x mod 256]) l.
Local Open Scope string_scope.
Local Open Scope N_scope.
Local Open Scope list_scope.
(* What an assignment of application b2 to a channel shows: channels below 16 are for files, and the four
   highest bits of the third word say what is announced about the file. *)
Definition shows_assignment (line : bytes) (channel b2 b3 b4 : N) : Prop :=
  let file := channel <? 16 in
  let kind := b3 / 4096 in
  let mode := (b3 / 512) mod 8 in
  let about := file && (kind =? 0) in
  let chunk := file && (kind =? 1) && negb (mode =? 0) && negb (mode =? 6) in
  says_n line ["open_data_app"; "channel"] channel /\
  says_n line ["open_data_app"; "oda_aid"] b2 /\
  (forall name, In (b2, name) app_names -> says line ["open_data_app"; "app_name"] (VStr (bs name))) /\
  if_n about line ["rft"; "file_info"; "version"] ((b3 / 256) mod 8) /\
  if_n about line ["rft"; "file_info"; "id"] ((b3 / 4) mod 64) /\
  if_n about line ["rft"; "file_info"; "size"] ((b3 mod 4) * 65536 + b4) /\
  if_value about line ["rft"; "file_info"; "has_crc"] (VBool (N.testbit b3 11)) /\
  if_n (file && (kind =? 1) && (mode =? 0)) line ["rft"; "crc_info"; "file_crc16"] b4 /\
  if_n chunk line ["rft"; "crc_info"; "chunk_crc16"] b4 /\
  if_n chunk line ["rft"; "crc_info"; "chunk_address"] (b3 mod 512) /\
  if_n chunk line ["rft"; "crc_info"; "crc_mode"] mode /\
  if_digits (file && (2 <=? kind) && (kind <? 8)) 7 line ["open_data_app"; "file_oda_data"] ((b3 mod 4096) * 65536 + b4) /\
  if_digits (file && (8 <=? kind)) 7 line ["open_data_app"; "non_file_oda_data"] ((b3 mod 4096) * 65536 + b4) /\
  if_list (negb file) line ["open_data_app"; "app_data"] (bytes_of [b3; b4]).
(* What a group of an additional data stream shows *)
Definition shows_c (line : bytes) (b1 b2 b3 b4 : N) : Prop :=
  match purpose_of b1 with
  | Segment pipe =>
    says_n line ["rft"; "data"; "pipe"] pipe /\
    says_n line ["rft"; "data"; "toggle"] ((b1 / 128) mod 2) /\
    says_n line ["rft"; "data"; "byte_address"] (5 * ((b1 mod 128) * 256 + b2 / 256)) /\
    says_list line ["rft"; "data"; "segment_data"] (b2 mod 256 :: bytes_of [b3; b4]) /\
    line_at ["rft"; "file_info"] line = None /\ line_at ["rft"; "crc_info"] line = None
  | Channel_data channel =>
    says_n line ["open_data_app"; "channel"] channel /\
    says_list line ["open_data_app"; "app_data"] (b1 mod 256 :: bytes_of [b2; b3; b4]) /\
    line_at ["rft"] line = None
  | Assignment channel => shows_assignment line channel b2 b3 b4 /\ line_at ["rft"; "data"] line = None
  | Other_purpose => says_list line ["open_data_app"; "data"] (bytes_of [b2; b3; b4]) /\ line_at ["rft"] line = None
  | Tunnelled | Assignment_other => line_at ["rft"] line = None /\ line_at ["open_data_app"] line = None
  end.
