(* Traffic messages (TMC, ISO 14819-1) as transmitted: independent of the model. *)
From Coq Require Import SpecFloat DecimalString.
From Verif.Model Require Import Base Group Tmc.
From Verif.Spec Require Import Numerals JsonText Session Identity History Texts Apps Fields Calendar Frequencies.

(* What a group brings for open data applications: an assignment (group 3A: for which groups, the number
   of the application, and a message to it), or a group of a type in which applications can be sent, all
   of whose blocks 2 to 4 were received. *)
Inductive app_item :=
| Announced (t : GroupType) (app message : N)
| AppData (t : GroupType) (b2 b3 b4 : N).
Definition app_items (x : Group * N) : list app_item :=
  let '(g, w) := x in
  map (fun ta => Announced (fst ta) (snd ta) (blk_data (g_b3 g))) (announcement x) ++
  if (w =? 0) && g_has_type g && existsb (GroupType_eqb (g_type g)) for_applications &&
     blk_is_received (g_b2 g) && blk_is_received (g_b3 g) && blk_is_received (g_b4 g)
  then [AppData (g_type g) (blk_data (g_b2 g)) (blk_data (g_b3 g)) (blk_data (g_b4 g))] else [].

(* The two application numbers of TMC, and the group type reserved for it *)
Definition is_tmc (a : N) : bool := (a =? 0xCD46) || (a =? 0xCD47).
Definition type_8A : GroupType := mkGroupType 8 VA.

(* TMC is assigned to groups 8A only *)
Definition tmc_in_8A (l : list app_item) : Prop :=
  forall t a m, In (Announced t a m) l -> is_tmc a = true -> t = type_8A.
(* The system information of variant 0 gives the number of the location table; 0: encrypted *)
Definition variant (m : N) : N := m / 16384.
Definition table_number (m : N) : N := (m / 64) mod 64.
Definition never_encrypted (l : list app_item) : Prop :=
  forall t a m, In (Announced t a m) l -> is_tmc a = true -> variant m = 0 -> table_number m <> 0.
(* Groups 8A are not taken away from TMC *)
Definition stays_tmc (l : list app_item) : Prop :=
  forall a m, In (Announced type_8A a m) l -> is_tmc a = true.

(* The user messages: five bits of block 2, blocks 3 and 4 *)
Definition user_groups (l : list app_item) : list (N * N * N) :=
  flat_map (fun i => match i with
                     | AppData t b2 b3 b4 => if GroupType_eqb t type_8A then [(b2 mod 32, b3, b4)] else []
                     | Announced _ _ _ => []
                     end) l.
(* Of these, the groups of multi-group messages, with the continuity index 1 to 7 *)
Definition multi_groups (l : list app_item) : list (N * (N * N)) :=
  flat_map (fun u => let '(x, y, z) := u in if (1 <=? x) && (x <=? 7) then [(x, (y, z))] else []) (user_groups l).

(* A message: the direction and number of steps of its extent, an event, a location and additional
   fields, each a label and a number *)
Record tmc_message := mkTmcMessage {
  ms_negative : bool; ms_extent : N; ms_event : N; ms_location : N; ms_fields : list (N * N)
}.

(* The number of bits of the data of each label *)
Definition label_size (l : N) : nat :=
  nth (N.to_nat l) [3; 3; 5; 5; 5; 8; 8; 8; 8; 11; 16; 16; 16; 16; 0]%nat 0%nat.
Definition field_ok (f : N * N) : Prop := fst f <= 14 /\ snd f < 2 ^ N.of_nat (label_size (fst f)) /\ f <> (0, 0).
Definition message_ok (m : tmc_message) : Prop :=
  ms_extent m < 8 /\ ms_event m < 2048 /\ ms_location m < 65536 /\ Forall field_ok (ms_fields m).

(* The lowest n bits of a number, highest first *)
Fixpoint bits_of (n : nat) (w : N) : list bool :=
  match n with
  | O => []
  | S k => N.odd (w / 2 ^ N.of_nat k) :: bits_of k w
  end.
Definition coded_field (f : N * N) : list bool := bits_of 4 (fst f) ++ bits_of (label_size (fst f)) (snd f).

(* Blocks 3 and 4 of the groups of a multi-group message: the first group carries event and location;
   the others carry 28 bits each of the fields, filled up with zeros, and count down to the last one,
   which is number 0; the second group is marked. *)
Definition head_word (m : tmc_message) : N :=
  (if ms_negative m then 16384 else 0) + 2048 * ms_extent m + ms_event m.
Definition sent_in (m : tmc_message) (groups : list (N * N)) : Prop :=
  exists rest k, groups = (32768 + head_word m, ms_location m) :: rest /\
    flat_map (fun yz => bits_of 12 (fst yz) ++ bits_of 16 (snd yz)) rest =
    flat_map coded_field (ms_fields m) ++ repeat false k /\
    forall i y z, nth_error rest i = Some (y, z) ->
      y / 4096 = (if Nat.eqb i 0 then 4 else 0) + N.of_nat (length rest - 1 - i).

(* What the fields mean *)
Definition all_of (label : N) (fs : list (N * N)) : list N :=
  flat_map (fun f => if fst f =? label then [snd f] else []) fs.
Definition last_of (label : N) (fs : list (N * N)) : option N :=
  match rev (all_of label fs) with [] => None | d :: _ => Some d end.
(* the number of control codes c (label 1) *)
Definition controls (c : N) (fs : list (N * N)) : N :=
  N.of_nat (length (filter (N.eqb c) (all_of 1 fs))).
Definition extent_of (m : tmc_message) : N :=
  ms_extent m + 8 * controls 6 (ms_fields m) + 16 * controls 7 (ms_fields m).

(* Of the fields, those that are wholly in the 28 bits of the second group *)
Definition in_second_group (fs fs1 : list (N * N)) : Prop :=
  (length (flat_map coded_field fs1) <= 28)%nat /\
  exists fs2, fs = fs1 ++ fs2 /\
    match fs2 with [] => True | f :: _ => (28 < length (flat_map coded_field (fs1 ++ [f])))%nat end.
Definition with_fields (m : tmc_message) (fs : list (N * N)) : tmc_message :=
  mkTmcMessage (ms_negative m) (ms_extent m) (ms_event m) (ms_location m) fs.

(* Times *)
Definition months : list string :=
  ["January"; "February"; "March"; "April"; "May"; "June"; "July"; "August"; "September"; "October";
   "November"; "December"]%string.
Definition time_text (d : N) : bytes :=
  if d <? 96 then time_of_day (d / 4) (15 * (d mod 4))
  else if d <=? 200 then
    nth (N.to_nat ((d - 96) / 24))
      [bs "at "; bs "after 1 day at "; bs "after 2 days at "; bs "after 3 days at "; bs "after 4 days at "] [] ++
    time_of_day ((d - 96) mod 24) 0
  else if d <=? 231 then
    bs "day " ++ (if d - 200 <? 10 then [48 + (d - 200)] else Calendar.two_digits (Z.of_N (d - 200))) ++ bs " of the month"
  else (if (d - 232) mod 2 =? 0 then bs "mid-" else bs "end of ") ++ bs (nth (N.to_nat ((d - 232) / 2)) months EmptyString).

(* Encryption of locations: rotated to the right by nrot places, then combined with a pattern *)
Definition rotated_right (n v : N) : N := v / 2 ^ n + (v mod 2 ^ n) * 2 ^ (16 - n).
Definition encrypted (nrot pattern v : N) : N := N.lxor (rotated_right nrot v) pattern.

(* A message in a single group: bit 3 of the five bits set, bit 4 clear; bit 15 of block 3 is another flag *)
Definition single_group (m : tmc_message) (flag : bool) (duration : N) : N * N * N :=
  (8 + duration, (if flag then 32768 else 0) + head_word m, ms_location m).
(* The group that gives the key number of an encrypted service (the five bits are 0) *)
Definition key_group (table service key : N) (u : N * N * N) : Prop :=
  let '(x, y, z) := u in x = 0 /\ y mod 32 = key /\ (y / 32) mod 64 = service /\ z / 1024 = table.

(* ---- what a line shows of a message ---- *)
Definition msg (k : string) : list string := ["tmc"%string; "message"%string; k].
(* d is the table of events: each row says in which directions the event applies, and how urgent it is *)
Definition directions (d : TmcData) (ms : tmc_message) : string :=
  let both := match td_event d (ms_event ms) with
              | Some e => match ev_directionality e with DBoth => true | DSingle => false end
              | None => false
              end in
  if xorb both (N.odd (controls 2 (ms_fields ms))) then "both"%string else "single"%string.
Definition urgency (d : TmcData) (ms : tmc_message) : string :=
  let start := match td_event d (ms_event ms) with
               | Some e => match ev_urgency e with UNone => 0 | UU => 1 | UX => 2 end
               | None => 0
               end in
  nth (N.to_nat ((start + controls 0 (ms_fields ms) + 2 * controls 1 (ms_fields ms)) mod 3)) ["none"; "U"; "X"]%string EmptyString.
Definition shows_text (line : bytes) (k : string) (t : option bytes) : Prop :=
  line_at (msg k) line = option_map VStr t.
(* A decimal number followed by a unit *)
Definition shows_quantity (line : bytes) (k : string) (before : bytes) (n : option N) (after : bytes) : Prop :=
  match n with
  | Some n => exists t, says line (msg k) (VStr (before ++ t ++ after)) /\ numeral 10 t = Some n
  | None => line_at (msg k) line = None
  end.
Definition shows_number (line : bytes) (k : string) (n : option N) : Prop :=
  match n with
  | Some n => exists t, says line (msg k) (VNum t) /\ numeral 10 t = Some n
  | None => line_at (msg k) line = None
  end.

(* ---- descriptions ---- *)
(* Decimal numbers; with one digit after the point *)
Definition decimal (n : Z) : bytes := bs (NilZero.string_of_int (Z.to_int n)).
Definition tenths (n : Z) : bytes := decimal (n / 10) ++ bs "." ++ decimal (n mod 10).
(* The quantities in the descriptions of events: the codes of some kinds have 5 bits, of the others 8 *)
Definition five_bits (t : QuantifierType) : bool :=
  match t with QSmallNumber | QNumber | QLessThanMetres | QPercent | QUptoKmh | QUptoTime => true | _ => false end.
(* The text of a quantity; None: the code has no meaning *)
Definition from_1 (n c : Z) (t : bytes) : option bytes := if ((1 <=? c) && (c <=? n))%Z then Some t else None.
Definition quantity (t : QuantifierType) (code : N) : option bytes :=
  let c := Z.of_N code in
  let c5 := (if c =? 0 then 32 else c)%Z in
  match t with
  | QSmallNumber =>      (* 1 to 28, 30, 32, 34, 36 *)
      from_1 32 c5 (decimal (if c5 <=? 28 then c5 else 30 + 2 * (c5 - 29))%Z)
  | QNumber =>           (* 1 to 4; 10, 20 to 100; 150, 200 to 1000 *)
      from_1 32 c5 (decimal (if c5 <=? 4 then c5 else if c5 <=? 14 then 10 + 10 * (c5 - 5) else 150 + 50 * (c5 - 15))%Z)
  | QLessThanMetres =>   (* 10, 20 to 320 *)
      from_1 32 c5 (bs "less than " ++ decimal (10 * c5)%Z ++ bs " metres")
  | QPercent =>          (* 0, 5 to 100 *)
      if (c =? 0)%Z then Some (bs "0 %") else from_1 20 c (decimal (5 * c)%Z ++ bs " %")
  | QUptoKmh =>          (* 5, 10 to 160 *)
      from_1 32 c5 (bs "of up to " ++ decimal (5 * c5)%Z ++ bs " km/h")
  | QUptoTime =>         (* 5, 10 to 50 minutes; 1, 2 to 12 hours; 18, 24 to 72 hours *)
      from_1 32 c5 (bs "of up to " ++
        (if c5 <=? 10 then decimal (5 * c5) ++ bs " minutes"
         else if c5 <=? 22 then decimal (1 + (c5 - 11)) ++ bs " hours"
         else decimal (18 + 6 * (c5 - 23)) ++ bs " hours")%Z)
  | QDegreesCelsius =>   (* -50, -49 to +204 *)
      from_1 255 c (decimal (-50 + (c - 1))%Z ++ bs " degrees Celsius")
  | QTime =>             (* 00:00, 00:10 to 23:50 *)
      from_1 144 c (time_of_day ((code - 1) / 6) (10 * ((code - 1) mod 6)))
  | QTonnes =>           (* 0.1, 0.2 to 10.0; 10.5, 11.0 to 87.5 *)
      from_1 255 c (tenths (if c <=? 100 then c else 105 + 5 * (c - 101))%Z ++ bs " tonnes")
  | QMetres =>
      from_1 255 c (tenths (if c <=? 100 then c else 105 + 5 * (c - 101))%Z ++ bs " metres")
  | QUptoMillimetres =>
      from_1 255 c (bs "of up to " ++ decimal c ++ bs " millimetres")
  | QMHz => from_1 204 c (tenths (Z.of_N (freq_kHz (TxFM code) / 100)) ++ bs " MHz")
  | QkHz => from_1 135 c (decimal (Z.of_N (freq_kHz (TxLFMF code))) ++ bs " kHz")
  end.

(* A text with another one in place of each mark "(Q)" *)
Inductive filled_in (q : bytes) : bytes -> bytes -> Prop :=
| filled_end : filled_in q [] []
| filled_mark : forall s t, filled_in q s t -> filled_in q (bs "(Q)" ++ s) (q ++ t)
| filled_other : forall c s t, (forall r, c :: s <> bs "(Q)" ++ r) -> filled_in q s t -> filled_in q (c :: s) (c :: t).
Definition capital (s : bytes) : bytes :=
  match s with c :: r => (if (97 <=? c) && (c <=? 122) then c - 32 else c) :: r | [] => [] end.

(* The events of a message, each with the fields that follow it, up to the next event *)
Fixpoint reports (event : N) (fs : list (N * N)) : list (N * list (N * N)) :=
  match fs with
  | [] => [(event, [])]
  | f :: r =>
      if fst f =? 9 then (event, []) :: reports (snd f) r
      else match reports event r with (e, own) :: t => (e, f :: own) :: t | [] => [] end
  end.
(* The code of the quantity of an event: the first among these fields of the size that its kind has *)
Definition quantity_code (row : Event) (own : list (N * N)) : option N :=
  if ev_allows_quantifier row then hd_error (all_of (if five_bits (ev_quantifier_type row) then 4 else 5) own) else None.
(* Its sentence *)
Definition sentence (row : Event) (own : list (N * N)) (s : bytes) : Prop :=
  exists t, s = capital t /\
    match quantity_code row own with
    | None => t = ev_description row
    | Some code => exists q, quantity (ev_quantifier_type row) code = Some q /\ filled_in q (ev_description_with_quantifier row) t
    end.
(* The events in the table of events, with their rows; and the texts of the supplementary codes *)
Definition known_reports (d : TmcData) (ms : tmc_message) : list (Event * list (N * N)) :=
  flat_map (fun r => match td_event d (fst r) with Some row => [(row, snd r)] | None => [] end) (reports (ms_event ms) (ms_fields ms)).
Definition supplements (d : TmcData) (ms : tmc_message) : list bytes :=
  flat_map (fun c => match td_suppl d c with Some t => [capital t] | None => [] end) (all_of 6 (ms_fields ms)).
Fixpoint punctuated (l : list bytes) : bytes :=
  match l with [] => [] | [s] => s ++ bs "." | s :: r => s ++ bs ". " ++ punctuated r end.
(* All codes of quantities have a meaning *)
Definition meaningful (d : TmcData) (ms : tmc_message) : Prop :=
  Forall (fun r => forall code, quantity_code (fst r) (snd r) = Some code -> quantity (ev_quantifier_type (fst r)) code <> None) (known_reports d ms).
Definition shows_description (d : TmcData) (line : bytes) (ms : tmc_message) : Prop :=
  exists l, Forall2 (fun r s => sentence (fst r) (snd r) s) (known_reports d ms) l /\
    shows_text line "description" (match l ++ supplements d ms with [] => None | all => Some (punctuated all) end).

(* Everything but the location *)
Definition shows_content (d : TmcData) (line : bytes) (ms : tmc_message) : Prop :=
  let fs := ms_fields ms in
  shows_numbers line (msg "event_codes") (ms_event ms :: all_of 9 fs) /\
  shows_numbers line (msg "supplementary_codes") (all_of 6 fs) /\
  shows_numbers line (msg "diversion_route") (all_of 10 fs) /\
  shows_quantity line "extent" (if ms_negative ms then bs "-" else bs "+") (Some (extent_of ms)) [] /\
  shows_quantity line "speed_limit" [] (option_map (fun v => 5 * v) (last_of 3 fs)) (bs " km/h") /\
  shows_text line "starts" (option_map time_text (last_of 7 fs)) /\
  shows_text line "until" (option_map time_text (last_of 8 fs)) /\
  shows_text line "direction" (Some (bs (directions d ms))) /\
  shows_text line "urgency" (Some (bs (urgency d ms))) /\
  shows_number line "update_class" (option_map ev_update_class (td_event d (ms_event ms))) /\
  (meaningful d ms -> shows_description d line ms).
Definition shows_message (d : TmcData) (line : bytes) (ms : tmc_message) : Prop :=
  shows_content d line ms /\ shows_number line "location" (Some (ms_location ms)) /\ shows_number line "encrypted_location" None.

(* The same message with its location encrypted *)
Definition scrambled (nrot pattern : N) (ms : tmc_message) : tmc_message :=
  mkTmcMessage (ms_negative ms) (ms_extent ms) (ms_event ms) (encrypted nrot pattern (ms_location ms)) (ms_fields ms).
(* The key of a service: its number of places and its pattern *)
Definition key_of (d : TmcData) (number nrot pattern : N) : Prop :=
  exists k, td_key d number = Some k /\ key_nrot k = nrot /\ key_nrot k < 16 /\ (key_xorval k * 2 ^ key_xorstart k) mod 65536 = pattern.

(* The state of the service: system information of variant 0 has been received; for an encrypted service
   a key number too. *)
Definition tmc_started (l : list app_item) : Prop :=
  exists t a m, In (Announced t a m) l /\ is_tmc a = true /\ variant m = 0.
Definition always_encrypted (l : list app_item) : Prop :=
  forall t a m, In (Announced t a m) l -> is_tmc a = true -> variant m = 0 -> table_number m = 0.
Definition gives_key (i : app_item) : Prop := exists y z, In (0, y, z) (user_groups [i]).
(* the last key number received *)
Definition last_key (l : list app_item) (key : N) : Prop :=
  exists l1 i l2 y z, l = l1 ++ i :: l2 /\ tmc_started l1 /\ user_groups [i] = [(0, y, z)] /\ y mod 32 = key /\
    forall x, In x l2 -> ~ gives_key x.
(* the last number of a location table received, by an unencrypted service *)
Definition last_table (l : list app_item) (table : N) : Prop :=
  exists l1 t a m l2, l = l1 ++ Announced t a m :: l2 /\ is_tmc a = true /\ variant m = 0 /\ table_number m = table /\
    (forall x, In x l2 -> ~ gives_key x) /\
    (forall t a m, In (Announced t a m) l2 -> is_tmc a = true -> variant m = 0 -> table_number m = table).

(* ---- places ---- *)
(* The points along a road from a location on *)
Inductive along (points : N -> option Point) (next : Point -> N) : N -> list Point -> Prop :=
| along_end : forall c, along points next c []
| along_step : forall c p l, points c = Some p -> along points next (next p) l -> along points next c (p :: l).
(* Number of the location after those points *)
Definition next_after (next : Point -> N) (c : N) (l : list Point) : N := fold_left (fun _ p => next p) l c.
Definition shown_float (t : bytes) : jval := if bytes_eqb t (bs "null") then VNull else VNum t.
Definition shown_point (env : spec_float -> bytes) (p : Point) : jval :=
  VObj [(bs "lat", shown_float (env (pt_lat p))); (bs "lon", shown_float (env (pt_lon p)))].
Definition place_members : list string := ["coordinates"; "span_from"; "span_to"; "road_number"; "road_name"]%string.
Definition unless_empty (s : bytes) : option bytes := match s with [] => None | _ => Some s end.
Definition if_known {A B} (x : option A) (f : A -> option B) : option B := match x with Some a => f a | None => None end.
Definition either {A} (x y : option A) : option A := match x with Some _ => x | None => y end.
(* What is shown for a location and an extent: the coordinates of the points along the road in the
   direction of the message, as many as the extent says and one more, or fewer if the road ends; the names
   of the first and of the last of them if there are several and both have names; the number and the name
   of the road of the location *)
Definition shows_place (env : spec_float -> bytes) (line : bytes) (db : LocationDatabase) (ms : tmc_message) : Prop :=
  let next p := if ms_negative ms && negb (extent_of ms =? 0) then pt_neg_off p else pt_pos_off p in
  match db_points db (ms_location ms) with
  | None => Forall (fun k => line_at (msg k) line = None) place_members
  | Some p =>
    exists points, says line (msg "coordinates") (VArr (map (shown_point env) points)) /\
      along (db_points db) next (ms_location ms) points /\
      (length points <= S (N.to_nat (extent_of ms)))%nat /\
      (length points = S (N.to_nat (extent_of ms)) \/ db_points db (next_after next (ms_location ms) points) = None) /\
      let first := unless_empty (pt_name1 p) in
      let last := unless_empty (pt_name1 (last points p)) in
      let several := (2 <=? length points)%nat in
      shows_text line "span_from" (if several then if_known last (fun _ => first) else None) /\
      shows_text line "span_to" (if several then if_known first (fun _ => last) else None) /\
      let road := db_roads db (pt_roa_lcd p) in
      shows_text line "road_number" (if_known road (fun r => unless_empty (road_number r))) /\
      shows_text line "road_name" (if_known road (fun r => either (unless_empty (road_name r)) (unless_empty (pt_road_name p))))
  end.

(* Reception of a station p with its traffic messages: gs0 before, gs since the program has settled on p;
   groups with something for applications carry the PI code; TMC is assigned to groups 8A and only to them *)
Definition items_of (gs : list (Z * Group * N)) : list app_item := flat_map app_items (groups_of gs).
Definition traffic_from (p : N) (gs0 gs : list (Z * Group * N)) : Prop :=
  Forall received_group (gs0 ++ gs) /\ p <> 0 /\ three p (pis gs0) /\ Forall (stays p) gs /\
  Forall (fun x => app_items (snd (fst x), snd x) <> [] -> carried_pi x = Some p) gs /\
  tmc_in_8A (items_of (gs0 ++ gs)) /\ stays_tmc (items_of (gs0 ++ gs)).

(* ---- which groups complete a message ---- *)
(* the last group of a multi-group message *)
Definition last_of_message (y : N) : Prop := y < 32768 /\ (y / 4096) mod 4 = 0.
(* After the user messages l, the group (x, y, z) completes the message that began with blocks 3 and 4
   equal to yh and zh: it is a single group, or the last group of a multi-group message whose first group
   came before it, with only groups of the same message in between and no other last group *)
Definition completes (l : list app_item) (x y z yh zh : N) : Prop :=
  (8 <= x < 16 /\ yh = y /\ zh = z) \/
  (1 <= x <= 7 /\ last_of_message y /\ 32768 <= yh /\
   exists a b, multi_groups l = a ++ (x, (yh, zh)) :: b /\ Forall (fun q => fst q = x /\ ~ last_of_message (fst (snd q))) b).

(* ---- tuning information ---- *)
(* Four of the eight characters of the name of the service provider, in user groups 20 and 21 *)
Definition provider_part (u : N * N * N) : writes :=
  let '(x, y, z) := u in
  if (x =? 20) || (x =? 21) then place (4 * (x - 20)) [hi y; lo y; hi z; lo z] else [].
Definition provider_writes (l : list app_item) : writes := flat_map provider_part (user_groups l).
