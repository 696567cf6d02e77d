(* src/tmc/tmc.hh and src/tmc/tmc.cc: the Traffic Message Channel. *)
From Verif.Model Require Import Base Util Float Tables Freq RdsString Json.

(* src/tmc/tmc.hh:35-59 *)
Inductive TmcDirection := DirPositive | DirNegative.
Inductive EventDirectionality := DSingle | DBoth.
Inductive EventUrgency := UNone | UU | UX.
Inductive QuantifierType :=
| QSmallNumber | QNumber | QLessThanMetres | QPercent | QUptoKmh | QUptoTime
| QDegreesCelsius | QTime | QTonnes | QMetres | QUptoMillimetres | QMHz | QkHz.

(* src/tmc/tmc.hh:95-99; the members are uint8_t *)
Record ServiceKey := mkServiceKey { key_xorval : N; key_xorstart : N; key_nrot : N }.

(* src/tmc/tmc.hh:101-112.  nature, duration_type and show_duration are never read for output and
   are left out. *)
Record Event := mkEvent {
  ev_description : bytes;
  ev_description_with_quantifier : bytes;
  ev_quantifier_type : QuantifierType;
  ev_directionality : EventDirectionality;
  ev_urgency : EventUrgency;
  ev_update_class : N;
  ev_allows_quantifier : bool
}.
Definition Event_default : Event := mkEvent [] [] QSmallNumber DSingle UNone 0 false.

(* src/tmc/locationdb.hh:28-64 (the parts that are read).  The std::maps are functions. *)
Record Point := mkPoint {
  pt_name1 : bytes;
  pt_road_name : bytes;
  pt_roa_lcd : N;
  pt_neg_off : N;
  pt_pos_off : N;
  pt_lon : spec_float;
  pt_lat : spec_float
}.
Record Road := mkRoad { road_number : bytes; road_name : bytes }.
Record LocationDatabase := mkLocdb {
  db_ltn : N;
  db_points : N -> option Point;
  db_roads : N -> option Road
}.
Definition LocationDatabase_default : LocationDatabase :=
  mkLocdb 0 (fun _ => None) (fun _ => None).

(* The global tables of src/tmc/tmc.cc:52-54 and the key table of a service, as they are after
   loading: g_event_data, g_supplementary_data, g_location_databases (operator[] gives a default
   database for a missing number), service_key_table_. *)
Record TmcData := mkTmcData {
  td_event : N -> option Event;
  td_suppl : N -> option bytes;
  td_locdb : N -> LocationDatabase;
  td_key : N -> option ServiceKey
}.

(* src/tmc/tmc.cc:56-66  popBits: the value and the remaining deque; nothing is removed when there
   are fewer than len bits *)
Fixpoint popBits_loop (n : nat) (bits : list bool) (result : N) : N * list bool :=
  match n with
  | O => (result, bits)
  | S k => match bits with
           | b :: r => popBits_loop k r (u16 (N.lor (u16 (N.shiftl result 1)) (N.b2n b)))
           | [] => (result, bits)
           end
  end.
Definition popBits (bits : list bool) (len : N) : N * list bool :=
  if len <=? N.of_nat (length bits) then popBits_loop (N.to_nat len) bits 0 else (0, bits).

(* src/tmc/tmc.cc:68-73; value is a uint16_t, count a uint32_t *)
Definition rotl16 (value count : N) : N :=
  let count := N.land count 15 in
  N.lor (u16 (N.shiftl value count)) (u16 (N.shiftr value (N.land (u32_sub 0 count) 15))).

(* src/tmc/tmc.hh:118-125 *)
Record MessagePart := mkPart { part_received : bool; part_d0 : N; part_d1 : N }.
Definition MessagePart_default : MessagePart := mkPart false 0 0.

(* src/tmc/tmc.cc:77-78 *)
Definition field_size : list N := [3; 3; 5; 5; 5; 8; 8; 8; 8; 11; 16; 16; 16; 16; 0; 0].

(* n most significant bits of a word from bit position n-1 down: (data >> (n-1-b)) & 1, b = 0.. *)
Fixpoint word_bits (n : nat) (w : N) : list bool :=
  match n with
  | O => []
  | S k => N.testbit w (N.of_nat k) :: word_bits k w
  end.

(* src/tmc/tmc.cc:85-97: [i] is the part index of the head of the list *)
Fixpoint freeform_bits (parts : list MessagePart) (i second_gsi : N) : list bool :=
  match parts with
  | [] => []
  | p :: r =>
      if negb (part_received p) then []
      else
        (if (i =? 1) || (5 - second_gsi <=? i)
         then word_bits 12 (part_d0 p) ++ word_bits 16 (part_d1 p) else [])
        ++ freeform_bits r (i + 1) second_gsi
  end.

(* src/tmc/tmc.cc:100-113.  Each round removes at least the four label bits, so as many rounds as
   there are bits suffice. *)
Fixpoint split_fields (fuel : nat) (bits : list bool) : list (N * N) :=
  match fuel with
  | O => []
  | S f =>
      if 4 <? N.of_nat (length bits) then
        let '(label, bits) := popBits bits 4 in
        let size := nth (N.to_nat label) field_size 0 in
        if N.of_nat (length bits) <? size then []
        else
          let '(data, bits) := popBits bits size in
          if (label =? 0) && (data =? 0) then []
          else if label <=? 14 then (label, data) :: split_fields f bits
          else split_fields f bits
      else []
  end.

(* src/tmc/tmc.cc:76-116; [parts] is the std::array<MessagePart, 5> *)
Definition getFreeformFields (parts : list MessagePart) : list (N * N) :=
  let second_gsi := getBits 2 (part_d0 (nth 1 parts MessagePart_default)) 12 in
  let bits := freeform_bits (skipn 1 parts) 1 second_gsi in
  split_fields (length bits) bits.

(* src/tmc/tmc.cc:118-125 *)
Definition getUrgencyString (u : EventUrgency) : bytes :=
  match u with UNone => bs "none" | UU => bs "U" | UX => bs "X" end.

(* "%02d" through setfill('0') << setw(2) *)
Definition two_digits (v : N) : bytes := pad_left 48 2 (dec_string v).

Definition month_names : list string :=
  ["January"%string; "February"%string; "March"%string; "April"%string; "May"%string;
   "June"%string; "July"%string; "August"%string; "September"%string; "October"%string;
   "November"%string; "December"%string].

(* src/tmc/tmc.cc:127-157 *)
Definition getTimeString (field_data : N) : bytes :=
  if field_data <=? 95 then
    getHoursMinutesString (Z.of_N (field_data / 4)) (Z.of_N (15 * (field_data mod 4)))
  else if field_data <=? 200 then
    let days := (field_data - 96) / 24 in
    let hour := (field_data - 96) mod 24 in
    if days =? 0 then bs "at " ++ two_digits hour ++ bs ":00"
    else if days =? 1 then bs "after 1 day at " ++ two_digits hour ++ bs ":00"
    else bs "after " ++ dec_string days ++ bs " days at " ++ two_digits hour ++ bs ":00"
  else if field_data <=? 231 then
    bs "day " ++ dec_string (field_data - 200) ++ bs " of the month"
  else
    let month := (field_data - 232) / 2 in
    let end_or_mid := negb ((field_data - 232) mod 2 =? 0) in
    if month <? 12 then
      (if end_or_mid then bs "end of " else bs "mid-") ++ bs (nth (N.to_nat month) month_names EmptyString)
    else [].

(* src/tmc/tmc.cc:159-176 *)
Definition getScopeStrings (mgs : N) : list bytes :=
  (if getBool mgs 3 then [bs "inter-road"] else []) ++
  (if getBool mgs 2 then [bs "national"] else []) ++
  (if getBool mgs 1 then [bs "regional"] else []) ++
  (if getBool mgs 0 then [bs "urban"] else []).

(* src/tmc/tmc.cc:178-196 *)
Definition getQuantifierSize (q : QuantifierType) : N :=
  match q with
  | QSmallNumber | QNumber | QLessThanMetres | QPercent | QUptoKmh | QUptoTime => 5
  | _ => 8
  end.

(* src/tmc/tmc.cc:205-287: the text that replaces "(Q)"; int arithmetic *)
Definition quantifier_text (t : QuantifierType) (q_value : N) : bytes :=
  let q := Z.of_N (if (getQuantifierSize t =? 5) && (q_value =? 0) then 32 else q_value) in
  match t with
  | QSmallNumber => dec_string_Z (if (28 <? q)%Z then q + (q - 28) else q)
  | QNumber => dec_string_Z (if (q <=? 4)%Z then q
                             else if (q <=? 14)%Z then (q - 4) * 10 else (q - 12) * 50)
  | QLessThanMetres => bs "less than " ++ dec_string_Z (q * 10) ++ bs " metres"
  | QPercent => dec_string_Z (if (q =? 32)%Z then 0 else q * 5) ++ bs " %"
  | QUptoKmh => bs "of up to " ++ dec_string_Z (q * 5) ++ bs " km/h"
  | QUptoTime =>
      if (q <=? 10)%Z then bs "of up to " ++ dec_string_Z (q * 5) ++ bs " minutes"
      else if (q <=? 22)%Z then bs "of up to " ++ dec_string_Z (q - 10) ++ bs " hours"
      else bs "of up to " ++ dec_string_Z ((q - 20) * 6) ++ bs " hours"
  | QDegreesCelsius => dec_string_Z (q - 51) ++ bs " degrees Celsius"
  | QTime =>
      let minute := ((q - 1) * 10)%Z in
      getHoursMinutesString (Z.quot minute 60) (Z.rem minute 60)
  | QTonnes =>
      let deci := (if (q <=? 100)%Z then q else 100 + (q - 100) * 5)%Z in
      dec_string_Z (Z.quot deci 10) ++ bs "." ++ dec_string_Z (Z.rem deci 10) ++ bs " tonnes"
  | QMetres =>
      let deci := (if (q <=? 100)%Z then q else 100 + (q - 100) * 5)%Z in
      dec_string_Z (Z.quot deci 10) ++ bs "." ++ dec_string_Z (Z.rem deci 10) ++ bs " metres"
  | QUptoMillimetres => bs "of up to " ++ dec_string_Z q ++ bs " millimetres"
  | QMHz => cf_str (mkFreq (Z.to_N q) FM)
  | QkHz => cf_str (mkFreq (Z.to_N q) LF_MF)
  end.

(* std::regex_replace with the regex "\(Q\)": every occurrence, left to right.  None of the
   replacement texts contains '$'. *)
Fixpoint replace_Q (text s : bytes) : bytes :=
  match s with
  | 40 :: ((81 :: 41 :: r) as s') => text ++ replace_Q text r
  | c :: r => c :: replace_Q text r
  | [] => []
  end.

(* src/tmc/tmc.cc:198-290 *)
Definition getDescriptionWithQuantifier (event : Event) (q_value : N) : bytes :=
  replace_Q (quantifier_text (ev_quantifier_type event) q_value)
            (ev_description_with_quantifier event).

(* src/tmc/tmc.cc:292-296; std::toupper in the "C" locale *)
Definition ucfirst (s : bytes) : bytes :=
  match s with
  | c :: r => (if (97 <=? c) && (c <=? 122) then c - 32 else c) :: r
  | [] => []
  end.

(* src/tmc/tmc.cc:438-443 *)
Definition getEvent (d : TmcData) (code : N) : Event :=
  match td_event d code with Some e => e | None => Event_default end.

(* src/tmc/tmc.cc:427-433 *)
Definition isValidEventCode (d : TmcData) (code : N) : bool :=
  match td_event d code with Some _ => true | None => false end.

(* src/tmc/tmc.hh:127-168.  duration_, duration_type_, diversion_advised_ and length_affected_ are
   written but never read for output and are left out. *)
Record Message := mkMessage {
  m_is_encrypted : bool;
  m_was_encrypted : bool;
  m_direction : TmcDirection;
  m_extent : N;
  m_events : list N;
  m_supplementary : list N;
  m_quantifiers : list (N * N);
  m_diversion : list N;
  m_location : N;
  m_encrypted_location : N;
  m_is_complete : bool;
  m_time_until : option N;
  m_time_starts : option N;
  m_speed_limit : option N;
  m_directionality : EventDirectionality;
  m_urgency : EventUrgency;
  m_continuity_index : N;
  m_parts : list MessagePart
}.

(* src/tmc/tmc.hh:129-130 *)
Definition Message_new (is_loc_encrypted : bool) : Message :=
  mkMessage is_loc_encrypted is_loc_encrypted DirPositive 0 [] [] [] [] 0 0 false None None None
    DSingle UNone 0 (repeat MessagePart_default 5).

(* The first group of a message and a single-group message fill in the same members
   (src/tmc/tmc.cc:644-656 and 694-706): y is block 3, z is block 4. *)
Definition m_set_head (d : TmcData) (m : Message) (y z : N) : Message :=
  let events := m_events m ++ [getBits 11 y 0] in
  let e := getEvent d (nth 0 events 0) in
  mkMessage (m_is_encrypted m) (m_was_encrypted m)
    (if getBool y 14 then DirNegative else DirPositive)
    (getBits 3 y 11) events (m_supplementary m) (m_quantifiers m) (m_diversion m)
    (if m_is_encrypted m then m_location m else z)
    (if m_is_encrypted m then z else m_encrypted_location m)
    true (m_time_until m) (m_time_starts m) (m_speed_limit m)
    (ev_directionality e) (ev_urgency e) (m_continuity_index m) (m_parts m).

(* src/tmc/tmc.cc:642-657 *)
Definition pushSingle (d : TmcData) (m : Message) (y z : N) : Message := m_set_head d m y z.

(* src/tmc/tmc.cc:711-809: the effect of one free-form field *)
Definition apply_field (d : TmcData) (m : Message) (field : N * N) : Message :=
  let '(label, data) := field in
  let upd extent events suppl quant divn tuntil tstart speed dirn urg :=
    mkMessage (m_is_encrypted m) (m_was_encrypted m) (m_direction m) extent events suppl quant divn
      (m_location m) (m_encrypted_location m) (m_is_complete m) tuntil tstart speed dirn urg
      (m_continuity_index m) (m_parts m) in
  let same := m in
  let ext := m_extent m in
  let ev := m_events m in
  let su := m_supplementary m in
  let qu := m_quantifiers m in
  let dv := m_diversion m in
  let tu := m_time_until m in
  let ts := m_time_starts m in
  let sp := m_speed_limit m in
  let dn := m_directionality m in
  let ur := m_urgency m in
  let last := N.of_nat (length ev) - 1 in
  let quantifier size :=
    if negb (N.of_nat (length ev) =? 0) &&
       negb (existsb (fun p => N.eqb last (fst p)) qu) &&
       ev_allows_quantifier (getEvent d (nth (N.to_nat last) ev 0)) &&
       (getQuantifierSize (ev_quantifier_type (getEvent d (nth (N.to_nat last) ev 0))) =? size)
    then upd ext ev su (qu ++ [(last, data)]) dv tu ts sp dn ur
    else same in
  match label with
  | 1 =>
      match data with
      | 0 => upd ext ev su qu dv tu ts sp dn (match ur with UNone => UU | UU => UX | UX => UNone end)
      | 1 => upd ext ev su qu dv tu ts sp dn (match ur with UNone => UX | UU => UNone | UX => UU end)
      | 2 => upd ext ev su qu dv tu ts sp (match dn with DSingle => DBoth | DBoth => DSingle end) ur
      | 6 => upd (u16 (ext + 8)) ev su qu dv tu ts sp dn ur
      | 7 => upd (u16 (ext + 16)) ev su qu dv tu ts sp dn ur
      | _ => same           (* 3 and 5 change members that are not output; 4 is not implemented *)
      end
  | 3 => upd ext ev su qu dv tu ts (Some (data * 5)) dn ur
  | 4 => quantifier 5
  | 5 => quantifier 8
  | 6 => upd ext ev (su ++ [data]) qu dv tu ts sp dn ur
  | 7 => upd ext ev su qu dv tu (Some data) sp dn ur
  | 8 => upd ext ev su qu dv (Some data) ts sp dn ur
  | 9 => upd ext (ev ++ [data]) su qu dv tu ts sp dn ur
  | 10 => upd ext ev su qu (dv ++ [data]) tu ts sp dn ur
  | _ => same               (* 0 and 2 change members that are not output; 11-14 are ignored *)
  end.

(* src/tmc/tmc.cc:689-812 *)
Definition decodeMulti (d : TmcData) (m : Message) : Message :=
  let p0 := nth 0 (m_parts m) MessagePart_default in
  if negb (part_received p0) then m
  else
    let m := m_set_head d m (part_d0 p0) (part_d1 p0) in
    if part_received (nth 1 (m_parts m) MessagePart_default)
    then fold_left (apply_field d) (getFreeformFields (m_parts m)) m
    else m.

Definition m_set_parts (m : Message) (ci : N) (parts : list MessagePart) : Message :=
  mkMessage (m_is_encrypted m) (m_was_encrypted m) (m_direction m) (m_extent m) (m_events m)
    (m_supplementary m) (m_quantifiers m) (m_diversion m) (m_location m) (m_encrypted_location m)
    (m_is_complete m) (m_time_until m) (m_time_starts m) (m_speed_limit m) (m_directionality m)
    (m_urgency m) ci parts.

(* src/tmc/tmc.cc:814-818 *)
Definition m_clear (m : Message) : Message :=
  m_set_parts m 0 (map (fun p => mkPart false (part_d0 p) (part_d1 p)) (m_parts m)).

(* src/tmc/tmc.cc:659-687; parts_.at() is in range because the group number is 0..4 *)
Definition pushMulti (d : TmcData) (m : Message) (x y z : N) : Message :=
  let new_ci := getBits 3 x 0 in
  let gsi := getBits 2 y 12 in
  let '(current_group, is_last) :=
    if getBool y 15 then (0, false)
    else if getBool y 14 then (1, gsi =? 0)
    else (4 - gsi, gsi =? 0) in
  let m := m_set_parts m new_ci (list_set (m_parts m) (N.to_nat current_group) (mkPart true y z)) in
  if is_last then m_clear (decodeMulti d m) else m.

(* src/tmc/tmc.cc:829-848: the sentences of the description *)
Fixpoint event_sentences (d : TmcData) (quant : list (N * N)) (i : N) (events : list N) : list bytes :=
  match events with
  | [] => []
  | code :: r =>
      (match td_event d code with
       | Some event =>
           [ucfirst (match find_code i quant with
                     | Some q => getDescriptionWithQuantifier event q
                     | None => ev_description event
                     end)]
       | None => []
       end) ++ event_sentences d quant (i + 1) r
  end.

Definition suppl_sentences (d : TmcData) (codes : list N) : list bytes :=
  flat_map (fun code => match td_suppl d code with Some s => [ucfirst s] | None => [] end) codes.

Definition jnums (l : list N) : json := JArr (map JN l).

(* src/tmc/tmc.cc:820-876.  Every key is set at most once, in this order. *)
Definition m_json (d : TmcData) (m : Message) : json :=
  if negb (m_is_complete m) || (match m_events m with [] => true | _ => false end) then JNull
  else
    let sentences := event_sentences d (m_quantifiers m) 0 (m_events m) ++
                     suppl_sentences d (m_supplementary m) in
    let e0 := nth 0 (m_events m) 0 in
    JObj (
      [("event_codes"%string, jnums (m_events m))] ++
      (match m_supplementary m with [] => [] | l => [("supplementary_codes"%string, jnums l)] end) ++
      (if isValidEventCode d e0
       then [("update_class"%string, JN (ev_update_class (getEvent d e0)))] else []) ++
      (match sentences with
       | [] => []
       | l => [("description"%string, JStr (join l (bs ". ") ++ bs "."))]
       end) ++
      (match m_diversion m with [] => [] | l => [("diversion_route"%string, jnums l)] end) ++
      (match m_speed_limit m with
       | Some v => [("speed_limit"%string, JStr (dec_string v ++ bs " km/h"))]
       | None => []
       end) ++
      (if m_was_encrypted m then [("encrypted_location"%string, JN (m_encrypted_location m))] else []) ++
      (if m_is_encrypted m then [] else [("location"%string, JN (m_location m))]) ++
      [("direction"%string,
        match m_directionality m with DSingle => JS "single" | DBoth => JS "both" end);
       ("extent"%string,
        JStr ((match m_direction m with DirNegative => bs "-" | DirPositive => bs "+" end) ++
              dec_string (m_extent m)))] ++
      (match m_time_starts m with Some v => [("starts"%string, JStr (getTimeString v))] | None => [] end) ++
      (match m_time_until m with Some v => [("until"%string, JStr (getTimeString v))] | None => [] end) ++
      [("urgency"%string, JStr (getUrgencyString (m_urgency m)))]).

(* src/tmc/tmc.cc:878-885.  key.xorval << key.xorstart is an int shift: undefined when the count is
   32 or more or the result does not fit 32 bits. *)
Definition m_decrypt (m : Message) (key : ServiceKey) : res Message :=
  if negb (m_is_encrypted m) then Ok m
  else if (32 <=? key_xorstart key) || (0x100000000 <=? N.shiftl (key_xorval key) (key_xorstart key))
  then UB "shift count"
  else
    let location :=
      rotl16 (N.lxor (m_encrypted_location m) (u16 (N.shiftl (key_xorval key) (key_xorstart key))))
             (key_nrot key) in
    Ok (mkMessage false (m_was_encrypted m) (m_direction m) (m_extent m) (m_events m)
          (m_supplementary m) (m_quantifiers m) (m_diversion m) location (m_encrypted_location m)
          (m_is_complete m) (m_time_until m) (m_time_starts m) (m_speed_limit m)
          (m_directionality m) (m_urgency m) (m_continuity_index m) (m_parts m)).

(* src/tmc/tmc.cc:393-397: the walk along the location chain; [n] is points_left *)
Fixpoint walk (db : LocationDatabase) (is_positive : bool) (n : nat) (lcd : N) : list Point :=
  match n with
  | O => []
  | S k => match db_points db lcd with
           | None => []
           | Some p => p :: walk db is_positive k (if is_positive then pt_pos_off p else pt_neg_off p)
           end
  end.

(* src/tmc/tmc.cc:399-403: element i of the array "coordinates" *)
Definition coordinate (p : Point) : json :=
  JObj [("lat"%string, JFloat (pt_lat p)); ("lon"%string, JFloat (pt_lon p))].

(* src/tmc/tmc.cc:379-424.  [lcd] and the signed extent are read back from the JSON object
   (src:384-386), i.e. they are location_ and +-extent_ of the message just stored there; they are
   passed as arguments instead.  [has_location] is contains("location"). *)
Definition decodeLocation (db : LocationDatabase) (ltn : N) (has_location : bool) (lcd : N)
    (negative : bool) (extent : N) (j : json) : res json :=
  if negb (db_ltn db =? ltn) || (db_ltn db =? 0) || negb has_location then Ok j
  else
    (* is_positive = (stoi(extent) >= 0): "-0" parses to 0 *)
    let is_positive := negb negative || (extent =? 0) in
    match db_points db lcd with
    | None => Ok j
    | Some pt =>
        let points := walk db is_positive (S (N.to_nat extent)) lcd in
        let msg k := ["tmc"%string; "message"%string; k] in
        j <- jset (msg "coordinates"%string) (JArr (map coordinate points)) j ;;
        j <- (match points with
              | p0 :: ((_ :: _) as rest) =>
                  let pl := List.last rest p0 in
                  match pt_name1 p0, pt_name1 pl with
                  | _ :: _, _ :: _ =>
                      j <- jset (msg "span_from"%string) (JStr (pt_name1 p0)) j ;;
                      jset (msg "span_to"%string) (JStr (pt_name1 pl)) j
                  | _, _ => Ok j
                  end
              | _ => Ok j
              end) ;;
        match db_roads db (pt_roa_lcd pt) with
        | None => Ok j
        | Some road =>
            j <- (match road_number road with
                  | [] => Ok j
                  | s => jset (msg "road_number"%string) (JStr s) j
                  end) ;;
            match road_name road with
            | [] => match pt_road_name pt with
                    | [] => Ok j
                    | s => jset (msg "road_name"%string) (JStr s) j
                    end
            | s => jset (msg "road_name"%string) (JStr s) j
            end
        end
    end.

(* src/tmc/tmc.hh:176-188 *)
Record TMCService := mkTMC {
  t_is_initialized : bool;
  t_is_encrypted : bool;
  t_has_encid : bool;
  t_ltn : N;
  t_sid : N;
  t_encid : N;
  t_ltcc : N;
  t_message : Message;
  t_ps : RDSString;
  t_other_network_freqs : list (N * AltFreqList)
}.

(* src/tmc/tmc.cc:445-457 (table loading is outside: see TmcData) *)
Definition TMCService_init : TMCService :=
  mkTMC false false false 0 0 0 0 (Message_new false) (RDSString_new 8) [].

Definition t_set_message (s : TMCService) (m : Message) : TMCService :=
  mkTMC (t_is_initialized s) (t_is_encrypted s) (t_has_encid s) (t_ltn s) (t_sid s) (t_encid s)
    (t_ltcc s) m (t_ps s) (t_other_network_freqs s).

Definition sysinfo (k : string) : list string := ["tmc"%string; "system_info"%string; k].
Definition othernet (k : string) : list string := ["tmc"%string; "other_network"%string; k].

(* json.push_back for each element of a list *)
Fixpoint jpush_all (path : list string) (l : list json) (j : json) : res json :=
  match l with
  | [] => Ok j
  | v :: r => j <- jpush path v j ;; jpush_all path r j
  end.

(* src/tmc/tmc.cc:459-504 *)
Definition receiveSystemGroup (s : TMCService) (message : N) (j : json) : res (TMCService * json) :=
  let variant := getBits 2 message 14 in
  if variant =? 0 then
    let ltn := getBits 6 message 6 in
    let is_encrypted := ltn =? 0 in
    j <- jset (sysinfo "is_encrypted") (JBool is_encrypted) j ;;
    j <- (if is_encrypted then Ok j else jset (sysinfo "location_table") (JN ltn) j) ;;
    j <- jset (sysinfo "is_on_alt_freqs") (JBool (getBool message 5)) j ;;
    j <- jpush_all (sysinfo "scope") (map JStr (getScopeStrings (getBits 4 message 0))) j ;;
    Ok (mkTMC true is_encrypted (t_has_encid s) (if is_encrypted then t_ltn s else ltn) (t_sid s)
          (t_encid s) (t_ltcc s) (t_message s) (t_ps s) (t_other_network_freqs s), j)
  else if variant =? 1 then
    let sid := getBits 6 message 6 in
    j <- jset (sysinfo "service_id") (JN sid) j ;;
    j <- jset (sysinfo "gap") (JN (nth (N.to_nat (getBits 2 message 12)) [3; 5; 8; 11] 0)) j ;;
    let ltcc := getBits 4 message 0 in
    j <- (if 0 <? ltcc then jset (sysinfo "ltcc") (JN ltcc) j else Ok j) ;;
    Ok (mkTMC (t_is_initialized s) (t_is_encrypted s) (t_has_encid s) (t_ltn s) sid (t_encid s) ltcc
          (t_message s) (t_ps s) (t_other_network_freqs s), j)
  else if variant =? 2 then
    let ltecc := getUint8 message 0 in
    if 0 <? ltecc then
      j <- jset (sysinfo "ltecc") (JN ltecc) j ;;
      if 0 <? t_ltcc s then
        country <- getCountryString (t_ltcc s) ltecc ;;
        j <- jset (sysinfo "country") (JStr country) j ;;
        Ok (s, j)
      else Ok (s, j)
    else Ok (s, j)
  else Ok (s, j).

(* src/tmc/tmc.cc:604-610 and 621-627: decrypt if a key is known, store and locate *)
Definition finish_message (d : TmcData) (s : TMCService) (m : Message) (j : json)
    : res json :=
  m <- (if t_is_encrypted s then
          match td_key d (t_encid s) with
          | Some key => m_decrypt m key
          | None => Ok m
          end
        else Ok m) ;;
  if jempty (m_json d m) then Ok j
  else
    j <- jset ["tmc"%string; "message"%string] (m_json d m) j ;;
    decodeLocation (td_locdb d (t_ltn s)) (t_ltn s) (negb (m_is_encrypted m)) (m_location m)
      (match m_direction m with DirNegative => true | DirPositive => false end) (m_extent m) j.

(* src/tmc/tmc.cc:528-590: tuning information *)
Definition receiveTuningInfo (ucs2 : bytes -> option bytes) (s : TMCService) (x y z : N) (j : json)
    : res (TMCService * json) :=
  let variant := getBits 4 x 0 in
  let set_ps ps := mkTMC (t_is_initialized s) (t_is_encrypted s) (t_has_encid s) (t_ltn s) (t_sid s)
                     (t_encid s) (t_ltcc s) (t_message s) ps (t_other_network_freqs s) in
  let set_freqs f := mkTMC (t_is_initialized s) (t_is_encrypted s) (t_has_encid s) (t_ltn s) (t_sid s)
                       (t_encid s) (t_ltcc s) (t_message s) (t_ps s) f in
  if (variant =? 4) || (variant =? 5) then
    let pos := 4 * (variant - 4) in
    let ps := s_set ucs2 (t_ps s) (pos + 0) (getUint8 y 8) in
    let ps := s_set ucs2 ps (pos + 1) (getUint8 y 0) in
    let ps := s_set ucs2 ps (pos + 2) (getUint8 z 8) in
    let ps := s_set ucs2 ps (pos + 3) (getUint8 z 0) in
    j <- (if s_isComplete ps
          then jset ["tmc"%string; "service_provider"%string] (JStr (s_last_complete_string ps)) j
          else Ok j) ;;
    Ok (set_ps ps, j)
  else if variant =? 6 then
    let l := match find_code z (t_other_network_freqs s) with Some l => l | None => af_init end in
    l <- af_insert l (getUint8 y 8) ;;
    l <- af_insert l (getUint8 y 0) ;;
    j <- jset (othernet "pi") (JStr (getPrefixedHexString 4 z)) j ;;
    raw <- af_getRawList l ;;
    j <- jpush_all (othernet "frequencies_khz") (map JN raw) j ;;
    Ok (set_freqs [], j)
  else if variant =? 8 then
    if (y =? 0) || (z =? 0) || (y =? z) then
      j <- jset (othernet "pi") (JStr (getPrefixedHexString 4 y)) j ;;
      Ok (s, j)
    else
      j <- jpush (othernet "pi_codes") (JStr (getPrefixedHexString 4 y)) j ;;
      j <- jpush (othernet "pi_codes") (JStr (getPrefixedHexString 4 z)) j ;;
      Ok (s, j)
  else if variant =? 9 then
    j <- jset (othernet "pi") (JStr (getPrefixedHexString 4 z)) j ;;
    j <- jset (othernet "service_id") (JN (getBits 6 y 0)) j ;;
    j <- jset (othernet "location_table") (JN (getBits 6 y 10)) j ;;
    j <- jpush_all (othernet "scope") (map JStr (getScopeStrings (getBits 4 y 6))) j ;;
    Ok (s, j)
  else
    j <- jpush ["debug"%string] (JStr (bs "TODO: TMC tuning info variant " ++ dec_string variant)) j ;;
    Ok (s, j).

(* src/tmc/tmc.cc:506-632 *)
Definition receiveUserGroup (d : TmcData) (ucs2 : bytes -> option bytes) (s : TMCService)
    (x y z : N) (j : json) : res (TMCService * json) :=
  if negb (t_is_initialized s) then Ok (s, j)
  else if getBits 5 x 0 =? 0 then
    let sid := getBits 6 y 5 in
    let encid := getBits 5 y 0 in
    let ltn := getBits 6 z 10 in
    j <- jset (sysinfo "service_id") (JN sid) j ;;
    j <- jset (sysinfo "encryption_id") (JN encid) j ;;
    j <- jset (sysinfo "location_table") (JN ltn) j ;;
    Ok (mkTMC (t_is_initialized s) (t_is_encrypted s) true ltn sid encid (t_ltcc s) (t_message s)
          (t_ps s) (t_other_network_freqs s), j)
  else if getBool x 4 then receiveTuningInfo ucs2 s x y z j
  else if t_is_encrypted s && negb (t_has_encid s) then Ok (s, j)
  else if getBool x 3 then
    j <- finish_message d s (pushSingle d (Message_new (t_is_encrypted s)) y z) j ;;
    Ok (s, j)
  else
    let ci := getBits 3 x 0 in
    let m := if ci =? m_continuity_index (t_message s) then t_message s
             else Message_new (t_is_encrypted s) in
    let m := pushMulti d m x y z in
    if m_is_complete m then
      j <- finish_message d s m j ;;
      Ok (t_set_message s (Message_new (t_is_encrypted s)), j)
    else Ok (t_set_message s m, j).
