(* The files with tables for traffic messages: what their lines say. *)
From Verif.Model Require Import Base Float Tmc.
From Verif.Spec Require Import Session Inputs Labels.
Local Open Scope string_scope.
Local Open Scope N_scope.
Local Open Scope list_scope.

(* ---- lines ---- *)
(* A line of fields; it may end with a carriage return *)
Definition plain (d : N) (field : bytes) : Prop := Forall (fun c => c <> d /\ c <> 10 /\ c <> 13) field.
Definition line_of (d : N) (fields : list bytes) (line : bytes) : Prop :=
  (line = separated d fields \/ line = separated d fields ++ [13]) /\
  Forall (plain d) fields /\ fields <> [] /\ fields <> [[]].
Definition blank (line : bytes) : Prop := line = [] \/ line = [13].
(* Lines, each of which is an entry or ignored *)
Inductive lines_are {A : Type} (entry : bytes -> A -> Prop) (ignored : bytes -> Prop) : list bytes -> list A -> Prop :=
| lines_end : lines_are entry ignored [] []
| lines_entry : forall l a ls es, entry l a -> lines_are entry ignored ls es -> lines_are entry ignored (l :: ls) (a :: es)
| lines_ignored : forall l ls es, ignored l -> lines_are entry ignored ls es -> lines_are entry ignored (l :: ls) es.

(* A whole number, possibly with a sign and leading zeros *)
Definition digit (c : N) : Prop := 48 <= c <= 57.
Definition digits_value (digits : bytes) : N := fold_left (fun v c => 10 * v + (c - 48)) digits 0.
Definition number (text : bytes) (z : Z) : Prop :=
  exists sign digits, text = sign ++ digits /\ digits <> [] /\ Forall digit digits /\
    Z.abs_N z = digits_value digits /\ (-2147483648 <= z <= 2147483647)%Z /\
    (if (z <? 0)%Z then sign = bs "-" else sign = [] \/ sign = bs "+").
(* not the beginning of a number: no digit, sign or white space *)
Definition no_number (text : bytes) : Prop :=
  match text with [] => True | c :: _ => ~ digit c /\ c <> 43 /\ c <> 45 /\ c <> 32 /\ ~ (9 <= c <= 13) end.

(* ---- the file with the keys of encrypted services ---- *)
(* A line with the number of a key, the pattern of bits, its position and the rotation, and perhaps
   more fields; a line without four fields or with something else than a number in one of them *)
Definition key_line (line : bytes) (k : N * ServiceKey) : Prop :=
  exists f0 f1 f2 f3 more, line_of 44 (f0 :: f1 :: f2 :: f3 :: more) line /\
    number f0 (Z.of_N (fst k)) /\ number f1 (Z.of_N (key_xorval (snd k))) /\ number f2 (Z.of_N (key_xorstart (snd k))) /\
    number f3 (Z.of_N (key_nrot (snd k))) /\ fst k < 65536 /\ key_xorval (snd k) < 256 /\ key_xorstart (snd k) < 256 /\ key_nrot (snd k) < 256.
Definition no_key_line (line : bytes) : Prop :=
  blank line \/ exists fields, line_of 44 fields line /\ ((length fields < 4)%nat \/ Exists no_number (firstn 4 fields)).
Definition key_file (lines : list bytes) (keys : list (N * ServiceKey)) : Prop := lines_are key_line no_key_line lines keys.
Definition first_for {A : Type} (n : N) (l : list (N * A)) : option A :=
  match find (fun e => fst e =? n) l with Some e => Some (snd e) | None => None end.

(* ---- location tables in the exchange format ---- *)
(* The first line has the titles of the columns, in any order and with others among them *)
Definition under (titles fields : list bytes) (title : string) (value : bytes) : Prop :=
  exists before after, titles = before ++ bs title :: after /\ ~ In (bs title) after /\ nth_error fields (length before) = Some value.
Definition cell (titles : list bytes) (line : bytes) (title : string) (P : bytes -> Prop) : Prop :=
  exists fields value, line_of 59 fields line /\ under titles fields title value /\ P value.
Definition table {A : Type} (row : list bytes -> bytes -> A -> Prop) (lines : list bytes) (entries : list A) : Prop :=
  exists titles first rest, lines = first :: rest /\ line_of 59 titles first /\ lines_are (row titles) blank rest entries.

Definition has_number (n : Z) (text : bytes) : Prop := number text n.
Definition has_code (n : N) (text : bytes) : Prop := number text (Z.of_N n) /\ n < 65536.
Definition perhaps {A : Type} (P : A -> bytes -> Prop) (x : option A) (text : bytes) : Prop :=
  match x with Some a => P a text | None => text = [] end.

Record name_row := mkNameRow { n_id : Z; n_text : bytes }.
Definition is_name (conv : bytes -> option bytes) titles line (r : name_row) : Prop :=
  cell titles line "NID" (has_number (n_id r)) /\ n_id r <> 0%Z /\ cell titles line "NAME" (fun s => conv s = Some (n_text r)).
Record road_row := mkRoadRow { r_code : N; r_number : bytes; r_name : option Z }.
Definition is_road titles line (r : road_row) : Prop :=
  cell titles line "LCD" (has_code (r_code r)) /\ cell titles line "ROADNUMBER" (eq (r_number r)) /\
  cell titles line "RNID" (perhaps has_number (r_name r)).
Record segment_row := mkSegmentRow { s_code : N; s_road : N }.
Definition is_segment titles line (r : segment_row) : Prop :=
  cell titles line "LCD" (has_code (s_code r)) /\ s_code r <> 0 /\ cell titles line "ROA_LCD" (has_code (s_road r)).
Record point_row := mkPointRow { p_table : N; p_code : N; p_name : option Z; p_x : option Z; p_y : option Z;
  p_road : option N; p_segment : option N; p_road_name : option Z }.
Definition is_point titles line (r : point_row) : Prop :=
  cell titles line "TABCD" (has_code (p_table r)) /\ cell titles line "LCD" (has_code (p_code r)) /\
  cell titles line "N1ID" (perhaps has_number (p_name r)) /\
  cell titles line "XCOORD" (perhaps has_number (p_x r)) /\ cell titles line "YCOORD" (perhaps has_number (p_y r)) /\
  cell titles line "ROA_LCD" (perhaps has_code (p_road r)) /\ p_road r <> Some 0 /\
  cell titles line "SEG_LCD" (perhaps has_code (p_segment r)) /\ cell titles line "RNID" (perhaps has_number (p_road_name r)).
Record offset_row := mkOffsetRow { o_code : N; o_negative : N; o_positive : N }.
Definition is_offset titles line (r : offset_row) : Prop :=
  cell titles line "LCD" (has_code (o_code r)) /\ cell titles line "NEG_OFF_LCD" (has_code (o_negative r)) /\
  cell titles line "POS_OFF_LCD" (has_code (o_positive r)).

(* What the tables say together.  The last row with a code counts. *)
Record location_data := mkLocationData { d_names : list name_row; d_roads : list road_row; d_segments : list segment_row;
  d_points : list point_row; d_offsets : list offset_row }.
Definition last_with {A : Type} (test : A -> bool) (l : list A) : option A := find test (rev l).
Definition name_said (d : location_data) (id : option Z) : bytes :=
  match id with
  | Some i => match last_with (fun r => (n_id r =? i)%Z) (d_names d) with Some r => n_text r | None => [] end
  | None => []
  end.
Definition road_said (d : location_data) (code : N) : option Road :=
  match last_with (fun r => r_code r =? code) (d_roads d) with
  | Some r => Some (mkRoad (r_number r) (name_said d (r_name r)))
  | None => None
  end.
Definition segment_said (d : location_data) (s : option N) : option N :=
  match s with
  | Some s => match last_with (fun r => s_code r =? s) (d_segments d) with Some r => Some (s_road r) | None => None end
  | None => None
  end.
(* the road of a point: given, or that of its segment; 0: none *)
Definition road_of (d : location_data) (p : point_row) : N :=
  match p_road p, segment_said d (p_segment p) with Some r, _ => r | None, Some r => r | None, None => 0 end.
(* hundred-thousandths of a degree as a binary32 number: 10995116 * 2^-40 is the one nearest to 1/100000 *)
Definition degrees (x : option Z) : spec_float :=
  match x with
  | Some v => SFmul 24 128 (binary_normalize 24 128 v 0 false) (S754_finite false 10995116 (-40))
  | None => S754_zero false
  end.
Definition point_said (d : location_data) (code : N) : option Point :=
  match last_with (fun p => p_code p =? code) (d_points d) with
  | None => None
  | Some p =>
    let o := last_with (fun o => o_code o =? code) (d_offsets d) in
    Some (mkPoint (name_said d (p_name p)) (name_said d (p_road_name p)) (road_of d p)
            (match o with Some o => o_negative o | None => 0 end) (match o with Some o => o_positive o | None => 0 end)
            (degrees (p_x p)) (degrees (p_y p)))
  end.
Definition number_said (d : location_data) : N := match rev (d_points d) with p :: _ => p_table p | [] => 0 end.
(* The road of each segment that a point gives instead of a road is known *)
Definition roads_known (d : location_data) : Prop :=
  Forall (fun p => p_road p = None -> match segment_said d (p_segment p) with Some r => road_said d r <> None | None => True end) (d_points d).
(* The files of a data set, given that the encoding is converted by conv *)
Definition data_set (conv : bytes -> option bytes) (file : string -> list bytes) (d : location_data) : Prop :=
  table (is_name conv) (file "/NAMES.DAT") (d_names d) /\ table is_road (file "/ROADS.DAT") (d_roads d) /\
  table is_segment (file "/SEGMENTS.DAT") (d_segments d) /\ table is_point (file "/POINTS.DAT") (d_points d) /\
  table is_offset (file "/POFFSETS.DAT") (d_offsets d).

(* ---- the directories given on the command line ---- *)
(* The number of the data set: the last row of the file about data sets *)
Definition is_data_set titles line (n : N) : Prop := cell titles line "TABCD" (has_code n).
(* The encoding of its texts: the fifth field of the last line of its readme that has one; UTF-8 if none has *)
Definition fifth (line field : bytes) : Prop := exists fields, line_of 59 fields line /\ nth_error fields 4 = Some field.
Definition no_fifth (line : bytes) : Prop := blank line \/ exists fields, line_of 59 fields line /\ (length fields < 5)%nat.
(* Spellings of ISO-8859-1 and ISO-8859-15: any character may stand before the number, and more may follow,
   but no letter, digit or underscore *)
Definition in_word (c : N) : Prop := 48 <= c <= 57 \/ 65 <= c <= 90 \/ 97 <= c <= 122 \/ c = 95.
Definition spelling (part e : bytes) : Prop :=
  exists x rest, e = bs "ISO" ++ x :: bs "8859-" ++ part ++ rest /\ match rest with [] => True | c :: _ => ~ in_word c end.
Definition encoding_meant (e m : bytes) : Prop :=
  (spelling (bs "1") e /\ m = bs "ISO-8859-1") \/ (spelling (bs "15") e /\ m = bs "ISO-8859-15") \/
  (~ spelling (bs "1") e /\ ~ spelling (bs "15") e /\ m = e).
Record directory := mkDirectory { dir_number : N; dir_data : location_data }.
Definition is_directory (lines : bytes -> list bytes) (iconv : bytes -> option (bytes -> option bytes)) (name : bytes) (dir : directory) : Prop :=
  let file s := lines (name ++ bs s) in
  (exists numbers, table is_data_set (file "/LOCATIONDATASETS.DAT") numbers /\ dir_number dir = last numbers 0) /\
  (exists es m conv, lines_are fifth no_fifth (file "/README.DAT") es /\ encoding_meant (last es (bs "UTF-8")) m /\
     iconv m = Some conv /\ data_set conv file (dir_data dir)) /\
  roads_known (dir_data dir).
(* The database used for a table number: that of the last directory with it *)
Definition database_is (dirs : list directory) (n : N) (db : LocationDatabase) : Prop :=
  match last_with (fun d => dir_number d =? n) dirs with
  | Some dir => db_ltn db = number_said (dir_data dir) /\
      (forall c, db_points db c = point_said (dir_data dir) c) /\ (forall c, db_roads db c = road_said (dir_data dir) c)
  | None => db_ltn db = 0 /\ (forall c, db_points db c = None) /\ (forall c, db_roads db c = None)
  end.
(* The line about a directory.  A point whose road is found through its segment adds the number of the name of
   its road to the names. *)
Definition count {A : Type} (dec : forall x y : A, {x = y} + {x <> y}) (l : list A) : N := N.of_nat (length (nodup dec l)).
Definition adds_name (d : location_data) (p : point_row) : list Z :=
  match p_road p, segment_said d (p_segment p) with
  | None, Some _ => [match p_road_name p with Some id => id | None => 0%Z end]
  | _, _ => []
  end.
Definition info (k : string) : list string := ["location_table_info"; k].
Definition table_info (dir : directory) (line : bytes) : Prop :=
  let d := dir_data dir in
  well_formed line /\ says_n line (info "ltn") (number_said d) /\
  says_n line (info "num_points") (count N.eq_dec (map p_code (d_points d))) /\
  says_n line (info "num_roads") (count N.eq_dec (map r_code (d_roads d))) /\
  says_n line (info "num_names") (count Z.eq_dec (map n_id (d_names d) ++ flat_map (adds_name d) (d_points d))).

(* ---- the list of events and that of supplementary texts ---- *)
Record event_row := mkEventRow { e_code : N; e_text : bytes; e_with_quantity : bytes; e_quantity : option Z; e_urgency : bytes;
  e_directions : option Z; e_class : N }.
Definition is_event titles line (r : event_row) : Prop :=
  cell titles line "Code" (has_code (e_code r)) /\ cell titles line "Description" (eq (e_text r)) /\
  cell titles line "Description with Q" (eq (e_with_quantity r)) /\ cell titles line "N" (fun _ => True) /\
  cell titles line "Q" (perhaps has_number (e_quantity r)) /\ cell titles line "U" (eq (e_urgency r)) /\ cell titles line "T" (fun _ => True) /\
  cell titles line "D" (perhaps has_number (e_directions r)) /\ cell titles line "C" (has_code (e_class r)).
(* ISO 14819-1: the kinds of quantities *)
Definition quantity_kind (q : option Z) : QuantifierType :=
  match q with
  | Some 1%Z => QNumber | Some 2%Z => QLessThanMetres | Some 3%Z => QPercent | Some 4%Z => QUptoKmh | Some 5%Z => QUptoTime
  | Some 6%Z => QDegreesCelsius | Some 7%Z => QTime | Some 8%Z => QTonnes | Some 9%Z => QMetres | Some 10%Z => QUptoMillimetres
  | Some 11%Z => QMHz | Some 12%Z => QkHz | _ => QSmallNumber
  end.
Definition event_of (r : event_row) : Event :=
  mkEvent (e_text r) (e_with_quantity r) (quantity_kind (e_quantity r))
    (match e_directions r with Some 2%Z => DBoth | _ => DSingle end)
    (if bytes_eqb (e_urgency r) (bs "U") then UU else if bytes_eqb (e_urgency r) (bs "X") then UX else UNone)
    (e_class r) (match e_with_quantity r with [] => false | _ => true end).
Definition event_said (rows : list event_row) (code : N) : option Event := option_map event_of (last_with (fun r => e_code r =? code) rows).
Definition suppl_line (line : bytes) (e : N * bytes) : Prop :=
  exists f0 more, line_of 59 (f0 :: snd e :: more) line /\ has_code (fst e) f0.
Definition no_suppl_line (line : bytes) : Prop := blank line \/ exists f0, line_of 59 [f0] line.
