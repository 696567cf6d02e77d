(* src/tmc/csv.hh, src/tmc/csv.cc, src/tmc/locationdb.cc and the table loaders of src/tmc/tmc.cc.
   Files are lists of lines (what std::getline yields). *)
From Verif.Model Require Import Base Util Float Freq Tables Tmc Input.

(* std::string::find(delimiter, start); None is npos *)
Fixpoint find_from (delim : N) (s : bytes) (pos : N) : option N :=
  match s with
  | [] => None
  | c :: r => if c =? delim then Some pos else find_from delim r (pos + 1)
  end.

(* src/tmc/csv.hh:21-25 *)
Fixpoint until_line_feed (s : bytes) : N :=
  match s with
  | [] => 0
  | c :: r => if (c =? 13) || (c =? 10) then 0 else 1 + until_line_feed r
  end.

(* src/tmc/csv.hh:27-34: offsets and lengths of the fields; each round moves start forward, so the
   length of the line bounds the number of rounds *)
Fixpoint csv_loop (fuel : nat) (line : bytes) (delim stop start end_ : N) : list (N * N) :=
  match fuel with
  | O => []
  | S f =>
      if end_ <? stop then
        let end_ := match find_from delim (skipn (N.to_nat start) line) start with
                    | Some p => p
                    | None => stop
                    end in
        (start, end_ - start) :: csv_loop f line delim stop (end_ + 1) end_
      else []
  end.

(* src/tmc/csv.hh:14-46 *)
Record CSVRow := mkRow { row_fields : list (N * N); row_string : bytes }.
Definition CSVRow_new (line : bytes) (delim : N) : CSVRow :=
  mkRow (csv_loop (S (length line)) line delim (until_line_feed line) 0 0) line.
(* CSVRow::at; None is std::out_of_range *)
Definition row_at (r : CSVRow) (i : N) : option bytes :=
  match nth_error (row_fields r) (N.to_nat i) with
  | Some (off, len) => Some (firstn (N.to_nat len) (skipn (N.to_nat off) (row_string r)))
  | None => None
  end.

(* src/tmc/csv.hh:48-51, 77-96; the title map keeps the last index of a repeated title *)
Record CSVTable := mkTable { tb_titles : list bytes; tb_rows : list CSVRow }.
Definition row_all (r : CSVRow) : list bytes :=
  map (fun ol => firstn (N.to_nat (snd ol)) (skipn (N.to_nat (fst ol)) (row_string r))) (row_fields r).
Definition readCSVWithTitles (lines : list bytes) (delim : N) : CSVTable :=
  match lines with
  | [] => mkTable [] []
  | t :: r => mkTable (row_all (CSVRow_new t delim)) (map (fun l => CSVRow_new l delim) r)
  end.
Definition readCSV (lines : list bytes) (delim : N) : list CSVRow := map (fun l => CSVRow_new l delim) lines.

Fixpoint title_index (titles : list bytes) (title : bytes) (i : N) (acc : option N) : option N :=
  match titles with
  | [] => acc
  | t :: r => title_index r title (i + 1) (if bytes_eqb t title then Some i else acc)
  end.

(* src/tmc/csv.cc:40-54; None is an exception *)
Definition get_string (t : CSVTable) (r : CSVRow) (title : string) : option bytes :=
  match title_index (tb_titles t) (bs title) 0 None with
  | Some i => row_at r i
  | None => None
  end.

(* The longest run of decimal digits *)
Fixpoint dec_run (s : bytes) (acc : N) (n : N) : N * N :=
  match s with
  | c :: r => if (48 <=? c) && (c <=? 57) then dec_run r (acc * 10 + (c - 48)) (n + 1) else (acc, n)
  | [] => (acc, n)
  end.
(* std::stoi, base 10 *)
Definition stoi (s : bytes) : option Z :=
  let s := skip_space s in
  let '(neg, s) := match s with
                   | 45 :: r => (true, r)
                   | 43 :: r => (false, r)
                   | _ => (false, s)
                   end in
  let '(v, n) := dec_run s 0 0 in
  if n =? 0 then None
  else
    let z := if neg : bool then (- Z.of_N v)%Z else Z.of_N v in
    if (- 0x80000000 <=? z)%Z && (z <=? 0x7FFFFFFF)%Z then Some z else None.

Definition get_int (t : CSVTable) (r : CSVRow) (title : string) : option Z :=
  match get_string t r title with Some s => stoi s | None => None end.
Definition get_uint16 (t : CSVTable) (r : CSVRow) (title : string) : option N :=
  match get_int t r title with Some z => Some (z_u16 z) | None => None end.
Definition row_contains (t : CSVTable) (r : CSVRow) (title : string) : option bool :=
  match get_string t r title with
  | Some [] => Some false
  | Some _ => Some true
  | None => None
  end.

(* Exceptions as option *)
Definition obind {A B : Type} (x : option A) (f : A -> option B) : option B :=
  match x with Some a => f a | None => None end.
Notation "x <~ m ;; k" := (obind m (fun x => k))
  (at level 61, m at next level, right associativity).

Definition semicolon : N := 59.
Definition comma : N := 44.

(* src/tmc/tmc.cc:354-377: the key table as an association list; insert keeps the first key of an id *)
Fixpoint keys_loop (rows : list CSVRow) (acc : list (N * ServiceKey)) : list (N * ServiceKey) :=
  match rows with
  | [] => acc
  | row :: r =>
      if N.of_nat (length (row_fields row)) <? 4 then keys_loop r acc
      else
        let field i := s <~ row_at row i ;; stoi s in
        match (a <~ field 0 ;; b <~ field 1 ;; c <~ field 2 ;; d <~ field 3 ;; Some (a, b, c, d)) with
        | Some (a, b, c, d) =>
            let u8z z := Z.to_N (z mod 0x100) in
            let encid := z_u16 a in
            keys_loop r (match find_code encid acc with
                         | Some _ => acc
                         | None => acc ++ [(encid, mkServiceKey (u8z b) (u8z c) (u8z d))]
                         end)
        | None => keys_loop r acc
        end
  end.
Definition loadServiceKeyTable (lines : list bytes) : list (N * ServiceKey) :=
  keys_loop (readCSV lines comma) [].

Definition quantifier_of_int (z : Z) : QuantifierType :=
  nth (Z.to_nat z) [QSmallNumber; QNumber; QLessThanMetres; QPercent; QUptoKmh; QUptoTime;
                    QDegreesCelsius; QTime; QTonnes; QMetres; QUptoMillimetres; QMHz; QkHz] QSmallNumber.

(* src/tmc/tmc.cc:300-341: one row of the event table; None is an exception (the row is skipped).
   The columns N and T are read (and so must exist) but only feed members that are left out. *)
Definition event_of_row (t : CSVTable) (row : CSVRow) : option (N * Event) :=
  code <~ get_uint16 t row "Code" ;;
  description <~ get_string t row "Description" ;;
  with_q <~ get_string t row "Description with Q" ;;
  _ <~ get_string t row "N" ;;
  has_q <~ row_contains t row "Q" ;;
  qt <~ (if has_q : bool
         then q <~ get_int t row "Q" ;;
              Some (if (0 <=? q)%Z && (q <=? 12)%Z then quantifier_of_int q else QSmallNumber)
         else Some QSmallNumber) ;;
  u <~ get_string t row "U" ;;
  _ <~ get_string t row "T" ;;
  has_d <~ row_contains t row "D" ;;
  dir <~ (if has_d : bool
          then d <~ get_int t row "D" ;; Some (if (d =? 2)%Z then DBoth else DSingle)
          else Some DSingle) ;;
  cls <~ get_uint16 t row "C" ;;
  Some (code, mkEvent description with_q qt dir
                (if bytes_eqb u (bs "U") then UU else if bytes_eqb u (bs "X") then UX else UNone)
                cls (match with_q with [] => false | _ => true end)).

(* src/tmc/tmc.cc:298-341: the later row of a code replaces the earlier one: newest first *)
Definition loadEvents (lines : list bytes) : list (N * Event) :=
  let t := readCSVWithTitles lines semicolon in
  fold_left (fun acc row => match event_of_row t row with Some e => e :: acc | None => acc end)
    (tb_rows t) [].

(* src/tmc/locationdb.hh:28-72 as built by src/tmc/locationdb.cc: association lists, newest first *)
Record LocationTables := mkLT {
  lt_ltn : N;
  lt_names : list (Z * bytes);
  lt_roads : list (N * Road);
  lt_segments : list (N * N);          (* lcd, roa_lcd *)
  lt_points : list (N * Point)
}.

Fixpoint find_Z {A : Type} (k : Z) (l : list (Z * A)) : option A :=
  match l with
  | [] => None
  | (k', v) :: r => if (k =? k')%Z then Some v else find_Z k r
  end.

Definition f32_1e_5 : spec_float := S754_finite false 10995116 (-40).     (* 1e-5f *)

Section Load.
(* iconv from the encoding of the data set to UTF-8; None is a conversion error *)
Context (to_utf8 : bytes -> option bytes).

(* src/tmc/locationdb.cc:79-87 *)
Definition load_names (t : CSVTable) : list (Z * bytes) :=
  fold_left (fun acc row =>
    match (nid <~ get_int t row "NID" ;; s <~ get_string t row "NAME" ;; u <~ to_utf8 s ;; Some (nid, u)) with
    | Some e => e :: acc
    | None => acc
    end) (tb_rows t) [].

Definition optional_int (t : CSVTable) (row : CSVRow) (title : string) : option Z :=
  has <~ row_contains t row title ;; if has : bool then get_int t row title else Some 0%Z.

Definition name_or_empty (names : list (Z * bytes)) (id : Z) : bytes :=
  match find_Z id names with Some s => s | None => [] end.

(* src/tmc/locationdb.cc:89-104 *)
Definition load_roads (names : list (Z * bytes)) (t : CSVTable) : list (N * Road) :=
  fold_left (fun acc row =>
    match (lcd <~ get_uint16 t row "LCD" ;; number <~ get_string t row "ROADNUMBER" ;;
           rnid <~ optional_int t row "RNID" ;;
           Some (lcd, mkRoad number (name_or_empty names rnid))) with
    | Some e => e :: acc
    | None => acc
    end) (tb_rows t) [].

(* src/tmc/locationdb.cc:106-116 *)
Definition load_segments (t : CSVTable) : list (N * N) :=
  fold_left (fun acc row =>
    match (lcd <~ get_uint16 t row "LCD" ;; roa <~ get_uint16 t row "ROA_LCD" ;; Some (lcd, roa)) with
    | Some e => e :: acc
    | None => acc
    end) (tb_rows t) [].

Definition optional_coord (t : CSVTable) (row : CSVRow) (title : string) : option spec_float :=
  has <~ row_contains t row title ;;
  if has : bool then v <~ get_int t row title ;; Some (f32_mul (f32_of_Z v) f32_1e_5)
  else Some (S754_zero false).

(* src/tmc/locationdb.cc:118-155: one row.  locdb.ltn is assigned before anything can fail after
   it.  [touched]: names[rnid] was evaluated, which adds an empty name if there was none; the name of
   the road found through the segment is overwritten by that. *)
Definition point_of_row (lt : LocationTables) (t : CSVTable) (row : CSVRow) : option (N * Point * option Z) :=
  lcd <~ get_uint16 t row "LCD" ;;
  n1id <~ optional_int t row "N1ID" ;;
  lon <~ optional_coord t row "XCOORD" ;;
  lat <~ optional_coord t row "YCOORD" ;;
  roa <~ optional_int t row "ROA_LCD" ;;
  seg <~ optional_int t row "SEG_LCD" ;;
  rnid <~ optional_int t row "RNID" ;;
  let roa := z_u16 roa in
  let seg := z_u16 seg in
  let road_name := name_or_empty (lt_names lt) rnid in
  roa_touched <~ (if roa =? 0 then
                    match find_code seg (lt_segments lt) with
                    | Some r => match find_code r (lt_roads lt) with
                                | Some _ => Some (r, Some rnid)
                                | None => None
                                end
                    | None => Some (roa, None)
                    end
                  else Some (roa, None)) ;;
  Some (lcd, mkPoint (name_or_empty (lt_names lt) n1id) road_name (fst roa_touched) 0 0 lon lat,
        snd roa_touched).

(* std::map::operator[] without an assignment *)
Definition names_touch (names : list (Z * bytes)) (touched : option Z) : list (Z * bytes) :=
  match touched with
  | Some id => match find_Z id names with Some _ => names | None => (id, []) :: names end
  | None => names
  end.

Definition load_points (lt : LocationTables) (t : CSVTable) : LocationTables :=
  fold_left (fun lt row =>
    match get_uint16 t row "TABCD" with
    | None => lt
    | Some ltn =>
        let lt := mkLT ltn (lt_names lt) (lt_roads lt) (lt_segments lt) (lt_points lt) in
        match point_of_row lt t row with
        | Some (lcd, p, touched) =>
            mkLT ltn (names_touch (lt_names lt) touched) (lt_roads lt) (lt_segments lt) ((lcd, p) :: lt_points lt)
        | None => lt
        end
    end) (tb_rows t) lt.

(* src/tmc/locationdb.cc:157-170 *)
Definition load_offsets (lt : LocationTables) (t : CSVTable) : LocationTables :=
  fold_left (fun lt row =>
    match (lcd <~ get_uint16 t row "LCD" ;; neg <~ get_uint16 t row "NEG_OFF_LCD" ;;
           pos <~ get_uint16 t row "POS_OFF_LCD" ;; Some (lcd, neg, pos)) with
    | Some (lcd, neg, pos) =>
        match find_code lcd (lt_points lt) with
        | Some p => mkLT (lt_ltn lt) (lt_names lt) (lt_roads lt) (lt_segments lt)
                      ((lcd, mkPoint (pt_name1 p) (pt_road_name p) (pt_roa_lcd p) neg pos
                               (pt_lon p) (pt_lat p)) :: lt_points lt)
        | None => lt
        end
    | None => lt
    end) (tb_rows t) lt.

(* src/tmc/locationdb.cc:60-185 without the choice of the encoding (README.DAT) and the
   administrative areas, which nothing reads.  Arguments: the lines of the files NAMES, ROADS,
   SEGMENTS, POINTS and POFFSETS. *)
Definition loadLocationTables (names roads segments points offsets : list bytes) : LocationTables :=
  let nm := load_names (readCSVWithTitles names semicolon) in
  let lt := mkLT 0 nm (load_roads nm (readCSVWithTitles roads semicolon))
              (load_segments (readCSVWithTitles segments semicolon)) [] in
  load_offsets (load_points lt (readCSVWithTitles points semicolon)) (readCSVWithTitles offsets semicolon).
Definition location_database (lt : LocationTables) : LocationDatabase :=
  mkLocdb (lt_ltn lt) (fun k => find_code k (lt_points lt)) (fun k => find_code k (lt_roads lt)).
End Load.
