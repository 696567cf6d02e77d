(* The files with the tables for traffic messages: src/tmc/locationdb.cc, the rest of the loaders of
   src/tmc/tmc.cc, and the program with them. *)
From Verif.Model Require Import Base Util Float Freq Tables Options Tmc Station Input Csv Main.

(* What the program finds outside: the lines of a file (none if it cannot be opened), and
   iconv_open("UTF-8", encoding) with the conversion of a string; None is an error.  (Converting an
   empty string takes the address of element 0 of an empty vector, which is harmless in practice and
   taken to be so here.) *)
Record FileEnv := mkFileEnv {
  fe_lines : bytes -> list bytes;
  fe_iconv : bytes -> option (bytes -> option bytes)
}.

(* A file of a data set *)
Definition file_of (fe : FileEnv) (directory : bytes) (name : string) : list bytes := fe_lines fe (directory ++ bs name).

(* src/tmc/locationdb.cc:44-58: the last readable row counts *)
Definition readLTN (fe : FileEnv) (directory : bytes) : N :=
  let t := readCSVWithTitles (file_of fe directory "/LOCATIONDATASETS.DAT") semicolon in
  fold_left (fun ltn row => match get_uint16 t row "TABCD" with Some n => n | None => ltn end) (tb_rows t) 0.

(* \b of a regular expression after a digit: the end or a character that is not part of a word *)
Definition word_character (c : N) : bool :=
  ((48 <=? c) && (c <=? 57)) || ((65 <=? c) && (c <=? 90)) || ((97 <=? c) && (c <=? 122)) || (c =? 95).
(* std::regex_match(encoding, "ISO.8859-1\b.*") and likewise for 15; '.' is any character but line
   ends *)
Definition not_line_end (c : N) : bool := negb ((c =? 10) || (c =? 13)).
Definition iso_8859 (part encoding : bytes) : bool :=
  match encoding with
  | 73 :: 83 :: 79 :: any :: r =>
      let name := bs "8859-" ++ part in
      not_line_end any && bytes_eqb (firstn (length name) r) name &&
      (let rest := skipn (length name) r in
       forallb not_line_end rest && match rest with [] => true | c :: _ => negb (word_character c) end)
  | _ => false
  end.

(* src/tmc/locationdb.cc:62-76 *)
Definition encoding_of (readme : list bytes) : bytes :=
  let e := fold_left (fun e row => match row_at row 4 with Some f => f | None => e end)
             (readCSV readme semicolon) (bs "UTF-8") in
  let e := if iso_8859 (bs "1") e then bs "ISO-8859-1" else e in
  if iso_8859 (bs "15") e then bs "ISO-8859-15" else e.

(* src/tmc/locationdb.cc:60-185; an unsupported encoding is an exception that nothing catches *)
Definition loadLocationDatabase (fe : FileEnv) (directory : bytes) : res LocationTables :=
  let file := file_of fe directory in
  match fe_iconv fe (encoding_of (file "/README.DAT"%string)) with
  | None => Throw "not supported"
  | Some to_utf8 =>
      Ok (loadLocationTables to_utf8 (file "/NAMES.DAT"%string) (file "/ROADS.DAT"%string) (file "/SEGMENTS.DAT"%string)
            (file "/POINTS.DAT"%string) (file "/POFFSETS.DAT"%string))
  end.

(* The size of a std::map: the number of different keys *)
Fixpoint distinct {A : Type} (eqb : A -> A -> bool) (l : list A) : N :=
  match l with
  | [] => 0
  | x :: r => (if existsb (eqb x) r then 0 else 1) + distinct eqb r
  end.

(* src/tmc/locationdb.cc:187-192 *)
Definition location_table_info (lt : LocationTables) : bytes :=
  bs "{""location_table_info"":{""ltn"":" ++ dec_string (lt_ltn lt) ++ bs "," ++
  bs """num_points"":" ++ dec_string (distinct N.eqb (map fst (lt_points lt))) ++ bs "," ++
  bs """num_roads"":" ++ dec_string (distinct N.eqb (map fst (lt_roads lt))) ++ bs "," ++
  bs """num_names"":" ++ dec_string (distinct Z.eqb (map fst (lt_names lt))) ++ bs "}}".

(* src/tmc/tmc.cc:447-456: the tables by number, the newest first, and the lines printed.  The tables
   are global: only the first TMCService object loads them. *)
Fixpoint load_directories (fe : FileEnv) (dirs : list bytes) (acc : list (N * LocationTables))
    : res (list (N * LocationTables) * list bytes) :=
  match dirs with
  | [] => Ok (acc, [])
  | d :: r =>
      lt <- loadLocationDatabase fe d ;;
      '(acc, lines) <- load_directories fe r ((readLTN fe d, lt) :: acc) ;;
      Ok (acc, location_table_info lt :: lines)
  end.

(* src/tmc/tmc.cc:343-351; std::stoi is not in a try block here.  The first text of a code stays. *)
Fixpoint load_supplementary (rows : list CSVRow) (acc : list (N * bytes)) : res (list (N * bytes)) :=
  match rows with
  | [] => Ok acc
  | row :: r =>
      match row_at row 0, row_at row 1 with
      | Some a, Some text =>
          match stoi a with
          | None => Throw "stoi"
          | Some z =>
              load_supplementary r (match find_code (z_u16 z) acc with
                                    | Some _ => acc
                                    | None => acc ++ [(z_u16 z, text)]
                                    end)
          end
      | _, _ => load_supplementary r acc
      end
  end.

(* All tables, from the two compiled into the program (src/tmc/events_data.cc) and the files *)
Definition tmc_tables (events suppl : list bytes) (fe : FileEnv) (databases : list (N * LocationTables)) : res TmcData :=
  supplementary <- load_supplementary (readCSV suppl semicolon) [] ;;
  Ok (mkTmcData (fun c => find_code c (loadEvents events)) (fun c => find_code c supplementary)
        (fun n => match find_code n databases with
                  | Some lt => location_database lt
                  | None => LocationDatabase_default
                  end)
        (fun k => find_code k (loadServiceKeyTable (fe_lines fe (bs "service_key_table.csv"))))).

(* Whether a Channel, and so a TMCService, is made: src/redsea.cc:119-145, 168-169, 181-182, 193-194 *)
Definition makes_channel (se : SndEnv) (o : Options) : bool :=
  match o_input_type o with
  | MPX_stdin | MPX_sndfile => match mpx_init se o with Opened n _ => 0 <? n | Refused _ => false end
  | _ => true
  end.

Definition with_tables {D : Type} (w : World D) (data : TmcData) : World D :=
  let e := w_env w in
  mkWorld (mkEnv (env_ucs2 e) (env_what_iconv e) (env_what_json e) (env_strftime e) (env_localtime e) (env_float e) data)
    (w_numbers w) (w_snd w) (w_liquid w) (w_clock w) (w_clock_at_end w) (w_stdin w) (w_audio w).

(* What the program prints: a line about a location table, or what Main.v says *)
Inductive program_item := TableInfo (text : bytes) | Item (item : output_item).

(* src/redsea.cc:205-238 with the tables: they are loaded when the first channel is made, after usage
   and version and before any input is read *)
Definition program {D : Type} (events suppl : list bytes) (fe : FileEnv) (fuel : nat) (w : World D) (ops : list Opt) (extra : bool)
    : res (option (exit_code * list program_item)) :=
  let plain := r <- main fuel w ops extra ;;
               Ok (match r with Some (code, out) => Some (code, map Item out) | None => None end) in
  match getOptions (w_numbers w) ops extra with
  | Ok o =>
      if o_early_exit o || negb (makes_channel (w_snd w) o) then plain
      else
        '(databases, infos) <- load_directories fe (o_loctable_dirs o) [] ;;
        data <- tmc_tables events suppl fe databases ;;
        r <- main fuel (with_tables w data) ops extra ;;
        let first := (if o_print_usage o then 1 else 0) + (if o_print_version o then 1 else 0) in
        Ok (match r with
            | Some (code, out) =>
                Some (code, map Item (firstn (N.to_nat first) out) ++ map TableInfo infos ++
                            map Item (skipn (N.to_nat first) out))
            | None => None
            end)
  | _ => plain
  end.
