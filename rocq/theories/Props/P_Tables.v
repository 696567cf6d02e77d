(* C91-C93: the files with keys and location tables. *)
From Verif.Model Require Import Base Util Float Group Options Tables Json RdsString Tmc Station Channel Csv Main TmcFiles.
From Verif.Spec Require Import Numerals Unicode JsonText Session Inputs Labels Identity History Quality Texts Apps Fields Frequencies Traffic Host Cases Demo Cut CommandLine TableFiles.
From Verif.Proofs Require Import JsonP SessionP Utf8P Tac Numerals TextP UpdateP SessionP ChannelP HostP AppsP TmcHistP TmcRunP TmcOnlyP TableFilesP EventsP TableProgP.
From Verif.Props Require Import P_Channel P_Radiotext P_Tmc.
From Verif.Spec Require Import TableFiles.
From Verif.Model Require Import Main.
Local Open Scope string_scope.
Local Open Scope N_scope.
Local Open Scope list_scope.

(* The program has these tables after loading the directories it was given *)
Definition loaded (events suppl : list bytes) (fe : FileEnv) (names : list bytes) (data : TmcData) : Prop :=
  exists databases infos, load_directories fe names [] = Ok (databases, infos) /\ tmc_tables events suppl fe databases = Ok data.
Definition keys_name : bytes := bs "service_key_table.csv".
Definition fits (k : ServiceKey) : Prop := key_xorstart k < 32 /\ key_xorval k * 2 ^ key_xorstart k < 2 ^ 32.

(* --- C91 --- *)
(* The keys are those of the file: the first line with a number counts; a line that is blank, has too few
   fields or a field that does not begin like a number is skipped. *)
Theorem C91_keys_of_the_file : forall events suppl fe names data keys,
  loaded events suppl fe names data -> key_file (fe_lines fe keys_name) keys -> forall n, td_key data n = first_for n keys.
Proof.
  intros events suppl fe names data keys (dbs & infos & _ & T) K n. unfold tmc_tables in T. destruct (load_supplementary _ _); [|discriminate T ..]. cbn [bind] in T. injection T as <-.
  exact (key_table _ _ n K).
Qed.
Print Assumptions C91_keys_of_the_file.
(* An encrypted message is shown with its true location if the file has the key. *)
Theorem C91_message_decrypted : forall events suppl fe names keys k env o w0 gs0 gs1 now g w c out p ms flag duration number,
  loaded events suppl fe names (env_tmc env) -> key_file (fe_lines fe keys_name) keys -> Forall (fun e => fits (snd e)) keys ->
  first_for number keys = Some k -> key_nrot k < 16 -> let pattern := (key_xorval k * 2 ^ key_xorstart k) mod 65536 in
  (forall j, is_utf8 (env_what_json env j)) -> (forall f, env_float env f = bs "null" \/ json_number (env_float env f) = true) ->
  host_text env -> o_output_type o = OutJSON ->
  traffic_from p gs0 (gs1 ++ [(now, g, w)]) ->
  always_encrypted (items_of (gs0 ++ gs1)) -> last_key (items_of gs1) number ->
  message_ok ms -> message_ok (scrambled (key_nrot k) pattern ms) -> ms_fields ms = [] -> duration < 8 ->
  user_groups (app_items (g, w)) = [single_group (scrambled (key_nrot k) pattern ms) flag duration] ->
  run_groups env o (Channel_new o w0) (gs0 ++ gs1 ++ [(now, g, w)]) = Ok (c, out) ->
  exists out' line, out = out' ++ [Some line] /\ shows_content (env_tmc env) line ms /\
    shows_number line "location" (Some (ms_location ms)) /\
    shows_number line "encrypted_location" (Some (encrypted (key_nrot k) pattern (ms_location ms))).
Proof.
  intros events suppl fe names keys k env o w0 gs0 gs1 now g w c out p ms flag duration number L K Fit Ff R pattern H1 H2 HT OJ T Ae Lk Mok Mok' Nf Hd U E.
  pose proof (C91_keys_of_the_file _ _ _ _ _ _ L K) as Keys.
  assert (H : host_ok env).
  { split; [|split; assumption]. intros i k' X. rewrite Keys in X. unfold first_for in X. destruct (find _ keys) as [e|] eqn:Ef; [|discriminate]. injection X as <-.
    apply find_some in Ef. rewrite Forall_forall in Fit. exact (Fit e (proj1 Ef)). }
  apply (C41_encrypted_single_group_message env o w0 gs0 gs1 now g w c out p ms flag duration number (key_nrot k) pattern); try assumption.
  exists k. rewrite Keys. auto.
Qed.
Print Assumptions C91_message_decrypted.
Theorem C91_long_message_decrypted : forall events suppl fe names keys k env o w0 gs0 gs1 now g w c out p ms l1 l2 earlier ci groups number,
  loaded events suppl fe names (env_tmc env) -> key_file (fe_lines fe keys_name) keys -> Forall (fun e => fits (snd e)) keys ->
  first_for number keys = Some k -> key_nrot k < 16 -> let pattern := (key_xorval k * 2 ^ key_xorstart k) mod 65536 in
  (forall j, is_utf8 (env_what_json env j)) -> (forall f, env_float env f = bs "null" \/ json_number (env_float env f) = true) ->
  host_text env -> o_output_type o = OutJSON ->
  traffic_from p gs0 (gs1 ++ [(now, g, w)]) ->
  always_encrypted (items_of (gs0 ++ gs1 ++ [(now, g, w)])) ->
  items_of (gs1 ++ [(now, g, w)]) = l1 ++ l2 -> (exists key', last_key l1 key') -> last_key (items_of gs1) number ->
  message_ok ms -> message_ok (scrambled (key_nrot k) pattern ms) ->
  sent_in (scrambled (key_nrot k) pattern ms) groups -> length groups = 2%nat \/ length groups = 5%nat ->
  multi_groups l2 = earlier ++ map (pair ci) groups ->
  multi_groups (app_items (g, w)) <> [] ->
  run_groups env o (Channel_new o w0) (gs0 ++ gs1 ++ [(now, g, w)]) = Ok (c, out) ->
  exists out' line, out = out' ++ [Some line] /\ shows_content (env_tmc env) line ms /\
    shows_number line "location" (Some (ms_location ms)) /\
    shows_number line "encrypted_location" (Some (encrypted (key_nrot k) pattern (ms_location ms))).
Proof.
  intros events suppl fe names keys k env o w0 gs0 gs1 now g w c out p ms l1 l2 earlier ci groups number L K Fit Ff R pattern H1 H2 HT OJ T Ae El Lk1 Lk Mok Mok' Sn Ln Em Nm E.
  pose proof (C91_keys_of_the_file _ _ _ _ _ _ L K) as Keys.
  assert (H : host_ok env).
  { split; [|split; assumption]. intros i k' X. rewrite Keys in X. unfold first_for in X. destruct (find _ keys) as [e|] eqn:Ef; [|discriminate]. injection X as <-.
    apply find_some in Ef. rewrite Forall_forall in Fit. exact (Fit e (proj1 Ef)). }
  apply (C41_encrypted_multi_group_message env o w0 gs0 gs1 now g w c out p ms l1 l2 earlier ci groups number (key_nrot k) pattern); try assumption.
  exists k. rewrite Keys. auto.
Qed.
Print Assumptions C91_long_message_decrypted.

(* A concrete world of files *)
Definition files_of (l : list (string * list string)) (encodings : list (string * (bytes -> option bytes))) : FileEnv :=
  mkFileEnv (fun name => match find (fun f => bytes_eqb (bs (fst f)) name) l with Some f => map bs (snd f) | None => [] end)
    (fun e => match find (fun f => bytes_eqb (bs (fst f)) e) encodings with Some f => Some (snd f) | None => None end).
(* ISO 8859-1 to UTF-8 *)
Definition latin1 (s : bytes) : option bytes := Some (flat_map (fun c => if c <? 128 then [c] else [192 + c / 64; 128 + c mod 64]) s).
Definition utf8_only (s : bytes) : option bytes := if utf8_valid s then Some s else None.
Definition encodings := [("UTF-8", utf8_only); ("ISO-8859-1", latin1)].
Definition some_events : list bytes := map bs ["Code;Description;Description with Q;N;Q;T;D;U;C;R"; "101;stationary traffic;;;;D;2;U;1;A50"].
Definition some_suppl : list bytes := map bs ["20;on bridges"].
Definition env_with (data : TmcData) : Env :=
  mkEnv (fun _ => None) (bs "iconv error") (fun _ => bs "[json.exception.type_error.316]")
        (fun _ t => Some (dec_string_Z t)) utc_normalise (fun _ => bs "0.0") data.
Definition tables_of (fe : FileEnv) (names : list bytes) : res TmcData :=
  '(databases, _) <- load_directories fe names [] ;; tmc_tables some_events some_suppl fe databases.
Lemma tables_loaded : forall fe names data, tables_of fe names = Ok data -> loaded some_events some_suppl fe names data.
Proof.
  intros fe names data E. unfold tables_of in E. destruct (load_directories fe names []) as [[dbs infos]| |] eqn:L; [|discriminate E ..]. cbn [bind] in E. exists dbs, infos. auto.
Qed.
Definition run_with (fe : FileEnv) (names : list bytes) (gs : list (Z * Group * N)) :=
  data <- tables_of fe names ;; run_groups (env_with data) Options_default (Channel_new Options_default 0) gs.

Ltac num := apply number_checked; vm_compute; reflexivity.
Ltac is_line := apply line_checked; vm_compute; reflexivity.
Definition key_lines : list string := ["number,xorval,xorstart,nrot"; "5,63,2,3"; ""; "5,1,1,1"; "007,+255,0,15,extra"].
Definition key_files : FileEnv := files_of [("service_key_table.csv", key_lines)] encodings.
Definition key_entries : list (N * ServiceKey) := [(5, mkServiceKey 63 2 3); (5, mkServiceKey 1 1 1); (7, mkServiceKey 255 0 15)].
Ltac key_is l := let fs := eval vm_compute in (fields_of 44 (bs l)) in match fs with ?a :: ?b :: ?c :: ?d :: ?more => exists a, b, c, d, more end;
  split; [is_line|]; do 4 (split; [num|]); cbn; repeat split; lia.
Example key_file_read : key_file (fe_lines key_files keys_name) key_entries.
Proof.
  change (fe_lines key_files keys_name) with (map bs key_lines). unfold key_lines, key_entries, key_file. cbn [map].
  apply lines_ignored.
  { right. let fs := eval vm_compute in (fields_of 44 (bs "number,xorval,xorstart,nrot")) in exists fs. split; [is_line|]. right. cbn [firstn]. apply Exists_cons_hd. unfold no_number, digit. lia. }
  apply lines_entry; [key_is "5,63,2,3"|]. apply lines_ignored; [left; left; reflexivity|]. apply lines_entry; [key_is "5,1,1,1"|].
  apply lines_entry; [key_is "007,+255,0,15,extra"|]. apply lines_end.
Qed.
Example C91_case : (exists data, loaded some_events some_suppl key_files [] data) /\ Forall (fun e => fits (snd e)) key_entries /\
  first_for 5 key_entries = Some (mkServiceKey 63 2 3) /\ (63 * 2 ^ 2) mod 65536 = pattern_5 /\ first_for 6 key_entries = None /\
  exists c out line, run_with key_files [] (ps_groups ++ at_times 11 encrypted_service ++ [((14 * sec)%Z, rt2 0x8408 0x5065 0x80F0, 0)]) = Ok (c, out) /\ last out None = Some line /\
    says line (msg "location") (VNum (bs "100")) /\ says line (msg "encrypted_location") (VNum (bs "33008")).
Proof.
  split; [eexists; apply tables_loaded; reflexivity|]. split; [repeat constructor|]. split; [reflexivity|]. split; [reflexivity|]. split; [reflexivity|].
  do 3 eexists. split; [vm_compute; reflexivity|]. split; [vm_compute; reflexivity|]. split; vm_compute; reflexivity.
Qed.
(* Nothing checks that a key fits: with one like this in the file, a message of an encrypted service makes the
   program shift a number by too much, which has no defined meaning. *)
Theorem C91_any_key_refuted : exists fe keys gs m, key_file (fe_lines fe keys_name) keys /\ Forall received_group gs /\ run_with fe [] gs = UB m.
Proof.
  exists (files_of [("service_key_table.csv", ["5,63,40,3"])] encodings), [(5, mkServiceKey 63 40 3)].
  eexists (ps_groups ++ at_times 11 encrypted_service ++ [((14 * sec)%Z, rt2 0x8408 0x5065 0x80F0, 0)]), _. split; [|split; [repeat constructor; reflexivity|vm_compute; reflexivity]].
  apply lines_entry; [key_is "5,63,40,3"|apply lines_end].
Qed.
Print Assumptions C91_any_key_refuted.

(* --- C92 --- *)
(* Each table number has the points and roads of the last directory that gives it, none otherwise. *)
Theorem C92_tables_of_the_directories : forall events suppl fe names data dirs,
  loaded events suppl fe names data -> Forall2 (is_directory (fe_lines fe) (fe_iconv fe)) names dirs ->
  forall n, database_is dirs n (td_locdb data n).
Proof.
  intros events suppl fe names data dirs (dbs & infos & L & T) F n. destruct (directories_read fe _ _ F []) as (dbs' & infos' & L' & _ & D). rewrite app_nil_r in L'. rewrite L in L'. injection L' as <- <-.
  unfold tmc_tables in T. destruct (load_supplementary _ _); [|discriminate T ..]. cbn [bind] in T. injection T as <-. apply database_read. exact D.
Qed.
Print Assumptions C92_tables_of_the_directories.
Lemma directory_database : forall dirs n dir db, last_with (fun d => dir_number d =? n) dirs = Some dir -> database_is dirs n db ->
  db_ltn db = number_said (dir_data dir) /\ (forall c, db_points db c = point_said (dir_data dir) c) /\ (forall c, db_roads db c = road_said (dir_data dir) c).
Proof. intros dirs n dir db L D. unfold database_is in D. rewrite L in D. exact D. Qed.
(* A message is shown with the points, names and road that the files of its table say. *)
Theorem C92_message_placed : forall events suppl fe names dirs dir env o w0 gs0 gs1 now g w c out p ms flag duration table,
  loaded events suppl fe names (env_tmc env) -> Forall2 (is_directory (fe_lines fe) (fe_iconv fe)) names dirs ->
  last_with (fun d => dir_number d =? table) dirs = Some dir -> number_said (dir_data dir) = table ->
  host_ok env -> host_text env -> o_output_type o = OutJSON ->
  traffic_from p gs0 (gs1 ++ [(now, g, w)]) ->
  never_encrypted (items_of (gs0 ++ gs1)) -> tmc_started (items_of gs1) ->
  last_table (items_of gs1) table -> table <> 0 ->
  message_ok ms -> ms_fields ms = [] -> duration < 8 -> user_groups (app_items (g, w)) = [single_group ms flag duration] ->
  run_groups env o (Channel_new o w0) (gs0 ++ gs1 ++ [(now, g, w)]) = Ok (c, out) ->
  exists out' line, out = out' ++ [Some line] /\
    shows_place (env_float env) line (mkLocdb table (point_said (dir_data dir)) (road_said (dir_data dir))) ms.
Proof.
  intros events suppl fe names dirs dir env o w0 gs0 gs1 now g w c out p ms flag duration table L F Ld Nu H HT OJ T Ne St Lt N0 Mok Nf Hd U E.
  destruct (directory_database _ _ _ _ Ld (C92_tables_of_the_directories _ _ _ _ _ _ L F table)) as (D1 & D2 & D3).
  destruct (C46_places_single_group_message env o w0 gs0 gs1 now g w c out p ms flag duration table) as (out' & line & Eo & S); try assumption; [congruence|].
  exists out', line. split; [exact Eo|]. exact (place_same _ _ _ (mkLocdb table (point_said (dir_data dir)) (road_said (dir_data dir))) _ D2 D3 S).
Qed.
Print Assumptions C92_message_placed.
Theorem C92_long_message_placed : forall events suppl fe names dirs dir env o w0 gs0 gs1 now g w c out p ms l1 l2 earlier ci groups table,
  loaded events suppl fe names (env_tmc env) -> Forall2 (is_directory (fe_lines fe) (fe_iconv fe)) names dirs ->
  last_with (fun d => dir_number d =? table) dirs = Some dir -> number_said (dir_data dir) = table ->
  host_ok env -> host_text env -> o_output_type o = OutJSON ->
  traffic_from p gs0 (gs1 ++ [(now, g, w)]) ->
  never_encrypted (items_of (gs0 ++ gs1 ++ [(now, g, w)])) ->
  items_of (gs1 ++ [(now, g, w)]) = l1 ++ l2 -> tmc_started l1 ->
  last_table (items_of gs1) table -> table <> 0 ->
  message_ok ms -> sent_in ms groups -> length groups = 2%nat \/ length groups = 5%nat ->
  multi_groups l2 = earlier ++ map (pair ci) groups ->
  multi_groups (app_items (g, w)) <> [] ->
  run_groups env o (Channel_new o w0) (gs0 ++ gs1 ++ [(now, g, w)]) = Ok (c, out) ->
  exists out' line, out = out' ++ [Some line] /\
    shows_place (env_float env) line (mkLocdb table (point_said (dir_data dir)) (road_said (dir_data dir))) ms.
Proof.
  intros events suppl fe names dirs dir env o w0 gs0 gs1 now g w c out p ms l1 l2 earlier ci groups table L F Ld Nu H HT OJ T Ne El St Lt N0 Mok Sn Ln Em Nm E.
  destruct (directory_database _ _ _ _ Ld (C92_tables_of_the_directories _ _ _ _ _ _ L F table)) as (D1 & D2 & D3).
  destruct (C46_places_multi_group_message env o w0 gs0 gs1 now g w c out p ms l1 l2 earlier ci groups table) as (out' & line & Eo & S); try assumption; [congruence|].
  exists out', line. split; [exact Eo|]. exact (place_same _ _ _ (mkLocdb table (point_said (dir_data dir)) (road_said (dir_data dir))) _ D2 D3 S).
Qed.
Print Assumptions C92_long_message_placed.
(* The texts of the tables are UTF-8 if the conversion makes UTF-8 and the road numbers are UTF-8 already. *)
Lemma name_utf8 : forall d id, Forall (fun r => is_utf8 (n_text r)) (d_names d) -> is_utf8 (name_said d id).
Proof.
  intros d [id|] F; [|apply is_utf8_nil]. unfold name_said, last_with. destruct (find _ (rev (d_names d))) as [r|] eqn:E; [|apply is_utf8_nil].
  apply find_some in E. destruct E as (I & _). apply in_rev in I. rewrite Forall_forall in F. exact (F r I).
Qed.
Theorem C92_texts_valid : forall events suppl fe names data dirs,
  loaded events suppl fe names data -> Forall2 (is_directory (fe_lines fe) (fe_iconv fe)) names dirs ->
  Forall (fun dir => Forall (fun r => is_utf8 (n_text r)) (d_names (dir_data dir)) /\ Forall (fun r => is_utf8 (r_number r)) (d_roads (dir_data dir))) dirs ->
  forall n c, (forall p, db_points (td_locdb data n) c = Some p -> is_utf8 (pt_name1 p) /\ is_utf8 (pt_road_name p)) /\
    (forall r, db_roads (td_locdb data n) c = Some r -> is_utf8 (road_number r) /\ is_utf8 (road_name r)).
Proof.
  intros events suppl fe names data dirs L F U n c. pose proof (C92_tables_of_the_directories _ _ _ _ _ _ L F n) as D. unfold database_is in D.
  destruct (last_with (fun d => dir_number d =? n) dirs) as [dir|] eqn:Ld.
  - unfold last_with in Ld. apply find_some in Ld. destruct Ld as (I & _). apply in_rev in I. rewrite Forall_forall in U. destruct (U dir I) as (U1 & U2). destruct D as (_ & D2 & D3). split.
    + intros p E. rewrite D2 in E. unfold point_said in E. destruct (last_with _ _); [|discriminate]. injection E as <-. cbn. split; apply name_utf8; exact U1.
    + intros r E. rewrite D3 in E. unfold road_said in E. destruct (last_with _ (d_roads (dir_data dir))) as [row|] eqn:Lr; [|discriminate]. injection E as <-. cbn. split; [|apply name_utf8; exact U1].
      unfold last_with in Lr. apply find_some in Lr. destruct Lr as (Ir & _). apply in_rev in Ir. rewrite Forall_forall in U2. exact (U2 row Ir).
  - destruct D as (_ & D2 & D3). split; intros ? E; [rewrite D2 in E|rewrite D3 in E]; discriminate.
Qed.
Print Assumptions C92_texts_valid.
Definition table_files (encoding road_number rnid : string) : list (string * list string) :=
  [("t/LOCATIONDATASETS.DAT", ["CID;TABCD;DCOMMENT"; "58;1;test"]);
   ("t/README.DAT", ["58;1.0;2020;2021;" ++ encoding ++ ";"]%string);
   ("t/NAMES.DAT", ["CID;NID;NAME"; "58;10;Anjala"; "58;12;Borg" ++ String (ascii_of_N 229) ""; ""; "58;11;Ring"])%string;
   ("t/ROADS.DAT", ["LCD;ROADNUMBER;RNID"; "7;" ++ road_number ++ ";11"; "9;E18;"])%string;
   ("t/SEGMENTS.DAT", ["LCD;ROA_LCD"; "8;7"]);
   ("t/POINTS.DAT", ["TABCD;LCD;N1ID;XCOORD;YCOORD;ROA_LCD;SEG_LCD;RNID"; "1;100;10;2512345;-6012345;7;;"; "1;101;12;+2512346;6012346;;8;" ++ rnid])%string;
   ("t/POFFSETS.DAT", ["LCD;NEG_OFF_LCD;POS_OFF_LCD"; "100;101;0"; "101;0;100"])].
Definition table_data (road_number : bytes) (rnid : option Z) : location_data := mkLocationData
  [mkNameRow 10 (bs "Anjala"); mkNameRow 12 (bs "Borg" ++ [195; 165]); mkNameRow 11 (bs "Ring")]
  [mkRoadRow 7 road_number (Some 11%Z); mkRoadRow 9 (bs "E18") None]
  [mkSegmentRow 8 7]
  [mkPointRow 1 100 (Some 10%Z) (Some 2512345%Z) (Some (-6012345)%Z) (Some 7) None None;
   mkPointRow 1 101 (Some 12%Z) (Some 2512346%Z) (Some 6012346%Z) None (Some 8) rnid]
  [mkOffsetRow 100 101 0; mkOffsetRow 101 0 100].
Ltac cl i := eapply (cell_checked _ _ i); [vm_compute; reflexivity ..|first [split; [num|reflexivity]|exact eq_refl|num|reflexivity]].
Ltac tbl l := let ts := eval vm_compute in (fields_of 59 (bs l)) in exists ts; do 2 eexists; split; [reflexivity|]; split; [is_line|].
Ltac data_read := split; [|split; [|split; [|split]]];
  [tbl "CID;NID;NAME"; repeat (first [apply lines_entry; [split; [cl 1%nat|split; [discriminate|cl 2%nat]]|]|apply lines_ignored; [left; reflexivity|]]); apply lines_end
  |tbl "LCD;ROADNUMBER;RNID"; repeat (apply lines_entry; [split; [cl 0%nat|split; [cl 1%nat|cl 2%nat]]|]); apply lines_end
  |tbl "LCD;ROA_LCD"; apply lines_entry; [split; [cl 0%nat|split; [discriminate|cl 1%nat]]|apply lines_end]
  |tbl "TABCD;LCD;N1ID;XCOORD;YCOORD;ROA_LCD;SEG_LCD;RNID";
   repeat (apply lines_entry; [split; [cl 0%nat|]; split; [cl 1%nat|]; split; [cl 2%nat|]; split; [cl 3%nat|]; split; [cl 4%nat|]; split; [cl 5%nat|]; split; [discriminate|]; split; [cl 6%nat|cl 7%nat]|]); apply lines_end
  |tbl "LCD;NEG_OFF_LCD;POS_OFF_LCD"; repeat (apply lines_entry; [split; [cl 0%nat|split; [cl 1%nat|cl 2%nat]]|]); apply lines_end].
Ltac dir_read := split; [|split];
  [exists [1]; split; [tbl "CID;TABCD;DCOMMENT"; apply lines_entry; [cl 1%nat|apply lines_end]|reflexivity]
  |exists [bs "ISO 8859-1"], (bs "ISO-8859-1"), latin1; split; [|split; [|split; [reflexivity|data_read]]];
   [apply lines_entry; [let fs := eval vm_compute in (fields_of 59 (bs "58;1.0;2020;2021;ISO 8859-1;")) in exists fs; split; [is_line|reflexivity]|apply lines_end]
   |left; split; [exists 32, []; split; [reflexivity|exact I]|reflexivity]]
  |constructor; [discriminate|]; constructor; [vm_compute; discriminate|constructor]].
Definition files_t (encoding road_number rnid : string) : FileEnv := files_of (table_files encoding road_number rnid) encodings.
Definition is_dir (fe : FileEnv) := is_directory (fe_lines fe) (fe_iconv fe).
Example table_read : is_dir (files_t "ISO 8859-1" "E12" "11") (bs "t") (mkDirectory 1 (table_data (bs "E12") (Some 11%Z))).
Proof. dir_read. Qed.
Definition jam_groups : list (Z * Group * N) := ps_groups ++ at_times 11 [plain_service] ++ [((12 * sec)%Z, rt2 0x8408 0x4865 0x0064, 0)].
Example C92_case : (exists data, loaded some_events some_suppl (files_t "ISO 8859-1" "E12" "11") [bs "t"] data) /\ number_said (table_data (bs "E12") (Some 11%Z)) = 1 /\
  last_with (fun d => dir_number d =? 1) [mkDirectory 1 (table_data (bs "E12") (Some 11%Z))] = Some (mkDirectory 1 (table_data (bs "E12") (Some 11%Z))) /\ (match point_said (table_data (bs "E12") (Some 11%Z)) 101 with Some p => pt_roa_lcd p = 7 | None => False end) /\
  exists c out line, run_with (files_t "ISO 8859-1" "E12" "11") [bs "t"] jam_groups = Ok (c, out) /\ last out None = Some line /\
    says line (msg "location") (VNum (bs "100")) /\ says line (msg "span_from") (VStr (bs "Anjala")) /\ says line (msg "span_to") (VStr (bs "Borg" ++ [195; 165])) /\
    says line (msg "road_number") (VStr (bs "E12")) /\ says line (msg "road_name") (VStr (bs "Ring")).
Proof.
  split; [eexists; apply tables_loaded; vm_compute; reflexivity|]. split; [reflexivity|]. split; [reflexivity|]. split; [vm_compute; reflexivity|].
  do 3 eexists. split; [vm_compute; reflexivity|]. split; [vm_compute; reflexivity|]. split; [vm_compute; reflexivity|]. split; [vm_compute; reflexivity|]. split; [vm_compute; reflexivity|].
  split; vm_compute; reflexivity.
Qed.
(* Names are converted to UTF-8, but road numbers are not: with a number that is not plain ASCII in a table in
   ISO-8859-1, a message on that road is not shown at all. *)
Theorem C92_converted_refuted : exists fe dir c out line, is_dir fe (bs "t") dir /\
  run_with fe [bs "t"] jam_groups = Ok (c, out) /\ last out None = Some line /\ only_error line.
Proof.
  exists (files_t "ISO 8859-1" (String (ascii_of_N 214) "3") "11"), (mkDirectory 1 (table_data (214 :: bs "3") (Some 11%Z))). do 3 eexists. split; [dir_read|]. split; [vm_compute; reflexivity|]. split; [vm_compute; reflexivity|].
  eexists. vm_compute. reflexivity.
Qed.
Print Assumptions C92_converted_refuted.
(* A point whose segment is on a road that the table does not have is not known at all. *)
Definition lost_files : list (string * list string) :=
  [("/NAMES.DAT", ["CID;NID;NAME"; "58;10;Anjala"]); ("/ROADS.DAT", ["LCD;ROADNUMBER;RNID"; "9;E18;"]); ("/SEGMENTS.DAT", ["LCD;ROA_LCD"; "8;7"]);
   ("/POINTS.DAT", ["TABCD;LCD;N1ID;XCOORD;YCOORD;ROA_LCD;SEG_LCD;RNID"; "1;100;10;2512345;6012345;;8;"]); ("/POFFSETS.DAT", ["LCD;NEG_OFF_LCD;POS_OFF_LCD"])].
Theorem C92_unknown_road_refuted : exists file d lt code, data_set utf8_only file d /\
  lt = loadLocationTables utf8_only (file "/NAMES.DAT") (file "/ROADS.DAT") (file "/SEGMENTS.DAT") (file "/POINTS.DAT") (file "/POFFSETS.DAT") /\
  point_said d code <> None /\ db_points (location_database lt) code = None.
Proof.
  exists (fun s => fe_lines (files_of lost_files []) (bs s)), (mkLocationData [mkNameRow 10 (bs "Anjala")] [mkRoadRow 9 (bs "E18") None] [mkSegmentRow 8 7]
    [mkPointRow 1 100 (Some 10%Z) (Some 2512345%Z) (Some 6012345%Z) None (Some 8) None] []).
  eexists _, 100. split; [data_read|]. split; [reflexivity|]. split; [discriminate|vm_compute; reflexivity].
Qed.
Print Assumptions C92_unknown_road_refuted.

(* --- C93 --- *)
(* The program with directories of tables: it says what each has, in the order given, then goes on as the
   program would with these tables. *)
Theorem C93_tables_then_groups : forall (D : Type) events suppl supplementary fe fuel (w : World D) ops extra o dirs, Forall known ops ->
  getOptions (w_numbers w) ops extra = Ok o -> o_early_exit o = false -> makes_channel (w_snd w) o = true ->
  load_supplementary (readCSV suppl semicolon) [] = Ok supplementary ->
  Forall2 (is_directory (fe_lines fe) (fe_iconv fe)) (o_loctable_dirs o) dirs ->
  exists data infos, Forall2 table_info dirs infos /\ (forall n, database_is dirs n (td_locdb data n)) /\
    (forall keys k, key_file (fe_lines fe keys_name) keys -> td_key data k = first_for k keys) /\
    (forall c, td_event data c = find_code c (loadEvents events)) /\ (forall c, td_suppl data c = find_code c supplementary) /\
    program events suppl fe fuel w ops extra =
      (r <- main fuel (with_tables w data) ops extra ;;
       Ok (match r with Some (code, out) => Some (code, map TableInfo infos ++ map Item out) | None => None end)).
Proof. exact program_loads. Qed.
Print Assumptions C93_tables_then_groups.
(* Without an option -l: nothing is said about tables, and no place is known. *)
Theorem C93_no_tables_without_option : forall (D : Type) events suppl supplementary fe fuel (w : World D) ops extra o, Forall known ops ->
  getOptions (w_numbers w) ops extra = Ok o -> o_early_exit o = false -> makes_channel (w_snd w) o = true ->
  load_supplementary (readCSV suppl semicolon) [] = Ok supplementary -> o_loctable_dirs o = [] ->
  exists data, (forall n c, db_points (td_locdb data n) c = None) /\
    program events suppl fe fuel w ops extra =
      (r <- main fuel (with_tables w data) ops extra ;; Ok (match r with Some (code, out) => Some (code, map Item out) | None => None end)).
Proof.
  intros D events suppl supplementary fe fuel w ops extra o K G X M S Nd. destruct (program_loads D events suppl supplementary fe fuel w ops extra o []) as (data & infos & F & Db & _ & _ & _ & E); try assumption.
  { rewrite Nd. constructor. }
  inversion F; subst infos. exists data. split; [|exact E]. intros n c. apply (Db n).
Qed.
Print Assumptions C93_no_tables_without_option.
Definition hex_input : bytes := flat_map (fun s => bs s ++ [10]) ["1234 0408 E0CD 4142"; "1234 0408 E0CD 4142"; "1234 0409 E0CD 4344"].
Definition table_options : list Opt := [OptChar "h" []; OptChar "l" (bs "t")].
Example C93_case : Forall known table_options /\ (exists o, getOptions (w_numbers (text_world [])) table_options false = Ok o /\ o_early_exit o = false /\ o_loctable_dirs o = [bs "t"] /\ makes_channel (w_snd (text_world [])) o = true) /\
  (exists s, load_supplementary (readCSV some_suppl semicolon) [] = Ok s) /\
  exists line out, program some_events some_suppl (files_t "ISO 8859-1" "E12" "11") 0 (Cut.reading (text_world []) hex_input) table_options false =
    Ok (Some (EXIT_SUCCESS, [TableInfo (bs "{""location_table_info"":{""ltn"":1,""num_points"":2,""num_roads"":2,""num_names"":3}}"); Item (Line 0 line)] ++ out)).
Proof.
  split; [repeat constructor; vm_compute; tauto|]. split; [eexists; split; [vm_compute; reflexivity|repeat split]|]. split; [eexists; vm_compute; reflexivity|]. do 2 eexists. vm_compute. reflexivity.
Qed.
(* An encoding that the conversion library does not know is an exception that nothing catches: the program ends
   before the first group. *)
Theorem C93_unknown_encoding_refuted : exists fe m, fe_iconv fe (bs "latin1") = None /\
  program some_events some_suppl fe 0 (Cut.reading (text_world []) hex_input) table_options false = Throw m.
Proof. exists (files_t "latin1" "E12" "11"). eexists. split; [reflexivity|vm_compute; reflexivity]. Qed.
Print Assumptions C93_unknown_encoding_refuted.
(* The number of names in the line about a table is not always that of the names in the file. *)
Theorem C93_names_counted_refuted : exists fe dir code line out, is_dir fe (bs "t") dir /\
  program some_events some_suppl fe 0 (Cut.reading (text_world []) []) table_options false = Ok (Some (code, TableInfo line :: out)) /\
  says line (info "num_names") (VNum (bs "4")) /\ length (d_names (dir_data dir)) = 3%nat.
Proof.
  exists (files_t "ISO 8859-1" "E12" ""), (mkDirectory 1 (table_data (bs "E12") None)). do 3 eexists. split; [dir_read|]. split; [vm_compute; reflexivity|]. split; [vm_compute; reflexivity|reflexivity].
Qed.
Print Assumptions C93_names_counted_refuted.
(* With hexadecimal output the line about a table is printed all the same, so that the output is not only groups. *)
Theorem C93_hex_only_groups_refuted : exists line, program some_events some_suppl (files_t "ISO 8859-1" "E12" "11") 0 (Cut.reading (text_world []) hex_input)
  (table_options ++ [OptChar "x" []]) false = Ok (Some (EXIT_SUCCESS, [TableInfo line; Item (Line 0 (bs "1234 0408 E0CD 4142")); Item (Line 0 (bs "1234 0408 E0CD 4142")); Item (Line 0 (bs "1234 0409 E0CD 4344"))])).
Proof. eexists. vm_compute. reflexivity. Qed.
Print Assumptions C93_hex_only_groups_refuted.
